#!/usr/bin/env python3
"""Source of /verif/properties.jsonl (one JSON object per line)."""
import json, os
P = []
def p(id, title, statement, quantifier, why, anchors):
    P.append(dict(id=id, title=title, statement=statement, quantifier=quantifier,
                  why_tests_cant=why, anchors=anchors))

# ---------------------------------------------------------------- object files
p("C01", "Memory image behaves as a byte map",
  "After any sequence of byte writes to an initially empty memory image, hasByte(a) is true exactly for the addresses written, and readByte(a) returns the value of the last write to a (0 when a was never written).",
  "all finite sequences of writes over all 32-bit addresses and all byte values, in any order, with any overlap",
  "The image keeps a sorted map of contiguous blocks that are extended, split off and merged depending on write order; only a representative few of the unbounded orders can be tested.",
  ["driver/bin_memory.cpp BinMemory::writeByte/readByte/hasByte/find/createBlock/aggregate", "driver/bin_memory.h"])
p("C02", "Memory image is canonical and its block list is complete",
  "After any sequence of writes the block list visited by begin()/next() is sorted, its blocks are non-empty, pairwise disjoint and never adjacent, and together contain exactly the bytes written; two images compare equal exactly when they hold the same bytes at the same addresses.",
  "all pairs of write sequences",
  "Equality of images is what stops the multi-pass assembler; it must not depend on write order for any order.",
  ["driver/bin_memory.cpp BinMemory::operator==", "driver/bin_memory.cpp BinMemory::aggregate/createBlock (next pointers)", "cli/asm_commander.cpp AsmCommander::assemble"])
p("C03", "Restricting a memory image to an address range",
  "setRange(start,end) with start<=end keeps exactly the bytes whose address lies in [start,end] and drops all others.",
  "all images, all ranges",
  "Depends on the position of every block relative to both ends of the range.",
  ["driver/bin_memory.cpp BinMemory::setRange/trimStart/trimEnd"])
p("C04", "Intel HEX written by the assembler reads back to the same image",
  "Encoding an image as Intel HEX and decoding the text gives back the same image.",
  "all images, all address widths, all record sizes",
  "The extended-address record logic depends on where blocks cross 64 KiB boundaries and on the checksum value.",
  ["driver/intel_hex.cpp IntelHex::encode/formatEla/encodeLine/decode", "driver/bin_encoder.cpp BinEncoder::encode", "driver/bin_decoder.cpp BinDecoder::decode"])
p("C05", "Motorola S-record written by the assembler reads back to the same image",
  "Encoding an image whose addresses fit the address field as S1/S2/S3 records and decoding the text gives back the same image.",
  "all images, all address widths, all record sizes the length byte can hold",
  "Every combination of address width, record boundary and data must keep length and checksum consistent.",
  ["driver/moto_srec.cpp MotoSrec::encode/begin/end/decode", "driver/bin_encoder.cpp"])
p("C06", "A damaged hex record is rejected",
  "Changing any single hex digit of a data record (Intel HEX or S-record) that the encoder wrote makes decoding that record fail, and a rejected record contributes no bytes to the image.",
  "all records, all positions, all replacement digits",
  "Quantifies over every record content and every corruption.",
  ["driver/intel_hex.cpp IntelHex::decode", "driver/moto_srec.cpp MotoSrec::decode"])
p("C07", "Object file encoding terminates and covers the image once",
  "For every image and record size the encoder emits finitely many data records, each holding at most the record size, which partition the bytes of the image.",
  "all images, all record sizes 0..255",
  "A loop over blocks with a caller-controlled stride.",
  ["driver/bin_encoder.cpp BinEncoder::encode", "cli/asm_commander.cpp AsmCommander::parseArgs"])
p("C08", "Output format options are honoured",
  "When -S (resp. -H) is given the output file is in Motorola S-record (resp. Intel HEX) format whatever the target CPU's default format is.",
  "all CPUs' default formats, both options",
  "The selection is by assignment through a base-class reference; every combination matters.",
  ["cli/asm_commander.cpp AsmCommander::assemble"])
p("C09", "Bytes of every line are stored at the line's address",
  "After a pass, the image holds for every source line the generated bytes at (address * address unit), and each byte can be written to the object file and read back at that address.",
  "all programs, all CPUs (byte- and word-addressed)",
  "Depends on the sequence of all lines and on address unit and address width together.",
  ["driver/asm_driver.cpp AsmDriver::assemble", "driver/bin_encoder.cpp BinEncoder::addressSize"])
# ---------------------------------------------------------------- driver
p("C10", "Multi-pass assembly stops at a fixed point",
  "If the pass loop ends without reported errors then the last pass produced the same image and symbol table as the pass before it; and the loop ends for every program.",
  "all source programs",
  "Symbol values feed back into later passes; termination over all programs is not testable.",
  ["cli/asm_commander.cpp AsmCommander::assemble", "driver/asm_directive.cpp AsmDirective::encode/defineSymbol", "driver/symbol_store.cpp"])
p("C11", "Symbol table laws",
  "A symbol defined by a label or EQU and one defined by SET never share a name; lookup returns the last value interned under that exact name; interning a name never changes another name; values that do not fit 32 bits are refused.",
  "all sequences of definitions and lookups",
  "Two maps must stay disjoint over every history.",
  ["driver/symbol_store.cpp SymbolStoreImpl::internSymbol/lookupSymbol/hasValue/hasSymbol/copy/operator=="])
p("C12", "User function call is call by value",
  "Calling a function defined by FUNCTION with n parameters on n argument expressions yields the value of its body with each parameter bound to the argument's value; a call with another argument count is refused; evaluation ends.",
  "all function definitions, all argument lists, all calling contexts",
  "Parameters are bound to positions of a shared value stack; depends on every nesting.",
  ["driver/function_store.cpp FunctionStore::Function::eval/Binding", "src/operators.cpp Operator::eval", "src/value_parser.cpp ValueParser::_eval"])
p("C13", "Every source line is read exactly once, in order",
  "Reading a source file yields exactly the lines of the file in order, whatever the line lengths, and with INCLUDE the lines of an included file appear, in order, between the INCLUDE line and the line after it, with at most four files open.",
  "all file contents and include trees",
  "Buffer growth depends on line length; nesting on the whole include history.",
  ["cli/file_reader.cpp getLine/FileReader::readLine", "driver/asm_sources.h AsmSources::readLine", "cli/file_sources.h FileSources::open"])
p("C14", "Listing shows each generated byte at its address",
  "The listing of one source line shows every generated byte exactly once, in order, and each listing line starts with the address of its first byte.",
  "all instruction lengths, all endian/opcode width/address unit configurations",
  "Line splitting depends on length, width, unit and parity.",
  ["driver/list_formatter.cpp ListFormatter::formatBytes/formatAddress/formatValue", "driver/asm_formatter.cpp AsmFormatter::getLine"])
p("C15", "Disassembly of an image terminates and covers every byte",
  "The disassembler driver visits every byte of every block exactly once, in order, and ends.",
  "all images, all CPUs",
  "Progress depends on each decode consuming at least one byte for every address and content.",
  ["driver/dis_driver.cpp DisDriver::disassemble", "src/dis_base.cpp Disassembler::decode"])
# ---------------------------------------------------------------- numbers and expressions
p("C16", "Integer constants denote their positional value",
  "Reading a digit string in radix 2, 8, 10 or 16 gives its positional value, consumes exactly the digits, and reports overflow exactly when the value exceeds 2^64-1.",
  "all digit strings of any length, followed by any text",
  "Overflow detection must be exact for every length and digit.",
  ["src/value.cpp strToNumber/Value::read"])
p("C17", "Formatted numbers read back as the same number",
  "For each supported number notation, the text the disassembler prints for a value (decimal, octal, binary or hexadecimal, any case option, any width, signed or unsigned) is read by the assembler's number parser of the same family as the same value.",
  "all 32-bit values, all widths, both cases, every notation",
  "2^32 values times widths times notations, with any following text.",
  ["src/formatters.cpp", "src/value_formatter.cpp", "src/parsers.cpp", "src/number_parser.h"])
p("C18", "Expression value equals the value of the precedence tree",
  "Evaluating the text of an expression gives the value of the tree obtained with the documented operator precedence and associativity, or reports an error.",
  "all expressions of any depth over all operators of a syntax family",
  "Shunting-yard evaluation over unbounded expressions.",
  ["src/value_parser.cpp ValueParser::_eval", "src/operators.cpp Operator::isHigher/isNoneAssoc/eval"])
p("C19", "Expression evaluation never leaves its fixed-size stacks",
  "For every input text the evaluator reads and writes only the 8 slots of its value stack and of its operator stack, and too deep expressions are reported as too complex.",
  "all texts, all operator families",
  "Depends on every possible nesting; out-of-bounds writes are undefined behaviour in C++.",
  ["src/stack.h", "src/operators.h ValueStack", "src/value_parser.cpp ValueParser::_eval", "src/operators.cpp Pdp11OperatorParser::readPrefix"])
p("C20", "Malformed expressions are reported",
  "An expression with a missing operand, missing parenthesis or a non-associative chain is reported as an error and not given a value.",
  "all malformed expressions",
  "Unbounded set of malformed texts.",
  ["src/value_parser.cpp ValueParser::_eval", "src/operators.cpp Operator::eval"])
p("C21", "Expression evaluation terminates and consumes a prefix",
  "Evaluation terminates on every text and leaves the scanner on a suffix of the text; an expression that consumes nothing is reported.",
  "all texts, all syntax families",
  "Loop over arbitrary text.",
  ["src/value_parser.cpp ValueParser::eval/_eval"])
p("C22", "Integer arithmetic is exact when representable",
  "Addition, subtraction, multiplication, division, remainder, negation, complement, and, or, xor, shifts and powers of integer values give the mathematical result whenever it is representable, and division or remainder by zero is an error.",
  "all pairs of 64-bit signed or unsigned values",
  "2^129 pairs.",
  ["src/value.cpp Value::operator+,-,*,/,%,~,&,|,^,<<,>>,exponential", "src/operators.cpp"])
p("C23", "Comparison operators implement the order of integers",
  "==, !=, <, <=, >, >= of two integer values agree with the order of the integers they denote (in particular exactly one of <, ==, > holds).",
  "all pairs of 64-bit signed or unsigned values",
  "Signed/unsigned mixes at the 2^63 boundary.",
  ["src/value.cpp Value::operator==,operator<", "src/operators.cpp less_than..logical_not_equal"])
p("C24", "Range predicates are exact",
  "overflowInt8/Uint8/Int16/Uint16/Int32/Uint32 and overflow(max,min) answer true exactly when the integer value lies outside the named range.",
  "all 64-bit signed or unsigned values, all bounds",
  "All boundary combinations.",
  ["src/value.cpp Value::overflow*"])
# ---------------------------------------------------------------- emission and text buffers
p("C25", "Instruction bytes are emitted within the buffer",
  "No sequence of emit operations writes outside the 64-byte instruction buffer; a write past the end is reported as no-memory; the bytes and length are those of the writes accepted.",
  "all sequences of emit operations with any positions",
  "Every interleaving of positions and widths.",
  ["src/insn_base.h Insn", "src/insn_base.cpp Insn::emitByte/emitUint16Be/..."])
p("C26", "Multi-byte values survive emit and read in both byte orders",
  "Emitting a 16-, 32- or 64-bit value in big or little endian and reading it back from memory in the same order gives the value, with the byte order named.",
  "all values, all positions",
  "2^64 values.",
  ["src/insn_base.cpp Insn::emitUint16Be/Le/32/64", "src/insn_base.cpp DisInsnBase::readUint16Be/Le/32/64"])
p("C27", "The first error is kept",
  "setErrorIf keeps the first error of a sequence; setError overwrites; an undefined-symbol error does not count as a hard error.",
  "all sequences of error reports",
  "All histories.",
  ["src/error_reporter.h ErrorAt"])
p("C28", "Text output stays within its buffer",
  "No sequence of output operations writes outside the caller's buffer; the buffer is always NUL-terminated; its content is a prefix of the unbounded output; overflow is reported.",
  "all buffer sizes >= 1, all sequences of output operations",
  "All sequences and sizes.",
  ["src/str_buffer.cpp", "src/str_buffer.h"])
p("C29", "Text scanning stays within its view",
  "No sequence of scanner operations moves the scanner outside [start,end) of the text it was created on.",
  "all texts, all sequences of scanner operations",
  "All sequences.",
  ["src/str_scanner.h", "src/str_scanner.cpp"])
# ---------------------------------------------------------------- addresses
p("C30", "Sign extension, delta range and branch distance",
  "signExtend(x,w) is the unique value in [-2^(w-1),2^(w-1)) congruent to x modulo 2^w; overflowDelta(d,w) holds exactly outside that interval; branchDelta returns target-base exactly when both lie in the address space and the distance fits, and reports overflow otherwise.",
  "all 32-bit values, all widths",
  "All widths and values.",
  ["src/config_base.cpp ConfigBase::signExtend/overflowDelta", "src/asm_base.cpp Assembler::branchDelta"])
p("C31", "Address range check",
  "checkAddr accepts exactly the addresses below 2^addressWidth (and even ones when alignment is asked); with a segment width it accepts exactly those in the same 2^width-sized segment as the base.",
  "all addresses, all widths",
  "All values.",
  ["src/config_base.cpp ConfigBase::checkAddr"])
p("C32", "Alignment directive",
  "ALIGN n moves the location to the least multiple of n that is not below it, for every n.",
  "all locations, all n",
  "All n including 0.",
  ["src/asm_base.cpp Assembler::alignOrigin", "src/insn_base.h Insn::align"])
p("C33", "Data directives emit what they denote",
  "Byte, word and long data directives emit, for every list of constants, the constants in order in the target's byte order, padded as documented; a constant that does not fit the element is reported.",
  "all constant lists and strings",
  "Unbounded lists.",
  ["src/asm_base.cpp Assembler::defineDataConstant/generateString/isString"])
p("C34", "Origin and space reservation",
  "ORG sets the location to its operand when that is an address of the target and reports an error otherwise; DS n advances the location by n units.",
  "all operands",
  "All 64-bit operand values.",
  ["src/asm_base.cpp Assembler::defineOrigin/allocateSpaces"])
# ---------------------------------------------------------------- tables
p("C35", "Table search finds an entry exactly when one exists",
  "Searching an instruction, register or directive table by name finds the first acceptable entry in table order whenever the table has one and nothing otherwise.",
  "all tables sorted in the required order, all names, all acceptance predicates",
  "Binary search over every table content.",
  ["src/table_base.h Table::binarySearch/IndexedTable::binarySearch", "src/entry_table.h CpuBase::searchName/searchOpCode", "src/reg_base.cpp NameTable::searchText"])
p("C36", "Every instruction table is searchable",
  "For every supported CPU every mnemonic in its instruction tables is found by the assembler's name search (the index tables are permutations in sorted order).",
  "all entries of all instruction tables of all CPUs",
  "The tables hold thousands of hand-maintained rows; one misplaced index hides instructions.",
  ["src/table_*.cpp TABLE_*/INDEX_*", "src/text_*.cpp"])
p("C37", "Mnemonics are case-insensitive and exact",
  "An instruction or register name matches a table entry exactly when it equals it up to letter case.",
  "all texts",
  "All names.",
  ["src/reg_base.cpp textMatcher", "src/entry_table.h nameComparator"])
p("C38", "Register numbers are canonical decimal",
  "A numbered register (R12, X3 ...) is recognised exactly when the digits behind the letter are a decimal number of at most 9999 without superfluous leading zeros and no letter, digit or underscore follows; otherwise the text is a symbol.",
  "all texts",
  "All digit strings of any length.",
  ["src/reg_base.cpp parseRegNumber"])
p("C39", "No directive hides an instruction",
  "A name that a processor's assembler takes as a directive is not also a mnemonic of that processor, so no instruction is unreachable behind a directive of the same name.",
  "all processors, directives and mnemonics, in every spelling",
  "Directive tables are searched first; every pair of names matters.",
  ["src/asm_base.cpp Assembler::processPseudo", "src/asm_*.cpp PSEUDOS", "src/table_*.cpp"])
# ---------------------------------------------------------------- CPUs
p("C40", "i8080: assembling the disassembly gives back the bytes",
  "For every byte sequence that the 8080/8085/V30EMU disassembler accepts, in Intel and in Zilog syntax, assembling the printed line at the same address yields exactly the bytes consumed, without error.",
  "all memory contents, addresses, CPU variants, syntaxes and letter-case options",
  "All opcodes times all operand values, through text.",
  ["src/asm_i8080.cpp", "src/dis_i8080.cpp", "src/table_i8080.cpp", "src/reg_i8080.cpp"])
p("C41", "i8080: decoding is total and consumes 1..3 bytes",
  "Decoding at any address any memory content either accepts an instruction of 1 to 3 bytes or reports an error, never reading past the available memory.",
  "all memory contents, addresses and variants",
  "All contents and lengths.",
  ["src/dis_i8080.cpp DisI8080::decodeImpl", "src/insn_base.cpp DisInsnBase::readByte"])
p("C42", "i8080: out-of-range operands are reported",
  "An 8-bit (resp. 16-bit) operand whose value does not fit 8 (resp. 16) bits is reported as overflow.",
  "all operand values",
  "All 64-bit values.",
  ["src/asm_i8080.cpp AsmI8080::encodeOperand"])
# ---------------------------------------------------------------- lines and passes
p("C43", "END ends the assembly",
  "Lines after a line with the END statement contribute nothing to image, symbols and listing.",
  "all programs, all CPUs",
  "Depends on what follows END in any program.",
  ["driver/asm_directive.cpp AsmDirective::encode/endAssemble", "driver/asm_driver.cpp AsmDriver::assemble"])
p("C44", "A label defined twice is reported",
  "If two lines of a program define the same label or constant then an error is reported for one of them.",
  "all programs, all kinds of lines that define a label",
  "Depends on every pair of lines.",
  ["driver/asm_directive.cpp AsmDirective::encode/defineSymbol", "driver/symbol_store.cpp SymbolStoreImpl::hasSymbol"])
p("C45", "A reference to an undefined symbol is reported",
  "If the command ends without reported errors then every symbol an operand refers to is defined.",
  "all programs",
  "Errors are suppressed in one pass and expected in another; depends on how many passes are made.",
  ["driver/asm_directive.cpp AsmDirective::encode", "cli/asm_commander.cpp AsmCommander::assemble"])
p("C46", "Every pass starts from the same settings",
  "Each pass assembles the source with the settings (CPU, options, syntax) the first pass started with.",
  "all programs, all settings a program can make",
  "Settings made by the source persist in objects; depends on the whole program.",
  ["cli/asm_commander.cpp AsmCommander::assemble", "src/asm_base.cpp Assembler::reset/setOption", "src/asm_i8080.cpp AsmI8080::processPseudo"])
p("C47", "Text after a complete statement is reported",
  "A line whose statement is followed by text that is not a comment is reported as an error.",
  "all lines, all CPUs",
  "All texts.",
  ["src/asm_base.cpp Assembler::encode", "driver/asm_directive.cpp AsmDirective::encode"])
p("C48", "A disassembly can be assembled again",
  "The text the disassembler command prints for an image, given to the assembler command, is accepted and yields the same image.",
  "all images, all options of the disassembler",
  "All images; the text of every instruction and number form must be read back, through both commands.",
  ["driver/dis_driver.cpp DisDriver::disassemble", "driver/dis_formatter.cpp DisFormatter", "driver/asm_driver.cpp AsmDriver::assemble", "src/dis_i8080.cpp", "src/asm_i8080.cpp"])
p("C49", "An expression depends only on the names in its text",
  "The value, error and rest of text of evaluating an expression are the same in any two contexts with the same location and delimiter that agree on the symbols and functions whose names occur in the text: definitions of other names never change a line.",
  "all texts, all pairs of symbol and function tables, all syntaxes",
  "Pairs of arbitrary symbol tables and arbitrary text; tests compare a few fixed tables.",
  ["src/value_parser.cpp ValueParser::eval", "src/symbol_table.h SymbolTable", "driver/function_store.cpp"])
p("C50", "6800 family: assembling the disassembly gives back the bytes",
  "For every byte sequence that the 6800/MB8861/6801/6301/68HC11 disassembler accepts, assembling the printed line at the same address yields exactly the bytes consumed, without error, branch targets included, absolute or relative to the location.",
  "all memory contents, addresses, CPU variants, number notations and letter-case options, symbols, blanks and comments",
  "All opcodes and prefixes times all operand values and branch distances, through text.",
  ["src/asm_mc6800.cpp", "src/dis_mc6800.cpp", "src/table_mc6800.cpp", "src/reg_mc6800.cpp"])
p("C51", "6800 family: decoding is total and consumes 1..5 bytes",
  "Decoding at any address any memory content either accepts an instruction of 1 to 5 bytes or reports an error, never reading past the available memory; what follows an accepted instruction does not matter.",
  "all memory contents, addresses, variants and options",
  "All contents and lengths.",
  ["src/dis_mc6800.cpp DisMc6800::decodeImpl", "src/insn_base.cpp DisInsnBase::readByte"])
p("C52", "6800 family: operands and branches out of range are reported",
  "A branch is accepted exactly when its target is an address within -128..127 of its end and then holds that distance; an immediate, direct, extended or indexed operand that does not fit its field is reported.",
  "all values of all operand expressions, all addresses",
  "All 64-bit values at all addresses.",
  ["src/asm_mc6800.cpp AsmMc6800::emitOperand", "src/asm_mc6800.cpp AsmMc6800::emitRelative"])
p("C53", "CPU chooses the assembler of the lines that follow",
  "After the statement CPU name, lines are assembled by the first assembler that knows this processor, set to it, and the listing keeps its radix; the other assemblers keep their state, and the statement generates nothing.  An unknown name is reported and changes nothing; no other line changes the choice.",
  "all sets of assemblers, all programs and positions in them, all names",
  "The switch involves every pair of assemblers and all their states.",
  ["driver/asm_driver.cpp AsmDriver::setCpu", "driver/asm_directive.cpp AsmDirective::switchCpu"])
p("C54", "F8: assembling the disassembly gives back the bytes",
  "For every non-empty byte sequence that the F3850 disassembler accepts, assembling the printed line at the same address yields exactly the bytes consumed, without error, branch targets included, absolute or relative to the location with any of the location symbols * $ .",
  "all memory contents, addresses, number notations and letter-case options, symbols, blanks and comments",
  "All opcodes times all operand values and branch distances, through text; register names and numbers share the notation with letter prefixes such as H'1F'.",
  ["src/asm_f3850.cpp", "src/dis_f3850.cpp", "src/table_f3850.cpp", "src/reg_f3850.cpp"])
p("C55", "F8: decoding is total and consumes 1..3 bytes",
  "Decoding at any address any memory content either accepts an instruction of 1 to 3 bytes or reports an error, never reading past the available memory; what follows an accepted instruction does not matter.",
  "all memory contents, addresses and options",
  "All contents and lengths.",
  ["src/dis_f3850.cpp DisF3850::decodeImpl", "src/insn_base.cpp DisInsnBase::readByte"])
p("C56", "F8: operands and branches out of range are reported",
  "A branch is accepted exactly when its target is an address within -128..127 of its second byte and then holds that distance; an immediate byte, a port, an address, a 3-bit or 4-bit number, a register number or a shift count that does not fit is reported.",
  "all values of all operand expressions, all addresses",
  "All 64-bit values at all addresses.",
  ["src/asm_f3850.cpp AsmF3850::encodeOperand", "src/asm_f3850.cpp AsmF3850::emitRelative"])
p("C57", "Z80: assembling the disassembly gives back the bytes",
  "For every non-empty byte sequence that the Z80 disassembler accepts, assembling the printed line at the same address yields exactly the bytes consumed, without error, branch targets included, absolute or relative to the location written $.",
  "all memory contents (all opcode pages and prefixes), addresses, number notations and letter-case options, symbols, blanks and comments",
  "Seven opcode pages times all operand values and branch distances, through text.",
  ["src/asm_z80.cpp", "src/dis_z80.cpp", "src/table_z80.cpp", "src/reg_z80.cpp"])
p("C58", "Z80: decoding is total and consumes 1..4 bytes",
  "Decoding at any address any memory content either accepts an instruction of 1 to 4 bytes or reports an error, never reading past the available memory; what follows an accepted instruction does not matter.",
  "all memory contents, addresses and options",
  "All contents and lengths, with prefixes in any order.",
  ["src/dis_z80.cpp DisZ80::decodeImpl", "src/insn_base.cpp DisInsnBase::readByte"])
p("C59", "Z80: operands and branches out of range are reported",
  "A branch is accepted exactly when its target is an address within -128..127 of its end and then holds that distance; an immediate byte, a port, a displacement of an index register, a bit number, a restart address, an interrupt mode, a word or an address that does not fit is reported, and otherwise its field holds the value.  Operand combinations the processor does not have are reported.",
  "all values of all operand expressions, all addresses",
  "All 64-bit values at all addresses.",
  ["src/asm_z80.cpp AsmZ80::encodeOperand", "src/asm_z80.cpp AsmZ80::encodeRelative"])
p("C60", "6502 family: assembling the disassembly gives back the bytes",
  "For every non-empty byte sequence that the disassembler accepts for a 6502, 65SC02, 65C02, W65C02S or 65816, assembling the printed line at the same address, with the assembler set to the same processor and register widths, yields exactly the bytes consumed, without error, branch targets included, absolute or relative to the location written *.",
  "the five processors, all memory contents, addresses, register widths, number notations, letter-case and bracket options, symbols, blanks and comments",
  "Five instruction sets times all operand values, widths and branch distances, through text.",
  ["src/asm_mos6502.cpp", "src/dis_mos6502.cpp", "src/table_mos6502.cpp", "src/reg_mos6502.cpp"])
p("C61", "6502 family: decoding is total and consumes 1..4 bytes",
  "Decoding at any address any memory content either accepts an instruction of 1 to 4 bytes or reports an error, never reading past the available memory; what follows an accepted instruction does not matter.",
  "the five processors, all memory contents, addresses and options",
  "All contents and lengths.",
  ["src/dis_mos6502.cpp DisMos6502::decodeImpl", "src/insn_base.cpp DisInsnBase::readByte"])
p("C62", "6502 family: addresses take the shortest form, and what does not fit is reported",
  "An operand that is an address, plain, indexed or indirect, is encoded in the shortest form of the instruction that can hold it, and reported when no form can; an immediate number is encoded in the width of its register and reported when it does not fit; a branch is accepted exactly when its target is an address within -128..127 of its end in the same bank and then holds that distance.",
  "the five processors, all values of all operand expressions, all addresses, all register widths the directives can set",
  "All 64-bit values at all addresses, for every addressing mode.",
  ["src/asm_mos6502.cpp AsmMos6502::parseOperand", "src/asm_mos6502.cpp AsmMos6502::encodeOperand", "src/asm_mos6502.cpp AsmMos6502::setLongAccumulator"])
p("C63", "CDP1802 family: assembling the disassembly gives back the bytes",
  "For every non-empty byte sequence that the disassembler accepts for a CDP1802, CDP1804 or CDP1804A, assembling the printed line at the same address, with the assembler set to the same processor, yields exactly the bytes consumed, without error, with or without names of registers.",
  "the three processors, all memory contents, addresses, number notations, letter-case and register options, symbols, blanks and comments",
  "Three instruction sets times all operand values and pages, through text.",
  ["src/asm_cdp1802.cpp", "src/dis_cdp1802.cpp", "src/table_cdp1802.cpp", "src/reg_cdp1802.cpp"])
p("C64", "CDP1802 family: decoding is total and consumes 1..4 bytes",
  "Decoding at any address any memory content either accepts an instruction of 1 to 4 bytes or reports an error, never reading past the available memory; what follows an accepted instruction does not matter.",
  "the three processors, all memory contents, addresses and options",
  "All contents and lengths.",
  ["src/dis_cdp1802.cpp DisCdp1802::decodeImpl", "src/insn_base.cpp DisInsnBase::readByte"])
p("C65", "CDP1802 family: operands that do not fit are reported",
  "An immediate number is accepted exactly when it is a signed or unsigned byte, a register exactly when it is 0..15 (1..15 for LDN), a device exactly when it is 1..7, a branch within a page exactly when its target is in the page of the next instruction, a long branch exactly when its target is an address; the number accepted is the one encoded, and everything else is an error.",
  "the three processors, all values of all operand expressions, all addresses",
  "All values and addresses; boundaries of pages and of the memory.",
  ["src/asm_cdp1802.cpp AsmCdp1802::emitOperand, encodePage"])
p("C66", "CDP1802 family: smart branches take the shortest form that reaches",
  "When the assembler is told to choose the branches, every conditional or unconditional branch is encoded in the short form of its condition if the target is in the page of the instruction after it, and otherwise in the long form, whichever was written; an error is reported exactly when the target is not an address.",
  "the three processors, all branches that exist in both forms, all targets and addresses",
  "All pairs of an address and a target.",
  ["src/asm_cdp1802.cpp AsmCdp1802::encodePage"])
p("C67", "TMS32010 family: assembling the disassembly gives back the words",
  "For every memory of at least one word that the disassembler accepts for a TMS32010 or TMS32015, assembling the printed line at the same address, with the assembler set to the same processor, yields exactly the bytes consumed, without error, indirect addressing with shifts, ports and the next register included.",
  "the two processors, all memory contents, addresses, number notations and letter-case options, symbols, blanks and comments",
  "All 65536 words and all program addresses, through text.",
  ["src/asm_tms32010.cpp", "src/dis_tms32010.cpp", "src/table_tms32010.cpp", "src/reg_tms32010.cpp"])
p("C68", "TMS32010 family: decoding is total and consumes one word or two",
  "Decoding at any address any memory content either accepts an instruction of one word or two or reports an error, never reading past the available memory; what follows an accepted instruction does not matter.",
  "the two processors, all memory contents, addresses and options",
  "All contents and lengths.",
  ["src/dis_tms32010.cpp DisTms32010::decodeImpl", "src/insn_base.cpp DisInsnBase::readUint16Le"])
p("C69", "TMS32010 family: numbers out of range are reported",
  "An address of the data memory, a shift, a port, a register, a byte, a bit, a signed 13-bit factor or an address of the program memory is accepted exactly when it is in the range of the instruction and of the processor, and then its field of the instruction word, or the next word, holds it.",
  "the two processors, all instructions with one or two numbers, all values of all operand expressions, all addresses",
  "All 64-bit values.",
  ["src/asm_tms32010.cpp AsmTms32010::encodeOperand", "src/asm_tms32010.cpp Operand::constantType", "src/table_tms32010.cpp acceptMode"])
p("C70", "Instructions without numbers have the codes of the manuals",
  "For each of the nine families of processors, every instruction that has no numbers (all combinations of registers, conditions and indirect operands included) is assembled to the code that the manual of its manufacturer gives, and that code, whatever follows it in memory, is disassembled to its mnemonic and operands.",
  "all such instructions of all processors of the families, all addresses, letter cases and options, what follows in memory, symbols, blanks and comments",
  "About 2000 rows times all addresses, blanks, symbols and notations; a wrong opcode in a table that assembler and disassembler share is invisible to a round trip.",
  ["src/table_i8080.cpp", "src/table_z80.cpp", "src/table_mc6800.cpp", "src/table_mos6502.cpp", "src/table_f3850.cpp", "src/table_cdp1802.cpp", "src/table_tms32010.cpp", "src/table_i8051.cpp", "src/table_i8048.cpp"])
p("C71", "8051: assembling the disassembly gives back the bytes",
  "For every non-empty memory that the disassembler accepts for an 8051, assembling the printed line at the same address yields exactly the bytes consumed, without error, bits written with a dot, relative branches and absolute jumps included.",
  "all memory contents, addresses, number notations and letter-case options, absolute and relative branch targets, the smart-branch option, symbols, blanks and comments",
  "All opcodes with all operand bytes at all addresses, through text.",
  ["src/asm_i8051.cpp", "src/dis_i8051.cpp", "src/table_i8051.cpp", "src/reg_i8051.cpp"])
p("C72", "8051: decoding is total and consumes 1..3 bytes",
  "Decoding at any address any memory content either accepts an instruction of 1 to 3 bytes or reports an error, never reading past the available memory; what follows an accepted instruction does not matter.",
  "all memory contents, addresses and options",
  "All contents and lengths.",
  ["src/dis_i8051.cpp DisI8051::decodeImpl", "src/insn_base.cpp DisInsnBase::readByte"])
p("C73", "8051: operands that do not fit are reported",
  "A byte, an address of the internal memory, a bit (by its number, or by a byte and a dot) or the target of a branch is accepted exactly when it is one that its operand can have, and the bytes of the operands follow the opcode of the manual in the manual's order.",
  "all instructions with numbers, all values of all operand expressions, all addresses",
  "All 64-bit values in every operand position.",
  ["src/asm_i8051.cpp AsmI8051::encodeOperand", "src/asm_i8051.cpp AsmI8051::encodeBitAddr", "src/asm_i8051.cpp AsmI8051::encodeRelative", "src/asm_i8051.cpp AsmI8051::parseOperand"])
p("C74", "8051: jumps within 2 kilobytes are checked, and smart branches take the shortest form that reaches",
  "AJMP and ACALL are accepted exactly for targets in the 2-kilobyte block of the next instruction, LJMP and LCALL for every address; with the smart-branch option all four give the short form when it reaches and the long one otherwise, without error, and the code leads to the target.",
  "all targets, all addresses, both settings of the option",
  "All pairs of an address and a target.",
  ["src/asm_i8051.cpp AsmI8051::encodeOperand", "src/table_i8051.cpp"])
p("C75", "8048 family: assembling the disassembly gives back the bytes",
  "For every non-empty memory that the disassembler accepts for a processor of the 8048 family, assembling the printed line at the same address yields exactly the bytes consumed, without error, branches within a page and jumps included.",
  "all six processors, all memory contents, addresses, number notations and letter-case options, symbols, blanks and comments",
  "All opcodes with all operand bytes at all addresses, through text.",
  ["src/asm_i8048.cpp", "src/dis_i8048.cpp", "src/table_i8048.cpp", "src/reg_i8048.cpp"])
p("C76", "8048 family: decoding is total and consumes 1 or 2 bytes",
  "Decoding at any address any memory content either accepts an instruction of 1 or 2 bytes in the 4096 bytes of program memory or reports an error, never reading past the available memory; what follows an accepted instruction does not matter.",
  "all six processors, all memory contents, addresses and options",
  "All contents and lengths.",
  ["src/dis_i8048.cpp DisI8048::decodeImpl", "src/insn_base.cpp DisInsnBase::readByte"])
p("C77", "8048 family: bytes, bits and targets that do not fit are reported",
  "A byte is accepted exactly from -128 to 255, the number of a bit from 0 to 7, the target of a branch when it is in the 256-byte page of the second byte of the instruction, and the target of JMP and CALL when it is in the program memory; the code is the one of the manual with these numbers in it.",
  "all six processors, all instructions with numbers, all values of all operand expressions, all addresses",
  "All 64-bit values in every operand position, all pairs of an address and a target.",
  ["src/asm_i8048.cpp AsmI8048::encodeOperand", "src/asm_i8048.cpp AsmI8048::encodeAddress", "src/asm_i8048.cpp AsmI8048::parseOperand"])
p("C78", "Codes that the manual leaves undefined are reported as unknown",
  "When the memory begins with a code that the manual of the processor leaves undefined (a byte, or a byte after a prefix), the disassembler reports an unknown instruction and takes that code and nothing more; a code of one member of a family is undefined in the members that do not have it.",
  "all undefined codes of 24 processors in nine families, all memory that follows, all addresses, options and symbols",
  "All contents of memory after all undefined codes; wrong membership of an instruction in one member of a family shows only for that member.",
  ["src/entry_table.h", "src/table_i8080.cpp", "src/table_z80.cpp", "src/table_mc6800.cpp", "src/table_mos6502.cpp", "src/table_f3850.cpp", "src/table_cdp1802.cpp", "src/table_tms32010.cpp", "src/table_i8051.cpp", "src/table_i8048.cpp"])
p("C79", "Whatever the assembler accepts is an instruction of its disassembler",
  "When any line, with any expressions, symbols and functions, is assembled as an instruction without error, the bytes it gives are accepted, at the same address and whatever follows them, by the disassembler of the same processor, which takes exactly these bytes; the line it then shows is assembled to the same bytes again.",
  "all lines, symbols, functions, default radixes, addresses, memory that follows, options of the disassembler",
  "All texts: an operand that is let through in a place where the encoding has no room for it gives bytes of something else, and only for that combination.",
  ["src/asm_base.cpp Assembler::encode", "src/asm_i8048.cpp", "src/table_i8048.cpp", "src/dis_i8048.cpp", "src/asm_i8080.cpp", "src/table_i8080.cpp", "src/dis_i8080.cpp", "src/asm_f3850.cpp", "src/table_f3850.cpp", "src/dis_f3850.cpp", "src/asm_i8051.cpp", "src/table_i8051.cpp", "src/dis_i8051.cpp", "src/asm_mc6800.cpp", "src/table_mc6800.cpp", "src/dis_mc6800.cpp", "src/asm_cdp1802.cpp", "src/table_cdp1802.cpp", "src/dis_cdp1802.cpp", "src/asm_tms32010.cpp", "src/table_tms32010.cpp", "src/dis_tms32010.cpp", "src/asm_mos6502.cpp", "src/table_mos6502.cpp", "src/dis_mos6502.cpp"])
p("C80", "Data, space, origin and alignment lines mean what the target's manual says, on every target",
  "On every target but the PDP-8 and PDP-11, a line with one of the target's data, space, origin or alignment directives, in any letter case and spacing, does what the directive stands for there: data gives the bytes of its items in order, in the target's byte order (and from an even address where the directive aligns), strings their letters, space moves the location behind the elements, counted in the target's address units, origin sets it, alignment moves it to the next multiple; addresses the target does not have are reported; nothing else changes.",
  "all assemblers, directives, spellings, lists of constants and strings, integer expressions (within the parser's eight slots), symbols, functions, addresses",
  "The meaning of a directive comes from tables and configuration of some thirty assemblers together with the lists of all lengths of all expressions; a test looks at one directive with one operand.",
  ["src/asm_base.cpp Assembler::encode, processPseudo, PSEUDOS", "src/asm_*.cpp PSEUDOS, processPseudo, defaultPlugins", "src/config_*.h Config", "src/pseudos.h Pseudos"])
p("C81", "What a disassembly prints besides instructions is understood by the assembler of the same processor",
  "Every line that a disassembly prints for bytes that are no instruction, the message and the listing of the bytes, is a comment for the assembler of the same processor: no code, no label, no error. The line at the start of a block of the image sets the assembler's location to exactly the address of that block, wherever it was before, without code or error. The first line is, for whichever assembler is current, a CPU statement that brings the driver to the family of the disassembler.",
  "ten disassemblers with all their processors and options, all decoded places with errors, all addresses of the processor, all symbols, functions and earlier locations",
  "All addresses in every number notation of every family, with every combination of options; a comment letter or a notation that differs between the two sides shows only in that combination.",
  ["src/dis_base.h Disassembler::lineComment_P", "driver/dis_formatter.cpp DisFormatter::setOrigin, formatComment, getContent", "src/asm_base.cpp Assembler::encode, defineOrigin", "src/comment_parser.h", "driver/asm_directive.cpp AsmDirective::encode"])
p("C82", "A processor is chosen by its names and by nothing else, and every printed or listed name chooses it",
  "Whatever text is given for the processor, on the command line or in a CPU statement, the programs choose a processor exactly when the text is one of its names in any letter case; no name belongs to two processors. The name printed for a processor, as on the first line of a disassembly, chooses the same processor again. Every name in the list of the help is accepted, every processor is on that list, and no name is on it twice.",
  "all texts, all 61 processors of the 26 families, all letter cases",
  "All texts: a name that a table further down the list of families should get may be taken by one before it, or be cut off by an optional prefix, only for that one name.",
  ["src/table_*.cpp Table*::searchCpuName, cpuName_P, listCpu_P, CPU_TABLE", "src/entry_table.h CpuBase::search", "driver/asm_driver.cpp AsmDriver::setCpu, listCpu", "driver/dis_driver.cpp DisDriver::setCpu", "cli/asm.cpp commander", "cli/dis.cpp commander"])
p("C83", "SC/MP: decoding is total, stays in the page, and shows the addresses the processor uses",
  "Decoding ends with an instruction or an error for every memory content. An accepted instruction takes two bytes when the highest bit of its code is set and one otherwise, all in the 4096-byte page of its address. The address shown for a jump or a memory reference relative to the program counter is the one the processor uses, which wraps around within the page. The codes the manual leaves undefined are reported as unknown, and every other code has a mnemonic.",
  "all memory contents, addresses, notations and output buffer sizes",
  "All addresses times all displacements: the wrap at a page boundary shows only for the instructions near one.",
  ["src/dis_ins8060.cpp DisIns8060::decodeImpl, decodeIndx", "src/table_ins8060.cpp TableIns8060::searchOpCode, TABLE_INS8060", "src/reg_ins8060.h page, offset"])
out = os.path.join(os.path.dirname(__file__), "..", "properties.jsonl")
with open(out, "w") as f:
    for x in P:
        f.write(json.dumps(x) + "\n")
print(len(P), "properties")
