{
 "C03": "False as stated (C03_range_exact_refuted: a block starting exactly at 'end' is not trimmed). Proved exact whenever no run of two or more bytes starts at 'end'.",
 "C04": "Exact for targets with at most 16 address bits. For wider targets false as stated: extended-address checksums below 0x10 are printed with a blank and rejected (C04_..._ela_refuted), and a record crossing a 64 KiB boundary loses its upper part's page (C04_..._boundary_refuted). Proved exact for all other images (C04_..._wide_partial).",
 "C06": "Proved for every address, data and checksum digit of Intel HEX and S1/S2/S3 records. False for type and length digits and for 'a rejected record contributes no bytes' (four _refuted theorems).",
 "C07": "Proved for every record size >= 1. False for record size 0 (accepted on the command line): the loop never ends.",
 "C08": "False: assigning through the base class reference does not change the encoder's dynamic type; the output is always the CPU's default format (C08_output_is_default_format_partial).",
 "C22": "Exact outside the cases listed in the theorems (operands/results equal to -2^63, bitwise operands and some subtrahends from 2^63 on, shift counts from 2^32 on, 32-bit <<); each excluded family has a refutation with a concrete witness.",
 "C23": "< is exact for all values; == and the operators built on it treat a negative value and the unsigned value with the same bits as equal (refuted), exact otherwise.",
 "C27": "Proved as stated; in addition an undefined symbol reported first hides a later hard error (refuted expectation).",
 "C17": "Read back proved for the C-style and Intel notations in every family, decimals, every family's own notations that carry a mark, and bare octal where the default radix is 8. False where the formatter prints bare digits in another radix (list-radix 8 on families without an octal notation; hexadecimal/decimal on PDP-8/PDP-11): refuted pair by pair.",
 "C28": "Memory safety, termination and no-loss-without-error for every history. Prefix property proved for appending operations; false in general since numbers are written reversed and then flipped even after an overflow.",
 "C25": "Safety for every history, exact bytes for appending and for positions that do not wrap; a position within the value's size of 256 wraps to byte 0 and answers OK (refuted; no assembler uses such a position).",
 "C30": "Sign extension and branch distance as stated; the range check for widths 1..31 (width 32 is undefined behaviour, refuted; no caller uses it).",
 "C19": "Proved for the 21 syntax combinations other than the PDP-11, with user functions that keep the value stack within its slots. The PDP-11 prefix reader pushes on a full value stack (^D nine times) and the comma of a call of a parameterless function pops an empty operator stack: both refuted by witnesses. Floating-point operands leave the model (outcome FLOAT).",
 "C21": "Termination is relative to user functions that terminate (FunctionStore recursion is a separate finding).",
 "C18": "Proved for the 21 syntax combinations other than the PDP-11: every text derived from a tree of numerals, defined symbols, the location, prefix/infix operators, parentheses and calls of functions (predefined or supplied by the symbol table) with one or more arguments that is nested as the operator tables demand evaluates to the tree's value or to its first error (wrong argument count included), or to the slot overflow error. Missing: calls without arguments, undefined symbols, letter constants, the PDP-11. False for texts whose only reading violates the levels in Intel syntax (1+2*-3 gives -1) and for symbols that start with a word operator (HIGH_X): refuted by witnesses.",
 "C20": "Proved for the 21 syntax combinations other than the PDP-11, texts without calls and without the words SHR/SHL: a missing operand at the end of the expression or before a closing parenthesis, a missing closing parenthesis, a chained comparison. False for (), 5 SHR in Intel/Zilog syntax, a stray closing parenthesis, and an operator as last argument of a call: refuted by witnesses.",
 "C32": "Exact for ALIGN 1..255, EVEN and ODD, with errors exactly when the multiple is no address; other operands are reported. False for ALIGN 0 (division by zero) and where the least multiple is 2^32 (wraps to 0 without an error): refuted by witnesses.",
 "C33": "Lists of constants and strings proved to emit their bytes in order, byte order and padding, with overflow of the 64-byte buffer reported, for the 20 syntax combinations other than PDP-8 and PDP-11 (strings for the 16 without escape sequences) and integer elements. Missing: strings with escape sequences, calls and letter constants inside expressions, floating point. False: a constant that does not fit its element is cut silently; PDP-8 lists with a blank before the comma are refused.",
 "C34": "ORG exact for every address and reported for every other 32-bit operand; space exact for 0..65535 elements and reported for other non-negative counts. False for ORG operands of more than 32 bits or negative on 32-bit targets (cut) and negative counts (the location moves back): refuted by witnesses.",
 "C36": "Checked by the kernel for all 145 table/index pairs (4598 rows), 28 register tables and 27 directive tables transcribed from the sources by tools/gentables.py; two tables hold rows (pdp11 NOP alias, tms99105 RTWP aliases) that no index names, each preceded by an indexed row of the same name and operands.",
 "C38": "Proved for texts with fewer than 128 leading zeros. With more the signed 8-bit counter of zeros wraps and 130 zeros followed by 5 are accepted (refuted by that witness).",
 "C41": "Totality and the 3-byte bound for every memory content, without a symbol table. False for empty memory (a NOP of 0 bytes is accepted, because the search clears the reader's error) and with a symbol table (an address without a symbol shifts by -1): refuted by witnesses.",
 "C42": "Exact for all instructions with an 8-bit operand or port, both syntaxes, any expression. False for 16-bit operands: they are cut silently (LXI H,12345H).",
 "C40": "All memory contents, option flags, buffer sizes, variants and syntaxes; disassembler without a symbol table (see C41), assembler with the default input radix 10.",
 "C09": "The image part is proved for every processor set, all programs: the image is exactly the bytes of the listed lines at address*unit. The object file part holds whenever the byte addresses fit the target's address size; false for word-addressed processors (MN1610 at word 9000H): the encoder gets the width in words and the bytes read back elsewhere (refuted).",
 "C10": "The exit condition is proved for every processor set and program. 'The loop ends for every program' is false: ' ORG 100-L / L: NOP' alternates for ever (refuted).",
 "C13": "Exact for all lines ended by a line feed, any lengths and include trees (names relative to the including file, at most four files open); a last line without a line feed is not read (refuted).",
 "C43": "False for every processor: END's answer is dropped and the pass goes on (two refutations, one general, one a program).",
 "C44": "Reported in the first pass for lines without an instruction and for pseudo instructions; false for lines with an instruction: the error is overwritten (refuted).",
 "C45": "Every error of a line is listed except UNDEFINED_SYMBOL in the first pass; false when the first pass is the last one (' ORG FOO').",
 "C46": "False: Z80SYNTAX ON at the end of the source is in force when the second pass starts.",
 "C47": "Proved for the driver's pseudo instructions; false for instructions and data directives (' MOV A,B,C xyz').",
 "C15": "Proved for any image whose bytes are all at addresses the CPU can reach and any disassembler that consumes at least one byte wherever it is called, and in full for the 8080 (every image below 64K, every option), and for the 6800, F8, Z80, 6502 (16 or 24 address bits), CDP1802, 8051, 8048 and TMS32010 families and the SC/MP without a symbol table, with relative addresses written with the location symbol the assembler reads, and with octal listings on the 6502, CDP1802 and TMS32010 only in C or Intel notation: the run ends and the pieces it prints partition every block in order. Refuted where a byte lies at the first address past the CPU's range: the loop never ends, for any fuel.",
 "C48": "Proved for the whole 8080 family, both syntaxes, all disassembler options, every image below 64K made of instructions: no error, two passes, the same image. False for images holding bytes that are no instruction (they are printed as comments only, so the following bytes move down silently) and when the assembler is not told of Zilog's syntax (the output does not record it).",
 "C14": "All codes up to the 64-byte buffer, both byte orders, even and odd addresses, both radixes, all line prefixes and sources, for 8-bit and 16-bit byte-addressed machines; for word-addressed machines as long as one line is enough. Their continuation lines show a wrong address (refuted). The column determines the bytes. Error lines are not modelled.",
 "C12": "Proved for every table of definitions reached by the assembler, every depth of calls and all syntax combinations of C18: a FUNCTION line defines the function; a name is defined once; a call binds parameters to argument values and everything else to what the caller sees; a wrong number of arguments is refused; a call without arguments works as a whole expression; evaluation ends when no function mentions itself through others (all 22 syntaxes, any text). False: a function mentioning itself is accepted and never ends; a body sees the parameters of its callers (dynamic scope); a parameter named twice; text after the body's expression is ignored; a call without arguments inside a larger expression is refused. Each refuted by a witness.",
 "C49": "Proved for every text, all 22 syntax combinations, any tables of symbols and functions.",
 "C29": "Proved for every array, every part of it and every sequence of operations that go forward: operations by character never leave the part nor read outside the array; comparisons with texts do not either when the scanner ends where the C string ends. Each operation is also shown to do to the text what the text level of the model says, which justifies that level for all other properties. False: decrement is not stopped at the start, and comparison with a text ignores the end of a shortened scanner (refuted by witnesses).",
 "C50": "Proved for every acceptance of the five variants, every notation and output size, symbol table absent. With relative targets the location symbol must be the family's own (*): with another one set by the option the printed target is refused (C50_location_symbol_refuted).",
 "C51": "Proved without a symbol table. With one, an extended address that has no symbol makes the disassembler shift by -1 (C51_symbol_table_refuted).",
 "C52": "Branches, immediate bytes, indexed offsets and addresses as stated, for every expression of the operator trees of C18: loads, stores, arithmetic, the 16-bit instructions on D from the 6801 on, the instructions that change memory, JMP and JSR. Words and addresses that do not fit are cut silently, a negative value from -128 on is taken as a direct address, and <addr is cut to a byte (refuted). Not covered: the bit instructions of the 6301 and 68HC11 and indexing by Y.",
 "C53": "As stated, for any set of assemblers; instance with the 6800 and the 8080 assembler together. The first word of the operand is the name: a comment directly behind it belongs to it.",
 "C54": "Proved for every acceptance of non-empty memory, every notation and output size, symbol table absent.",
 "C55": "Proved without a symbol table. From empty memory an instruction LR A, KU of no bytes is accepted (C55_empty_memory_refuted); with a symbol table, an address that has no symbol makes the disassembler shift by -1 (C55_symbol_table_refuted).",
 "C56": "Every operand kind exactly as stated, for every expression of C18, except: addresses that do not fit are cut silently, and the ports accept -128..-1 (C56_address_refuted).",
 "C57": "Proved for every acceptance of non-empty memory, every notation and output size, symbol table absent.",
 "C58": "Proved without a symbol table. From empty memory a NOP of no bytes is accepted (C58_empty_memory_refuted); with a symbol table, an address that has no symbol makes the disassembler shift by -1 (C58_symbol_table_refuted).",
 "C59": "Every operand kind exactly as stated, for every expression of C18, except: words and addresses that do not fit are cut silently (C59_word_refuted), and ADD IX, IY is accepted (C59_two_indexes_refuted). Branches at address 65535 are not covered.",
 "C60": "Proved for the five processors, every acceptance of non-empty memory, every register width and output size, symbol table absent, in every notation except octal numbers in the family's own notation, which are read back as decimal (C60_octal_refuted). The converse fails for WDM, which is assembled but not disassembled (C60_wdm_refuted).",
 "C61": "Proved without a symbol table, in every notation. From empty memory a BRK of no bytes is accepted (C61_empty_memory_refuted); with a symbol table, an address that has no symbol makes the disassembler shift by -1 (C61_symbol_table_refuted).",
 "C62": "Addresses, immediate numbers and branches of the instructions all five processors have, exactly as stated, for every expression of C18. On the 65816, numbers outside 32 bits and the bank numbers of block moves are cut silently (C62_address_refuted). A bracket that is not closed is reported (C62_unclosed), a round one as a square one. The width LONGA ON sets survives CPU 6502 (C62_stale_width_refuted). Branches in the last two bytes of the address space, < and > prefixes and the 65816's own modes are covered by C60 only.",
 "C63": "Proved for the three processors, every acceptance of non-empty memory and output size, symbol table absent, below 0xFFFE, in every notation except octal numbers in the family's own notation, which are read back as decimal (C63_octal_refuted). At 0xFFFE a branch is disassembled into a line that the assembler refuses (C63_last_branch_refuted); with smart branches a long branch into its own page becomes short (C63_smart_refuted). The converse fails for NBR and NLBR (C63_nbr_refuted).",
 "C64": "Proved without a symbol table, in every notation. From empty memory an IDL of no bytes is accepted (C64_empty_memory_refuted); with a symbol table, an address that has no symbol makes the disassembler shift by -1 (C64_symbol_table_refuted).",
 "C65": "Every instruction with a number, for every expression of C18 that does not start like the name of a register; branch targets within 32 bits. The words of SCAL, RLDI and DBNZ are cut silently (C65_double_refuted).",
 "C66": "Every branch of both forms, for every expression of C18 that does not start like the name of a register, targets within 32 bits.",
 "C67": "Proved for both processors, every acceptance of at least one word, every output size, symbol table absent, in every notation except octal numbers in the family's own notation, which are read back as decimal (C67_octal_refuted). The converse fails: ADDH 8, AR1 is accepted and encoded as ADDH 1 (C67_next_register_refuted).",
 "C68": "Proved without a symbol table, in every notation, for at least one word of memory. From less, an ADD of no bytes or one byte is accepted (C68_short_memory_refuted); with a symbol table, an address that has no symbol makes the disassembler shift by -1 (C68_symbol_table_refuted).",
 "C69": "Proved for all instructions with one or two numbers. Numbers are cut to 16 bits before they are looked at (addresses of data to 32), so LACK 10005H is LACK 5 (C69_cut_refuted); the theorems are about numbers that are not cut. Not covered: the number of the next auxiliary register after indirect addressing.",
 "C70": "Proved for the 8080, 8085 and V30 emulation (Intel and Zilog names), Z80, 6800 family, 6502 family, F8, CDP1802 family, TMS32010 family, 8051 and 8048 family. The maps (S_Map.v) are written from the manuals, not from the tables of the program. TEST of the 68HC11 and the second names of an opcode (BHS for BCC) are not in the maps.",
 "C71": "Proved completely without smart branches (C71_round_trip); with them except for an LJMP or LCALL into its own block, which becomes AJMP or ACALL (C71_smart_refuted). The relative branch targets need the location symbol $ of the family.",
 "C72": "Proved without a symbol table, in every notation. From empty memory a NOP of no bytes is accepted (C72_empty_memory_refuted); with a symbol table, an address that has no symbol makes the disassembler shift by -1 (C72_symbol_table_refuted).",
 "C73": "Every instruction with a number, for every expression of C18; branch targets within 32 bits. The word of MOV DPTR is cut silently (C73_word_refuted), branch targets and the byte of a dotted bit are cut to 32 bits (C73_cut_refuted). The error for bits that have no number is proved for SETB, CLR and CPL. @R2 to @R7 are refused (C73_no_such_pointer).",
 "C74": "For every expression of C18 whose value is an address, below 0xFFFE. Targets that are no addresses are cut to 16 bits (C74_cut_refuted).",
 "C75": "Proved for instructions within the 4096 bytes of program memory. A branch whose second byte would be at 4096 is shown with a target in page 0 that the assembler refuses (C75_end_refuted).",
 "C76": "Proved without a symbol table, in every notation. From empty memory a NOP of no bytes is accepted (C76_empty_memory_refuted); with a symbol table, an address that has no symbol makes the disassembler shift by -1 (C76_symbol_table_refuted).",
 "C77": "Every instruction with a number, for every expression of C18. Targets of branches are cut to 16 bits and targets of jumps to 32 before they are looked at, so JC 10005H at 0 is JC 5 (C77_cut_refuted); the theorem is about targets that are not cut.",
 "C78": "Proved for the lists of S_Undef.v, written from the manuals: all undefined one-byte codes and pages of the 8080, 8085, V30 emulation, Z80, 6800, 6801, 6301, 68HC11, 6502, 65SC02, 65C02, 65C02S, F8, CDP1802/1804/1804A, 8051 and 8048 family, and the words 7Fxx of the TMS32010 (not its other undefined words). The converse fails for ED 63 and ED 6B of the Z80 (C78_z80_defined_refuted).",
 "C79": "Proved for the 8080 family in both syntaxes, for the F8, for the 8051 with and without smart branches (instructions that end within the 64K of memory; at the end a branch past address 0 is accepted and wrong, C79_i8051_end_refuted), for the five processors of the 6800 family (with the same condition, C79_mc6800_end_refuted), for the three processors of the CDP1802 family (but for NBR, NLBR and INP of an empty expression, whose bytes are something else for the disassembler: C79_cdp1802_nbr_refuted, C79_cdp1802_no_value_refuted), for the two processors of the TMS32010 family, for the 6502, 65SC02, 65C02 and W65C02S (with the condition of the 6800, C79_mos6502_end_refuted, and the register widths as at the start: C79_mos6502_width_refuted), and for the six processors of the 8048 family (there the line shown is assembled again for instructions that end within the 4096 bytes of program memory). The instruction shown need not be the one written: MOV M,M is accepted and gives HLT (C79_i8080_same_name_refuted). Not proved for the other families; it is known to fail for some lines of the Z80 (ADD IX, IY) and for WDM of the 65816.",
 "C80": "For 29 configurations of the 24 assemblers other than the PDP-8 and PDP-11, at the default radix. The spellings '.=' and '*=' of the origin, the directives a processor handles itself (DD of the 8086, .ADDR, DC of the MN1610, ...) and floating point data are not covered; strings as in C33, space and alignment operands in the ranges of C32 and C34. C80_same_assemblers ties the configuration to the nine families whose instructions are modelled.",
 "C81": "Proved for the disassemblers of the 8080, 6800, F8, Z80, 6502, 65816, CDP1802, 8051, 8048 and TMS32010 without symbols, at the default radix. Octal numbers are read back where the family has a notation for them or the C or Intel notation is chosen; elsewhere they are not (C81_octal_refuted: the TMS32010's ORG 1000 for 512 is read as a thousand, the 6502's ORG 100000 for 8000H is refused). The first line, with the name of the processor, is a CPU statement for every assembler of C80 in all directive syntaxes (C81_cpu); C53 and C82 say what it does.",
 "C82": "All texts and all 26 tables, in the order of the two command line programs. The names are those of S_CpuName.v, written by hand; it includes the odd names that the optional prefixes let through (iMSM80C39, MCMB8861, MC6301) and, for the Z8, whatever begins with Z86, Z86C or Z88. C82_same_as_driver ties the tables of the 8080 and the 6800 to the model of the driver.",
 "C83": "The disassembler only; the assembler of the SC/MP is not modelled. Totality and lengths without a symbol table, in every notation; the shown addresses for hexadecimal output and absolute targets. From empty memory a HALT of no bytes is accepted (C83_empty_memory_refuted); with a symbol table, an address that has no symbol makes the disassembler shift by -1 (C83_symbol_table_refuted). A mnemonic is shown exactly for the codes of the manual, with any symbol table (C83_names). Missing: relative targets, the texts of the other operands, reassembly."
}
