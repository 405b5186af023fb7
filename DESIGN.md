# Formal model of libasm in Rocq: design

Source: `/repo` (tgtakaoka/libasm, pinned).  Model and proofs: `rocq/theories`.
`properties.jsonl` is generated by `tools/props.py`.

## 1. Trusted base

* The Coq 8.16.1 kernel (including `vm_compute`).
* No axioms of ours.  Each property file ends with `Print Assumptions` for every
  theorem; section 5 lists what is printed (target: "Closed under the global
  context" everywhere).
* The correspondence between the C++ text and the Gallina model.  Every
  definition in a model file cites the file and lines it models, and states
  its simplifications.

## 2. Modelling conventions

* Host: LP64, `char` is 8 bits, 32-bit `int`, default build configuration
  (64-bit integer `Value`).
* Machine integers are `Z`, with the wraparound written explicitly
  (`Z.modulo _ (2^32)` and so on).
* Texts are lists of character codes (`list Z`), NUL-free; a scanner is the
  remaining list; `*scan` on an empty scanner is 0 as in `StrScanner`.
* C++ undefined behaviour is a distinct outcome (`UB`), never silently given a value.
* Loops are structural recursion, or recursion on fuel with a distinct
  out-of-fuel outcome which the theorems exclude.
* Error *codes* are modelled; error *positions* (`ErrorAt::_at`) are not,
  unless a file says so.
* Floating point constants and values are not modelled (`Value::V_FLOAT`): model
  functions return a distinct "unmodelled" outcome when one would be built.

## 3. File layout

* `M_*.v`   model (definitions only, each with a source citation)
* `T_*.v`   tables transcribed from the C++ sources by `tools/`
* `S_*.v`   small specifications, independent of the model's helpers
* `P_*.v`   proofs (lemmas)
* `Prop_*.v` the property theorems: statement, `exact`, `Print Assumptions`,
  and an `Example` showing a concrete case meeting the hypotheses

## 4. Plan per property

| id | modelled | how |
|----|----------|-----|
| C01 C02 | `BinMemory` as the sorted list of blocks (map key, base, data) | representation invariant preserved by each write (induction on the history), abstraction to a function address -> option byte |
| C03 | `setRange` with both trims | counterexample (block starting at `end`), plus the exact condition under which it holds |
| C04 | `BinEncoder::encode`, `IntelHex` encode/decode as text | round trip by induction on blocks/records; counterexamples for ELA checksum and for 64 KiB straddling; conditional theorem |
| C05 | `MotoSrec` encode/decode as text | round trip by induction |
| C06 | the decoders | checksum arithmetic modulo 256; counterexample for "no bytes contributed" |
| C07 | `BinEncoder::encode` | termination measure for record size > 0; counterexample for size 0 |
| C08 | the selection in `AsmCommander::assemble` with C++ slicing assignment semantics | counterexample |
| C09 | the byte-address computation and encoder address size | counterexample for word-addressed targets; positive theorem for byte-addressed targets |
| C10 | pass loop over an abstract pass function, then concrete EQU-only programs | loop-exit theorem; counterexample for termination |
| C11 | `SymbolStore` as two finite maps | invariant by induction over histories |
| C12 | FUNCTION line, function store, binding and call | the call as a step of the evaluator (C18's grammar) with C49 for the context of the body; induction on ranks for ending; counterexamples for recursion, scope, repeated parameters |
| C13 | `getLine`, `AsmSources` stack | refinement to a stack machine; counterexample for an unterminated last line |
| C14 | `ListFormatter` | induction; counterexample for word-addressed continuation lines |
| C15 | `DisDriver::disassemble` loop over the blocks of an image, the listing formatter, the disassemblers of the 8080, 6800, F8, Z80, 6502, CDP1802, 8051, 8048 and TMS32010 families and of the SC/MP | induction on the bytes left in a block: the pieces partition it; each disassembler takes at least one byte and at most its longest instruction, whatever the memory; counterexample at the first address past the CPU's range, for every fuel |
| C16 | `strToNumber` | induction on digits |
| C17 | number formatters and number parsers | induction on digits, any following text |
| C18 C20 C21 | `ValueParser::_eval` and `OperatorParser`s | simulation between the token loop and tree evaluation; counterexamples for Intel unary minus |
| C19 | same, with fixed-size stacks | invariant over the loop; counterexample for PDP-11 prefix radix |
| C22 C23 C24 | `Value` | direct arithmetic proofs; counterexamples |
| C25 C26 C27 | `Insn`, `ErrorAt`, `DisInsnBase` reads | invariants, round trips |
| C28 | `StrBuffer` | invariants over operation sequences |
| C29 | `StrScanner` as two positions in a NUL-terminated array | invariants over operation sequences; refinement: each operation does to the shown text what the text level model says; counterexamples for going back and for comparisons past a moved end |
| C30 C31 | `ConfigBase`, `branchDelta` | arithmetic |
| C32 C33 C34 | directives of `Assembler` | arithmetic, induction; counterexamples |
| C35 C36 C37 | `Table`, `IndexedTable`, `NameTable`; all tables transcribed | generic search theorem + kernel evaluation of sortedness per table |
| C38 | `parseRegNumber` | induction on digits; counterexample for the wrapping counter of zeros |
| C39 | directive tables against instruction tables of each processor | kernel evaluation over all pairs, lifted to the searches |
| C40 C41 C42 | the complete i8080 assembler and disassembler | round trip through text: finite opcode analysis with symbolic operand values, number format/parse lemmas |
| C43 C44 C45 C46 C47 | the driver's handling of a line and of passes (generic over processors, instances 8080 and MN1610) | case analysis of a line; runs of concrete programs as refutations |
| C48 | both drivers with the 8080 instance | induction over blocks and pieces: the text of each printed line, the bytes the assembler makes of it, and the state of the pass between lines; two passes agree; images compared byte by byte |
| C49 | the whole evaluator (M_Expr) in two contexts | relation between the two runs' states, step by step; functions compared by their answers, not as terms |
| C50 C51 C52 | the complete assembler and disassembler of the 6800 family (five variants) | as C40-C42 with a generic frame for disassembler steps (`P_CpuGood`): each step prints a text, takes bytes, and the assembler reads the text back; finite table check by kernel evaluation, symbolic operands; branch arithmetic |
| C54 C55 C56 | the complete assembler and disassembler of the F8 (F3850) | the same frame; names and numbers told apart by `P_CpuText`, the values by `P_CpuRange` |
| C57 C58 C59 | the complete assembler and disassembler of the Z80, all opcode pages | the same frame with prefixes; the operand ranges by forms (`S_Z80`): each kind of operand with its text, its bytes and its range |
| C60 C61 C62 | the complete assembler and disassembler of the 6502 family: five processors, the LONGA and LONGI states, the smart branch | the same frame with three operands; the addresses by a specification of the forms and of the shortest form (`S_Mos6502`), with the table search reduced to finitely many mode triples |
| C63 C64 C65 C66 | the complete assembler and disassembler of the CDP1802 family: three processors, names of registers, the smart branch | the same frame with prefix pages and two operands; the forms of the instructions in `S_Cdp1802`; the branches by pages of 256 bytes |
| C67 C68 C69 | the complete assembler and disassembler of the TMS32010 family | instructions of 16-bit words (`P_CpuWord`): all 65536 words are looked up by kernel evaluation, the text of each operand symbolically; the ranges by kinds of numbers (`S_Tms32010`) |
| C71 C72 C73 C74 | the complete assembler and disassembler of the 8051, the smart jumps included | the frame of the byte-coded families with one to three operands; bits with a dot by a theory of expressions that end at a dot (`P_Dot`); the forms of the instructions in `S_I8051` |
| C75 C76 C77 | the complete assembler and disassembler of the 8048 family (8048, 8039, 80C48, 80C39, MSM80C48, MSM80C39) | the same frame with one or two operands; the numbers in the opcode (bit, bank of a jump) checked for their eight values |
| C78 | the disassemblers of the nine families, with S_Undef.v (undefined codes, written from the manuals) | each code is decoded symbolically: address, following memory and options stay variables, and the kernel computes the outcome |
| C79 | the assemblers and disassemblers of whole families, on every text | the possible operands of any text are a finite set of forms (mode and register) with free values; for every entry and every pair of forms the opcode that results is one the disassembler knows with the same number of operand bytes (computed over all entries and forms, lifted), and the disassembler prints any such bytes without an error (P_CpuFine.v) |
| C80 | the directive layer of the 24 assemblers (M_AsmRows.v: syntax, address width and unit, byte order, own directives, tables), with S_Data.v (directives by target, written by hand) | every word of the specification is looked up in the tables for all spellings (search lemmas of C36) and is a name the scanner reads (computed for each row); then C32, C33, C34 and C18 for the operands |
| C81 | `DisFormatter` (M_DisDriver.v) against `AsmDirective::encode`, the comment parsers and the assembler's ORG (M_AsmDriver.v, M_AsmLine.v, M_AsmRows.v); which disassembler belongs to which assembler is S_DisLines.v | the buffer only grows, so each line begins with the comment letters, which the comment parser of the family takes; the number of ORG is a numeral of the family (C24) short enough for the buffer, then C18 and C34; the first lines are finitely many and are computed |
| C82 | `searchCpuName`, `cpuName_P` and `listCpu_P` of all 26 tables, `setCpu` and `listCpu` of the drivers (M_CpuName.v); the names are S_CpuName.v | every test depends only on the lower-cased text, so the names are checked by computation; conversely each accepting test gives one of the names, with or without its prefix |
| C83 | the SC/MP disassembler and its table (M_Ins8060.v, T_Ins8060.v); lengths, pages, addresses and undefined codes of the manual are S_Ins8060.v | the operand functions always end and take a byte or none; the table is checked code by code; the page arithmetic is proved for every address and displacement; the operand functions leave the mnemonic alone, so that it is the one of the table (P_DefIns8060.v) |
| C70 | the tables of the eight families | maps of the instructions without numbers written from the manuals (`S_Map`); each row is decoded by kernel evaluation with the address, the options and the rest of memory left open, then lifted with the round trips and the acceptance theorems |
| C53 | the driver with any set of assemblers (instance: 6800 and 8080 together) | case analysis of a line; the search for the first assembler by induction |

## 5. Print Assumptions

Every `Prop_*.v` prints the assumptions of each of its theorems.  For all of
them the answer is "Closed under the global context": no axioms, not even of
the standard library.  `tools/assumptions.sh` collects the answers after a build.

## 6. What is modelled, what is not

Modelled (every definition cites its lines):

* `src/`: `value.*` (integers), `str_scanner.*`, `str_buffer.*`, `error_reporter.*`,
  `insn_base.*`, `config_base.*`, `stack.h`, `operators.*`, `value_parser.*`, `parsers.*` with
  `number_parser.h`, `letter_parser.h`, `symbol_parser.h`, `comment_parser.h`, `function_table.h`,
  `formatters.*` and `value_formatter.*` (all number notations), `table_base.h`,
  `entry_table.h`, `reg_base.*`, `asm_base.*` (lines, ORG, ALIGN, EVEN, ODD, DS, data and string lists),
  `dis_base.*`, and completely `*_i8080.*`, `*_mc6800.*`, `*_f3850.*`, `*_z80.*`,
  `*_mos6502.*`, `*_cdp1802.*`, `*_tms32010.*`, `*_i8051.*` and
  `*_i8048.*`.
* the name and register tables and directive tables of every processor (`T_Tables.v`,
  generated by `tools/gentables.py`), used by C35-C39, C80, C81; the configuration of every
  assembler but the PDP-8 and PDP-11 for its directives (`M_AsmRows.v`), used by C80 and C81; the names of the processors of every table and the
  driver's choice among them (`M_CpuName.v`), used by C82 (not the reading of the command line); the disassembler of the SC/MP
  (`M_Ins8060.v`), used by C83 (not its assembler).
* `driver/`: `bin_memory`, `bin_encoder`, `bin_decoder`, `intel_hex`, `moto_srec`,
  `asm_sources.h`, `symbol_store`, `function_store`, `list_formatter`, `asm_formatter`,
  `asm_driver`, `asm_directive` (EQU, SET, END, CPU, INCLUDE, FUNCTION), `dis_driver`,
  `dis_formatter`.
* `cli/`: the choice of encoder and record length in `asm_commander.cpp`.

Not modelled: floating point (an operation that would make a floating point value has the
distinct outcome `FLOAT`, which the theorems exclude or report); the columns at which errors are
reported; host I/O (`FILE*`, `file_reader`, `file_printer`) and allocation failure; command line
parsing beyond the above; the instruction encoders and decoders of the other processors; the
AVR/Arduino PROGMEM variants of the same code (`_P` functions are modelled by their host
definitions); the Arduino front end.

## 7. Findings

Where the code violates a property as stated, the property has a theorem named
`..._refuted` with a witness, and the positive theorem has the hypothesis that
excludes it.  In short:

1. Intel HEX: an extended address record whose checksum is below 0x10 is written with a
   blank (`%2X`) and refused when read back (C04 ela); a record crossing 64 KiB wraps (C04 boundary).
2. The decoders store the bytes of a record before they check its sum, and accept damaged
   type and length digits (C06).
3. `-S0`/`-H0` never ends (C07); `-S` and `-H` do not change the format, the base class is
   assigned by value (C08).
4. `setRange` keeps a block that starts exactly at the end (C03).
5. Word-addressed targets: object file addresses are cut (C09); listing continuation lines
   show wrong addresses (C14).
6. The assembler's passes need not end: a symbol whose value alternates (C10).
7. A user function that calls itself overflows the stack; parameters shadow dynamically; repeated
   parameters, text after the body and calls without arguments inside expressions misbehave (C12).
8. The last line of a source is dropped when it does not end with a newline (C13).
9. Disassembling up to the last address of a processor whose addresses have fewer bits than the
   image never ends (C15).
10. Values: sum, difference, or, shifts at -2^63 and from 2^63 on (C22); equality mixes signed and
    unsigned (C23).
11. Expressions: `1+2*-3` is -1 in Intel syntax, a symbol that starts with an operator's name
    is cut (C18); PDP-11 radix prefixes overflow the value stack, a comma in a call of a function
    without parameters pops an empty stack (C19); `()`, `5 SHR`, a stray `)` are accepted (C20).
12. Numbers without a mark are read in another radix (`list-radix`, PDP-8, PDP-11) (C17).
13. `Insn::emitByte` at a position near 256 wraps to 0 (C25); an undefined symbol hides a later
    hard error (C27); the text buffer shows a mangled number after an overflow (C28); the scanner's
    `--` and `iexpectText_P` leave the text (C29); a branch range of 32 bits is undefined (C30).
14. Directives: `ALIGN 0` divides by zero, `ALIGN` at the end of memory wraps (C32); data that does
    not fit are cut (C33); `ORG` of negative or wide values, negative `DS` (C34).
15. Register numbers: 256 zeros wrap a counter (C38).
16. 8080: a NOP of no bytes from empty memory, a shift by -1 with a symbol table (C41), words are
    cut (C42).  6800: the same shift (C51), words, addresses and forced direct addresses are cut,
    -1 is a direct address (C52), another location symbol cannot be read back (C50).  F8: an
    instruction of no bytes from empty memory and the shift (C55), addresses are cut, negative ports
    are accepted (C56).  Z80: the instruction of no bytes and the shift (C58), words and addresses
    are cut, `ADD IX, IY` is accepted and gives DD 59, no instruction (C59).
    6502 family: the instruction of no bytes and the shift (C61); plain octal output reads back as
    decimal, WDM is assembled but not disassembled (C60); `CPU 65816`, `LONGA ON`, `CPU 6502` leaves
    immediate operands 16 bits wide; 33-bit addresses and bank numbers are cut (C62).
    CDP1802 family: the instruction of no bytes and the shift (C64); branches at FFFE cannot be read
    back, `NBR` and `NLBR` are assembled with an operand that the disassembler does not know (C63);
    the words of `SCAL`, `RLDI` and `DBNZ` are cut (C65).
    TMS32010 family: instructions of no bytes and of one byte, and the shift (C68); plain octal
    output reads back as decimal; `ADDH 8, AR1` is accepted and encoded as `ADDH 1` (C67); numbers
    of more than 16 bits are cut and then accepted (C69).
    8051: the instruction of no bytes and the shift (C72); the word of `MOV DPTR, #` and targets of
    `LJMP`, `LCALL`, `AJMP` and `ACALL` are cut to 16 bits (C73, C74), the byte of a dotted bit to 32
    (`SETB 100000020H.1`).
    SC/MP: the instruction of no bytes and the shift (C83).
    8048 family: the instruction of no bytes and the shift (C76); a branch at FFF is shown with a
    target that the assembler refuses (C75); targets of branches are cut to 16 bits (C77).
    Z80: ED 63 and ED 6B, which the manual gives for LD (nn),HL and LD HL,(nn), are unknown to the
    disassembler (C78).  8080: `MOV M,M`, which does not exist, is accepted and gives HLT (C79).
    8051: a branch in the last two bytes of memory to an address near 0 is encoded as one past the
    end, `SJMP 0` at FFFF as one to 10000, and the 6800 and 6502 do the same with `BRA 0`, `BEQ 0` (C79).
    CDP1802: `INP ()` is accepted and gives 68, which is no instruction of the 1802 (C79).
17. Driver: END ends nothing (C43); a label defined twice on lines with instructions is not
    reported (C44); an undefined symbol is not reported where the first pass is the last one (C45);
    settings survive from pass to pass (C46); text after an instruction is not reported (C47);
    disassembled data and the Zilog syntax are not written to the source (C48); with octal numbers
    the ORG lines of the 6502, CDP1802 and TMS32010 name another address or none (C81).

Seen in the code and not stated as theorems: a missing `)` in a 6502 operand is reported as a
missing `]` (asm_mos6502.cpp:357 compares the expected closing bracket with an opening one); `.equ` without a label interns a symbol with an empty
name; labels equal to function names are not detected; an instruction name of more than 11 letters
is cut; `DisInsnBase`'s copy constructor copies its own uninitialised `ErrorAt`;
`SuffixHexFormatter` reads `top[-1]`.
