{
 "claims": [
  {
   "property": "C01",
   "status": "proved",
   "theorems": [
    "C01_hasByte_iff_written",
    "C01_readByte_last_write"
   ],
   "note": ""
  },
  {
   "property": "C02",
   "status": "proved",
   "theorems": [
    "C02_blocks_complete",
    "C02_equal_iff_same_bytes"
   ],
   "note": ""
  },
  {
   "property": "C03",
   "status": "partial",
   "theorems": [
    "C03_range_exact_refuted",
    "C03_range_exact_partial"
   ],
   "note": "False as stated (C03_range_exact_refuted: a block starting exactly at 'end' is not trimmed). Proved exact whenever no run of two or more bytes starts at 'end'."
  },
  {
   "property": "C04",
   "status": "partial",
   "theorems": [
    "C04_ihex_round_trip_16bit",
    "C04_ihex_round_trip_wide_partial",
    "C04_ihex_round_trip_ela_refuted",
    "C04_ihex_round_trip_boundary_refuted"
   ],
   "note": "Exact for targets with at most 16 address bits. For wider targets false as stated: extended-address checksums below 0x10 are printed with a blank and rejected (C04_..._ela_refuted), and a record crossing a 64 KiB boundary loses its upper part's page (C04_..._boundary_refuted). Proved exact for all other images (C04_..._wide_partial)."
  },
  {
   "property": "C05",
   "status": "proved",
   "theorems": [
    "C05_srec_round_trip"
   ],
   "note": ""
  },
  {
   "property": "C06",
   "status": "partial",
   "theorems": [
    "C06_ihex_damage_rejected_partial",
    "C06_srec_damage_rejected_partial",
    "C06_ihex_type_digit_refuted",
    "C06_ihex_length_digit_refuted",
    "C06_srec_type_digit_refuted",
    "C06_rejected_contributes_nothing_refuted"
   ],
   "note": "Proved for every address, data and checksum digit of Intel HEX and S1/S2/S3 records. False for type and length digits and for 'a rejected record contributes no bytes' (four _refuted theorems)."
  },
  {
   "property": "C07",
   "status": "partial",
   "theorems": [
    "C07_records_partition_image",
    "C07_record_size_zero_refuted",
    "C07_record_size_option"
   ],
   "note": "Proved for every record size >= 1. False for record size 0 (accepted on the command line): the loop never ends."
  },
  {
   "property": "C08",
   "status": "partial",
   "theorems": [
    "C08_option_ignored_refuted",
    "C08_output_is_default_format_partial"
   ],
   "note": "False: assigning through the base class reference does not change the encoder's dynamic type; the output is always the CPU's default format (C08_output_is_default_format_partial)."
  },
  {
   "property": "C09",
   "status": "partial",
   "theorems": [
    "C09_image",
    "C09_lines_stay_in_buffer",
    "C09_srec_file_partial",
    "C09_ihex_file_partial",
    "C09_word_addressed_refuted"
   ],
   "note": "The image part is proved for every processor set, all programs: the image is exactly the bytes of the listed lines at address*unit. The object file part holds whenever the byte addresses fit the target's address size; false for word-addressed processors (MN1610 at word 9000H): the encoder gets the width in words and the bytes read back elsewhere (refuted)."
  },
  {
   "property": "C10",
   "status": "partial",
   "theorems": [
    "C10_ends_at_fixed_point",
    "C10_ends_for_every_program_refuted"
   ],
   "note": "The exit condition is proved for every processor set and program. 'The loop ends for every program' is false: ' ORG 100-L / L: NOP' alternates for ever (refuted)."
  },
  {
   "property": "C11",
   "status": "proved",
   "theorems": [
    "C11_answers",
    "C11_lookup",
    "C11_lookup_total",
    "C11_disjoint",
    "C11_others_kept",
    "C11_copy"
   ],
   "note": ""
  },
  {
   "property": "C12",
   "status": "partial",
   "theorems": [
    "C12_function_line",
    "C12_defined_once",
    "C12_call_by_value_partial",
    "C12_call_in_expression",
    "C12_wrong_count_refused_partial",
    "C12_call_without_arguments_partial",
    "C12_evaluation_ends_partial",
    "C12_recursion_refuted",
    "C12_dynamic_scope_refuted",
    "C12_repeated_parameter_refuted",
    "C12_rest_of_body_refuted",
    "C12_no_arguments_in_expression_refuted"
   ],
   "note": "Proved for every table of definitions reached by the assembler, every depth of calls and all syntax combinations of C18: a FUNCTION line defines the function; a name is defined once; a call binds parameters to argument values and everything else to what the caller sees; a wrong number of arguments is refused; a call without arguments works as a whole expression; evaluation ends when no function mentions itself through others (all 22 syntaxes, any text). False: a function mentioning itself is accepted and never ends; a body sees the parameters of its callers (dynamic scope); a parameter named twice; text after the body's expression is ignored; a call without arguments inside a larger expression is refused. Each refuted by a witness."
  },
  {
   "property": "C13",
   "status": "partial",
   "theorems": [
    "C13_reads_lines_partial",
    "C13_unterminated_line_refuted",
    "C13_inclusion_order"
   ],
   "note": "Exact for all lines ended by a line feed, any lengths and include trees (names relative to the including file, at most four files open); a last line without a line feed is not read (refuted)."
  },
  {
   "property": "C14",
   "status": "partial",
   "theorems": [
    "C14_listing_partial",
    "C14_column_unambiguous",
    "C14_word_addresses_refuted"
   ],
   "note": "All codes up to the 64-byte buffer, both byte orders, even and odd addresses, both radixes, all line prefixes and sources, for 8-bit and 16-bit byte-addressed machines; for word-addressed machines as long as one line is enough. Their continuation lines show a wrong address (refuted). The column determines the bytes. Error lines are not modelled."
  },
  {
   "property": "C15",
   "status": "partial",
   "theorems": [
    "C15_covers_6800_partial",
    "C15_covers_f8_partial",
    "C15_covers_z80_partial",
    "C15_covers_6502_partial",
    "C15_covers_1802_partial",
    "C15_covers_8051_partial",
    "C15_covers_8048_partial",
    "C15_covers_32010_partial",
    "C15_covers_partial",
    "C15_covers_8080_partial",
    "C15_out_of_range_refuted",
    "C15_covers_scmp_partial"
   ],
   "note": "Proved for any image whose bytes are all at addresses the CPU can reach and any disassembler that consumes at least one byte wherever it is called, and in full for the 8080 (every image below 64K, every option), and for the 6800, F8, Z80, 6502 (16 or 24 address bits), CDP1802, 8051, 8048 and TMS32010 families and the SC/MP without a symbol table, with relative addresses written with the location symbol the assembler reads, and with octal listings on the 6502, CDP1802 and TMS32010 only in C or Intel notation: the run ends and the pieces it prints partition every block in order. Refuted where a byte lies at the first address past the CPU's range: the loop never ends, for any fuel."
  },
  {
   "property": "C16",
   "status": "proved",
   "theorems": [
    "C16_digits_denote_positional_value",
    "C16_no_digit_no_number"
   ],
   "note": ""
  },
  {
   "property": "C17",
   "status": "partial",
   "theorems": [
    "C17_common_notations_read_back",
    "C17_decimal_reads_back",
    "C17_native_notations_read_back_partial",
    "C17_plain_octal_reads_back",
    "C17_unmarked_numbers_refuted"
   ],
   "note": "Read back proved for the C-style and Intel notations in every family, decimals, every family's own notations that carry a mark, and bare octal where the default radix is 8. False where the formatter prints bare digits in another radix (list-radix 8 on families without an octal notation; hexadecimal/decimal on PDP-8/PDP-11): refuted pair by pair."
  },
  {
   "property": "C18",
   "status": "partial",
   "theorems": [
    "C18_value_is_tree_value_partial",
    "C18_no_other_value_partial",
    "C18_tree_is_unique_partial",
    "C18_intel_sign_after_operator_refuted",
    "C18_symbol_read_as_operator_refuted"
   ],
   "note": "Proved for the 21 syntax combinations other than the PDP-11: every text derived from a tree of numerals, defined symbols, the location, prefix/infix operators, parentheses and calls of functions (predefined or supplied by the symbol table) with one or more arguments that is nested as the operator tables demand evaluates to the tree's value or to its first error (wrong argument count included), or to the slot overflow error. Missing: calls without arguments, undefined symbols, letter constants, the PDP-11. False for texts whose only reading violates the levels in Intel syntax (1+2*-3 gives -1) and for symbols that start with a word operator (HIGH_X): refuted by witnesses."
  },
  {
   "property": "C19",
   "status": "partial",
   "theorems": [
    "C19_no_access_outside_stacks_partial",
    "C19_stacks_bounded_partial",
    "C19_pdp11_radix_prefixes_refuted",
    "C19_pdp11_call_refuted"
   ],
   "note": "Proved for the 21 syntax combinations other than the PDP-11, with user functions that keep the value stack within its slots. The PDP-11 prefix reader pushes on a full value stack (^D nine times) and the comma of a call of a parameterless function pops an empty operator stack: both refuted by witnesses. Floating-point operands leave the model (outcome FLOAT)."
  },
  {
   "property": "C20",
   "status": "partial",
   "theorems": [
    "C20_missing_operand_partial",
    "C20_missing_parenthesis_partial",
    "C20_comparison_chain_partial",
    "C20_comparison_chain_inside_partial",
    "C20_empty_parentheses_refuted",
    "C20_word_shift_refuted",
    "C20_stray_parenthesis_refuted",
    "C20_operator_in_call_refuted"
   ],
   "note": "Proved for the 21 syntax combinations other than the PDP-11, texts without calls and without the words SHR/SHL: a missing operand at the end of the expression or before a closing parenthesis, a missing closing parenthesis, a chained comparison. False for (), 5 SHR in Intel/Zilog syntax, a stray closing parenthesis, and an operator as last argument of a call: refuted by witnesses."
  },
  {
   "property": "C21",
   "status": "proved",
   "theorems": [
    "C21_evaluation_terminates",
    "C21_rest_is_suffix",
    "C21_nothing_consumed_reported"
   ],
   "note": "Termination is relative to user functions that terminate (FunctionStore recursion is a separate finding)."
  },
  {
   "property": "C22",
   "status": "partial",
   "theorems": [
    "C22_negation_exact_partial",
    "C22_addition_exact_partial",
    "C22_subtraction_exact_partial",
    "C22_multiplication_exact_partial",
    "C22_division_exact_partial",
    "C22_remainder_exact_partial",
    "C22_division_by_zero_reported",
    "C22_complement_exact_partial",
    "C22_and_exact_partial",
    "C22_or_exact_partial",
    "C22_xor_exact_partial",
    "C22_shift_right_exact_partial",
    "C22_shift_left_exact_partial",
    "C22_power_exact_partial",
    "C22_addition_refuted",
    "C22_subtraction_refuted",
    "C22_or_refuted",
    "C22_shift_left_refuted",
    "C22_shift_right_refuted"
   ],
   "note": "Exact outside the cases listed in the theorems (operands/results equal to -2^63, bitwise operands and some subtrahends from 2^63 on, shift counts from 2^32 on, 32-bit <<); each excluded family has a refutation with a concrete witness."
  },
  {
   "property": "C23",
   "status": "partial",
   "theorems": [
    "C23_less_exact",
    "C23_comparisons_exact_partial",
    "C23_equality_refuted"
   ],
   "note": "< is exact for all values; == and the operators built on it treat a negative value and the unsigned value with the same bits as equal (refuted), exact otherwise."
  },
  {
   "property": "C24",
   "status": "proved",
   "theorems": [
    "C24_overflow_exact",
    "C24_named_ranges_exact"
   ],
   "note": ""
  },
  {
   "property": "C25",
   "status": "partial",
   "theorems": [
    "C25_emissions_stay_in_buffer",
    "C25_append_exact",
    "C25_emit_at_exact_partial",
    "C25_position_wrap_refuted"
   ],
   "note": "Safety for every history, exact bytes for appending and for positions that do not wrap; a position within the value's size of 256 wraps to byte 0 and answers OK (refuted; no assembler uses such a position)."
  },
  {
   "property": "C26",
   "status": "proved",
   "theorems": [
    "C26_round_trip",
    "C26_short_memory_reported"
   ],
   "note": ""
  },
  {
   "property": "C27",
   "status": "partial",
   "theorems": [
    "C27_first_error_kept",
    "C27_setError_overwrites",
    "C27_undefined_symbol_is_not_hard",
    "C27_hard_error_hidden_refuted"
   ],
   "note": "Proved as stated; in addition an undefined symbol reported first hides a later hard error (refuted expectation)."
  },
  {
   "property": "C28",
   "status": "partial",
   "theorems": [
    "C28_output_stays_in_buffer",
    "C28_no_error_no_loss",
    "C28_appending_keeps_prefix_partial",
    "C28_prefix_refuted"
   ],
   "note": "Memory safety, termination and no-loss-without-error for every history. Prefix property proved for appending operations; false in general since numbers are written reversed and then flipped even after an overflow."
  },
  {
   "property": "C29",
   "status": "partial",
   "theorems": [
    "C29_scanning_by_characters_partial",
    "C29_scanning_a_line_partial",
    "C29_backwards_refuted",
    "C29_text_past_end_refuted",
    "C29_scanner_shows_text",
    "C29_scanner_compares_text",
    "C29_scanners_compare"
   ],
   "note": "Proved for every array, every part of it and every sequence of operations that go forward: operations by character never leave the part nor read outside the array; comparisons with texts do not either when the scanner ends where the C string ends. Each operation is also shown to do to the text what the text level of the model says, which justifies that level for all other properties. False: decrement is not stopped at the start, and comparison with a text ignores the end of a shortened scanner (refuted by witnesses)."
  },
  {
   "property": "C30",
   "status": "partial",
   "theorems": [
    "C30_sign_extension",
    "C30_delta_range_partial",
    "C30_delta_width_32_refuted",
    "C30_branch_distance"
   ],
   "note": "Sign extension and branch distance as stated; the range check for widths 1..31 (width 32 is undefined behaviour, refuted; no caller uses it)."
  },
  {
   "property": "C31",
   "status": "proved",
   "theorems": [
    "C31_address_range",
    "C31_segment_range"
   ],
   "note": ""
  },
  {
   "property": "C32",
   "status": "partial",
   "theorems": [
    "C32_align_partial",
    "C32_even_partial",
    "C32_odd_address",
    "C32_out_of_range",
    "C32_bad_operand",
    "C32_align_zero_refuted",
    "C32_align_wraps_refuted"
   ],
   "note": "Exact for ALIGN 1..255, EVEN and ODD, with errors exactly when the multiple is no address; other operands are reported. False for ALIGN 0 (division by zero) and where the least multiple is 2^32 (wraps to 0 without an error): refuted by witnesses."
  },
  {
   "property": "C33",
   "status": "partial",
   "theorems": [
    "C33_data_partial",
    "C33_delimited_strings",
    "C33_bad_item_reported",
    "C33_range_refuted",
    "C33_pdp8_list_refuted"
   ],
   "note": "Lists of constants and strings proved to emit their bytes in order, byte order and padding, with overflow of the 64-byte buffer reported, for the 20 syntax combinations other than PDP-8 and PDP-11 (strings for the 16 without escape sequences) and integer elements. Missing: strings with escape sequences, calls and letter constants inside expressions, floating point. False: a constant that does not fit its element is cut silently; PDP-8 lists with a blank before the comma are refused."
  },
  {
   "property": "C34",
   "status": "partial",
   "theorems": [
    "C34_origin_partial",
    "C34_origin_range_partial",
    "C34_origin_bad_operand",
    "C34_space_partial",
    "C34_space_range_partial",
    "C34_space_bad_operand",
    "C34_origin_wide_refuted",
    "C34_origin_negative_refuted",
    "C34_space_negative_refuted"
   ],
   "note": "ORG exact for every address and reported for every other 32-bit operand; space exact for 0..65535 elements and reported for other non-negative counts. False for ORG operands of more than 32 bits or negative on 32-bit targets (cut) and negative counts (the location moves back): refuted by witnesses."
  },
  {
   "property": "C35",
   "status": "proved",
   "theorems": [
    "C35_instruction_by_name",
    "C35_instruction_by_opcode",
    "C35_prefix",
    "C35_register",
    "C35_directive"
   ],
   "note": ""
  },
  {
   "property": "C36",
   "status": "proved",
   "theorems": [
    "C36_every_mnemonic",
    "C36_first_in_table",
    "C36_every_register",
    "C36_every_directive"
   ],
   "note": "Checked by the kernel for all 145 table/index pairs (4598 rows), 28 register tables and 27 directive tables transcribed from the sources by tools/gentables.py; two tables hold rows (pdp11 NOP alias, tms99105 RTWP aliases) that no index names, each preceded by an indexed row of the same name and operands."
  },
  {
   "property": "C37",
   "status": "proved",
   "theorems": [
    "C37_mnemonic",
    "C37_register",
    "C37_processor"
   ],
   "note": ""
  },
  {
   "property": "C38",
   "status": "partial",
   "theorems": [
    "C38_register_number_partial",
    "C38_register_number_refuted"
   ],
   "note": "Proved for texts with fewer than 128 leading zeros. With more the signed 8-bit counter of zeros wraps and 130 zeros followed by 5 are accepted (refuted by that witness)."
  },
  {
   "property": "C39",
   "status": "proved",
   "theorems": [
    "C39_directives_hide_nothing"
   ],
   "note": ""
  },
  {
   "property": "C40",
   "status": "proved",
   "theorems": [
    "C40_round_trip"
   ],
   "note": "All memory contents, option flags, buffer sizes, variants and syntaxes; disassembler without a symbol table (see C41), assembler with the default input radix 10."
  },
  {
   "property": "C41",
   "status": "partial",
   "theorems": [
    "C41_total",
    "C41_accepts_partial",
    "C41_empty_memory_refuted",
    "C41_symbol_table_refuted"
   ],
   "note": "Totality and the 3-byte bound for every memory content, without a symbol table. False for empty memory (a NOP of 0 bytes is accepted, because the search clears the reader's error) and with a symbol table (an address without a symbol shifts by -1): refuted by witnesses."
  },
  {
   "property": "C42",
   "status": "partial",
   "theorems": [
    "C42_byte_operand",
    "C42_word_operand_partial",
    "C42_word_refuted"
   ],
   "note": "Exact for all instructions with an 8-bit operand or port, both syntaxes, any expression. False for 16-bit operands: they are cut silently (LXI H,12345H)."
  },
  {
   "property": "C43",
   "status": "partial",
   "theorems": [
    "C43_end_is_ignored_refuted",
    "C43_end_refuted"
   ],
   "note": "False for every processor: END's answer is dropped and the pass goes on (two refutations, one general, one a program)."
  },
  {
   "property": "C44",
   "status": "partial",
   "theorems": [
    "C44_label_alone_partial",
    "C44_pseudo_line_partial",
    "C44_instruction_line_refuted"
   ],
   "note": "Reported in the first pass for lines without an instruction and for pseudo instructions; false for lines with an instruction: the error is overwritten (refuted)."
  },
  {
   "property": "C45",
   "status": "partial",
   "theorems": [
    "C45_undefined_refuted",
    "C45_errors_listed_partial"
   ],
   "note": "Every error of a line is listed except UNDEFINED_SYMBOL in the first pass; false when the first pass is the last one (' ORG FOO')."
  },
  {
   "property": "C46",
   "status": "partial",
   "theorems": [
    "C46_settings_refuted"
   ],
   "note": "False: Z80SYNTAX ON at the end of the source is in force when the second pass starts."
  },
  {
   "property": "C47",
   "status": "partial",
   "theorems": [
    "C47_garbage_refuted",
    "C47_pseudo_garbage_partial"
   ],
   "note": "Proved for the driver's pseudo instructions; false for instructions and data directives (' MOV A,B,C xyz')."
  },
  {
   "property": "C48",
   "status": "partial",
   "theorems": [
    "C48_reassembles_partial",
    "C48_data_refuted",
    "C48_syntax_refuted"
   ],
   "note": "Proved for the whole 8080 family, both syntaxes, all disassembler options, every image below 64K made of instructions: no error, two passes, the same image. False for images holding bytes that are no instruction (they are printed as comments only, so the following bytes move down silently) and when the assembler is not told of Zilog's syntax (the output does not record it)."
  },
  {
   "property": "C49",
   "status": "proved",
   "theorems": [
    "C49_depends_on_names_in_text",
    "C49_same_answers_same_value"
   ],
   "note": "Proved for every text, all 22 syntax combinations, any tables of symbols and functions."
  },
  {
   "property": "C50",
   "status": "partial",
   "theorems": [
    "C50_round_trip",
    "C50_location_symbol_refuted"
   ],
   "note": "Proved for every acceptance of the five variants, every notation and output size, symbol table absent. With relative targets the location symbol must be the family's own (*): with another one set by the option the printed target is refused (C50_location_symbol_refuted)."
  },
  {
   "property": "C51",
   "status": "partial",
   "theorems": [
    "C51_total",
    "C51_accepts",
    "C51_symbol_table_refuted"
   ],
   "note": "Proved without a symbol table. With one, an extended address that has no symbol makes the disassembler shift by -1 (C51_symbol_table_refuted)."
  },
  {
   "property": "C52",
   "status": "partial",
   "theorems": [
    "C52_branch",
    "C52_immediate_byte",
    "C52_immediate_word_partial",
    "C52_indexed",
    "C52_address_partial",
    "C52_change_indexed",
    "C52_change_address_partial",
    "C52_call_partial",
    "C52_word_refuted",
    "C52_forced_direct_refuted"
   ],
   "note": "Branches, immediate bytes, indexed offsets and addresses as stated, for every expression of the operator trees of C18: loads, stores, arithmetic, the 16-bit instructions on D from the 6801 on, the instructions that change memory, JMP and JSR. Words and addresses that do not fit are cut silently, a negative value from -128 on is taken as a direct address, and <addr is cut to a byte (refuted). Not covered: the bit instructions of the 6301 and 68HC11 and indexing by Y."
  },
  {
   "property": "C53",
   "status": "proved",
   "theorems": [
    "C53_cpu_switches",
    "C53_unknown_cpu",
    "C53_other_lines",
    "C53_current_encodes"
   ],
   "note": "As stated, for any set of assemblers; instance with the 6800 and the 8080 assembler together. The first word of the operand is the name: a comment directly behind it belongs to it."
  },
  {
   "property": "C54",
   "status": "proved",
   "theorems": [
    "C54_round_trip"
   ],
   "note": "Proved for every acceptance of non-empty memory, every notation and output size, symbol table absent."
  },
  {
   "property": "C55",
   "status": "partial",
   "theorems": [
    "C55_total",
    "C55_accepts_partial",
    "C55_empty_memory_refuted",
    "C55_symbol_table_refuted"
   ],
   "note": "Proved without a symbol table. From empty memory an instruction LR A, KU of no bytes is accepted (C55_empty_memory_refuted); with a symbol table, an address that has no symbol makes the disassembler shift by -1 (C55_symbol_table_refuted)."
  },
  {
   "property": "C56",
   "status": "partial",
   "theorems": [
    "C56_branch",
    "C56_byte",
    "C56_port_partial",
    "C56_address_partial",
    "C56_octal",
    "C56_nibble",
    "C56_short_port",
    "C56_register",
    "C56_shift",
    "C56_address_refuted"
   ],
   "note": "Every operand kind exactly as stated, for every expression of C18, except: addresses that do not fit are cut silently, and the ports accept -128..-1 (C56_address_refuted)."
  },
  {
   "property": "C57",
   "status": "proved",
   "theorems": [
    "C57_round_trip"
   ],
   "note": "Proved for every acceptance of non-empty memory, every notation and output size, symbol table absent."
  },
  {
   "property": "C58",
   "status": "partial",
   "theorems": [
    "C58_total",
    "C58_accepts_partial",
    "C58_empty_memory_refuted",
    "C58_symbol_table_refuted"
   ],
   "note": "Proved without a symbol table. From empty memory a NOP of no bytes is accepted (C58_empty_memory_refuted); with a symbol table, an address that has no symbol makes the disassembler shift by -1 (C58_symbol_table_refuted)."
  },
  {
   "property": "C59",
   "status": "partial",
   "theorems": [
    "C59_byte",
    "C59_port",
    "C59_index",
    "C59_index_byte",
    "C59_index_shift",
    "C59_bit",
    "C59_index_bit",
    "C59_branch",
    "C59_restart",
    "C59_mode",
    "C59_word_partial",
    "C59_word_refuted",
    "C59_two_indexes_refuted"
   ],
   "note": "Every operand kind exactly as stated, for every expression of C18, except: words and addresses that do not fit are cut silently (C59_word_refuted), and ADD IX, IY is accepted (C59_two_indexes_refuted). Branches at address 65535 are not covered."
  },
  {
   "property": "C60",
   "status": "partial",
   "theorems": [
    "C60_round_trip_partial",
    "C60_octal_refuted",
    "C60_wdm_refuted"
   ],
   "note": "Proved for the five processors, every acceptance of non-empty memory, every register width and output size, symbol table absent, in every notation except octal numbers in the family's own notation, which are read back as decimal (C60_octal_refuted). The converse fails for WDM, which is assembled but not disassembled (C60_wdm_refuted)."
  },
  {
   "property": "C61",
   "status": "partial",
   "theorems": [
    "C61_total",
    "C61_accepts_partial",
    "C61_empty_memory_refuted",
    "C61_symbol_table_refuted"
   ],
   "note": "Proved without a symbol table, in every notation. From empty memory a BRK of no bytes is accepted (C61_empty_memory_refuted); with a symbol table, an address that has no symbol makes the disassembler shift by -1 (C61_symbol_table_refuted)."
  },
  {
   "property": "C62",
   "status": "partial",
   "theorems": [
    "C62_address_partial",
    "C62_address_refuted",
    "C62_immediate",
    "C62_stale_width_refuted",
    "C62_branch",
    "C62_unclosed",
    "C62_widths"
   ],
   "note": "Addresses, immediate numbers and branches of the instructions all five processors have, exactly as stated, for every expression of C18. On the 65816, numbers outside 32 bits and the bank numbers of block moves are cut silently (C62_address_refuted). A bracket that is not closed is reported (C62_unclosed), a round one as a square one. The width LONGA ON sets survives CPU 6502 (C62_stale_width_refuted). Branches in the last two bytes of the address space, < and > prefixes and the 65816's own modes are covered by C60 only."
  },
  {
   "property": "C63",
   "status": "partial",
   "theorems": [
    "C63_round_trip_partial",
    "C63_octal_refuted",
    "C63_last_branch_refuted",
    "C63_smart_refuted",
    "C63_nbr_refuted"
   ],
   "note": "Proved for the three processors, every acceptance of non-empty memory and output size, symbol table absent, below 0xFFFE, in every notation except octal numbers in the family's own notation, which are read back as decimal (C63_octal_refuted). At 0xFFFE a branch is disassembled into a line that the assembler refuses (C63_last_branch_refuted); with smart branches a long branch into its own page becomes short (C63_smart_refuted). The converse fails for NBR and NLBR (C63_nbr_refuted)."
  },
  {
   "property": "C64",
   "status": "partial",
   "theorems": [
    "C64_total",
    "C64_accepts_partial",
    "C64_empty_memory_refuted",
    "C64_symbol_table_refuted"
   ],
   "note": "Proved without a symbol table, in every notation. From empty memory an IDL of no bytes is accepted (C64_empty_memory_refuted); with a symbol table, an address that has no symbol makes the disassembler shift by -1 (C64_symbol_table_refuted)."
  },
  {
   "property": "C65",
   "status": "partial",
   "theorems": [
    "C65_byte",
    "C65_register",
    "C65_load",
    "C65_device",
    "C65_page",
    "C65_long",
    "C65_double_partial",
    "C65_double_refuted"
   ],
   "note": "Every instruction with a number, for every expression of C18 that does not start like the name of a register; branch targets within 32 bits. The words of SCAL, RLDI and DBNZ are cut silently (C65_double_refuted)."
  },
  {
   "property": "C66",
   "status": "proved",
   "theorems": [
    "C66_smart_branch"
   ],
   "note": "Every branch of both forms, for every expression of C18 that does not start like the name of a register, targets within 32 bits."
  },
  {
   "property": "C67",
   "status": "partial",
   "theorems": [
    "C67_round_trip_partial",
    "C67_octal_refuted",
    "C67_next_register_refuted"
   ],
   "note": "Proved for both processors, every acceptance of at least one word, every output size, symbol table absent, in every notation except octal numbers in the family's own notation, which are read back as decimal (C67_octal_refuted). The converse fails: ADDH 8, AR1 is accepted and encoded as ADDH 1 (C67_next_register_refuted)."
  },
  {
   "property": "C68",
   "status": "partial",
   "theorems": [
    "C68_total",
    "C68_accepts_partial",
    "C68_short_memory_refuted",
    "C68_symbol_table_refuted"
   ],
   "note": "Proved without a symbol table, in every notation, for at least one word of memory. From less, an ADD of no bytes or one byte is accepted (C68_short_memory_refuted); with a symbol table, an address that has no symbol makes the disassembler shift by -1 (C68_symbol_table_refuted)."
  },
  {
   "property": "C69",
   "status": "partial",
   "theorems": [
    "C69_one_number_partial",
    "C69_two_numbers_partial",
    "C69_cut_refuted"
   ],
   "note": "Proved for all instructions with one or two numbers. Numbers are cut to 16 bits before they are looked at (addresses of data to 32), so LACK 10005H is LACK 5 (C69_cut_refuted); the theorems are about numbers that are not cut. Not covered: the number of the next auxiliary register after indirect addressing."
  },
  {
   "property": "C70",
   "status": "proved",
   "theorems": [
    "C70_cdp1802_map",
    "C70_f3850_map",
    "C70_i8048_map",
    "C70_i8051_map",
    "C70_i8080_map",
    "C70_mc6800_map",
    "C70_mos6502_map",
    "C70_tms32010_map",
    "C70_z80_map"
   ],
   "note": "Proved for the 8080, 8085 and V30 emulation (Intel and Zilog names), Z80, 6800 family, 6502 family, F8, CDP1802 family, TMS32010 family, 8051 and 8048 family. The maps (S_Map.v) are written from the manuals, not from the tables of the program. TEST of the 68HC11 and the second names of an opcode (BHS for BCC) are not in the maps."
  },
  {
   "property": "C71",
   "status": "partial",
   "theorems": [
    "C71_round_trip_partial",
    "C71_round_trip",
    "C71_smart_refuted"
   ],
   "note": "Proved completely without smart branches (C71_round_trip); with them except for an LJMP or LCALL into its own block, which becomes AJMP or ACALL (C71_smart_refuted). The relative branch targets need the location symbol $ of the family."
  },
  {
   "property": "C72",
   "status": "partial",
   "theorems": [
    "C72_total",
    "C72_accepts_partial",
    "C72_empty_memory_refuted",
    "C72_symbol_table_refuted"
   ],
   "note": "Proved without a symbol table, in every notation. From empty memory a NOP of no bytes is accepted (C72_empty_memory_refuted); with a symbol table, an address that has no symbol makes the disassembler shift by -1 (C72_symbol_table_refuted)."
  },
  {
   "property": "C73",
   "status": "partial",
   "theorems": [
    "C73_operands",
    "C73_branches_partial",
    "C73_load",
    "C73_move",
    "C73_no_such_bit_partial",
    "C73_no_such_pointer",
    "C73_word_refuted",
    "C73_cut_refuted"
   ],
   "note": "Every instruction with a number, for every expression of C18; branch targets within 32 bits. The word of MOV DPTR is cut silently (C73_word_refuted), branch targets and the byte of a dotted bit are cut to 32 bits (C73_cut_refuted). The error for bits that have no number is proved for SETB, CLR and CPL. @R2 to @R7 are refused (C73_no_such_pointer)."
  },
  {
   "property": "C74",
   "status": "partial",
   "theorems": [
    "C74_short_partial",
    "C74_long_partial",
    "C74_smart_partial",
    "C74_cut_refuted"
   ],
   "note": "For every expression of C18 whose value is an address, below 0xFFFE. Targets that are no addresses are cut to 16 bits (C74_cut_refuted)."
  },
  {
   "property": "C75",
   "status": "partial",
   "theorems": [
    "C75_round_trip_partial",
    "C75_end_refuted"
   ],
   "note": "Proved for instructions within the 4096 bytes of program memory. A branch whose second byte would be at 4096 is shown with a target in page 0 that the assembler refuses (C75_end_refuted)."
  },
  {
   "property": "C76",
   "status": "partial",
   "theorems": [
    "C76_total",
    "C76_accepts_partial",
    "C76_empty_memory_refuted",
    "C76_symbol_table_refuted"
   ],
   "note": "Proved without a symbol table, in every notation. From empty memory a NOP of no bytes is accepted (C76_empty_memory_refuted); with a symbol table, an address that has no symbol makes the disassembler shift by -1 (C76_symbol_table_refuted)."
  },
  {
   "property": "C77",
   "status": "partial",
   "theorems": [
    "C77_bytes",
    "C77_targets_partial",
    "C77_cut_refuted"
   ],
   "note": "Every instruction with a number, for every expression of C18. Targets of branches are cut to 16 bits and targets of jumps to 32 before they are looked at, so JC 10005H at 0 is JC 5 (C77_cut_refuted); the theorem is about targets that are not cut."
  },
  {
   "property": "C78",
   "status": "partial",
   "theorems": [
    "C78_cdp1802_undefined",
    "C78_f3850_undefined",
    "C78_i8048_undefined",
    "C78_i8051_undefined",
    "C78_i8080_undefined",
    "C78_mc6800_undefined",
    "C78_mos6502_undefined",
    "C78_tms32010_undefined",
    "C78_z80_undefined",
    "C78_z80_undefined_bit",
    "C78_z80_defined_refuted"
   ],
   "note": "Proved for the lists of S_Undef.v, written from the manuals: all undefined one-byte codes and pages of the 8080, 8085, V30 emulation, Z80, 6800, 6801, 6301, 68HC11, 6502, 65SC02, 65C02, 65C02S, F8, CDP1802/1804/1804A, 8051 and 8048 family, and the words 7Fxx of the TMS32010 (not its other undefined words). The converse fails for ED 63 and ED 6B of the Z80 (C78_z80_defined_refuted)."
  },
  {
   "property": "C79",
   "status": "partial",
   "theorems": [
    "C79_cdp1802_emits_partial",
    "C79_cdp1802_normal_partial",
    "C79_cdp1802_no_value_refuted",
    "C79_cdp1802_nbr_refuted",
    "C79_f3850_emits",
    "C79_f3850_normal",
    "C79_i8048_emits",
    "C79_i8048_normal",
    "C79_i8051_emits",
    "C79_i8051_normal",
    "C79_i8051_end_refuted",
    "C79_i8080_emits",
    "C79_i8080_normal",
    "C79_i8080_same_name_refuted",
    "C79_mc6800_emits",
    "C79_mc6800_normal",
    "C79_mc6800_end_refuted",
    "C79_mos6502_emits_partial",
    "C79_mos6502_normal_partial",
    "C79_mos6502_end_refuted",
    "C79_mos6502_width_refuted",
    "C79_tms32010_emits",
    "C79_tms32010_normal_partial"
   ],
   "note": "Proved for the 8080 family in both syntaxes, for the F8, for the 8051 with and without smart branches (instructions that end within the 64K of memory; at the end a branch past address 0 is accepted and wrong, C79_i8051_end_refuted), for the five processors of the 6800 family (with the same condition, C79_mc6800_end_refuted), for the three processors of the CDP1802 family (but for NBR, NLBR and INP of an empty expression, whose bytes are something else for the disassembler: C79_cdp1802_nbr_refuted, C79_cdp1802_no_value_refuted), for the two processors of the TMS32010 family, for the 6502, 65SC02, 65C02 and W65C02S (with the condition of the 6800, C79_mos6502_end_refuted, and the register widths as at the start: C79_mos6502_width_refuted), and for the six processors of the 8048 family (there the line shown is assembled again for instructions that end within the 4096 bytes of program memory). The instruction shown need not be the one written: MOV M,M is accepted and gives HLT (C79_i8080_same_name_refuted). Not proved for the other families; it is known to fail for some lines of the Z80 (ADD IX, IY) and for WDM of the 65816."
  },
  {
   "property": "C80",
   "status": "proved",
   "theorems": [
    "C80_every_assembler",
    "C80_data",
    "C80_strings",
    "C80_space",
    "C80_origin",
    "C80_origin_refused",
    "C80_align",
    "C80_even",
    "C80_same_assemblers"
   ],
   "note": "For 29 configurations of the 24 assemblers other than the PDP-8 and PDP-11, at the default radix. The spellings '.=' and '*=' of the origin, the directives a processor handles itself (DD of the 8086, .ADDR, DC of the MN1610, ...) and floating point data are not covered; strings as in C33, space and alignment operands in the ranges of C32 and C34. C80_same_assemblers ties the configuration to the nine families whose instructions are modelled."
  },
  {
   "property": "C81",
   "status": "partial",
   "theorems": [
    "C81_cpu",
    "C81_comments",
    "C81_origin",
    "C81_octal_refuted"
   ],
   "note": "Proved for the disassemblers of the 8080, 6800, F8, Z80, 6502, 65816, CDP1802, 8051, 8048 and TMS32010 without symbols, at the default radix. Octal numbers are read back where the family has a notation for them or the C or Intel notation is chosen; elsewhere they are not (C81_octal_refuted: the TMS32010's ORG 1000 for 512 is read as a thousand, the 6502's ORG 100000 for 8000H is refused). The first line, with the name of the processor, is a CPU statement for every assembler of C80 in all directive syntaxes (C81_cpu); C53 and C82 say what it does."
  },
  {
   "property": "C82",
   "status": "proved",
   "theorems": [
    "C82_names",
    "C82_printed",
    "C82_listed",
    "C82_disassembly",
    "C82_same_as_driver"
   ],
   "note": "All texts and all 26 tables, in the order of the two command line programs. The names are those of S_CpuName.v, written by hand; it includes the odd names that the optional prefixes let through (iMSM80C39, MCMB8861, MC6301) and, for the Z8, whatever begins with Z86, Z86C or Z88. C82_same_as_driver ties the tables of the 8080 and the 6800 to the model of the driver."
  },
  {
   "property": "C83",
   "status": "partial",
   "theorems": [
    "C83_names",
    "C83_total",
    "C83_accepts_partial",
    "C83_empty_memory_refuted",
    "C83_symbol_table_refuted",
    "C83_jump",
    "C83_data",
    "C83_undefined"
   ],
   "note": "The disassembler only; the assembler of the SC/MP is not modelled. Totality and lengths without a symbol table, in every notation; the shown addresses for hexadecimal output and absolute targets. From empty memory a HALT of no bytes is accepted (C83_empty_memory_refuted); with a symbol table, an address that has no symbol makes the disassembler shift by -1 (C83_symbol_table_refuted). A mnemonic is shown exactly for the codes of the manual, with any symbol table (C83_names). Missing: relative targets, the texts of the other operands, reassembly."
  }
 ]
}