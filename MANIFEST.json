{
 "claims": [
  {
   "property": "C01",
   "status": "proved",
   "theorems": [
    "C01_add",
    "C01_sub"
   ],
   "note": ""
  },
  {
   "property": "C02",
   "status": "proved",
   "theorems": [
    "C02_mult"
   ],
   "note": ""
  },
  {
   "property": "C03",
   "status": "proved",
   "theorems": [
    "C03_div"
   ],
   "note": ""
  },
  {
   "property": "C04",
   "status": "proved",
   "theorems": [
    "C04_compare_numbers",
    "C04_compare_strings",
    "C04_string_order"
   ],
   "note": ""
  },
  {
   "property": "C05",
   "status": "partial",
   "theorems": [
    "C05_bitwise",
    "C05_logical_not",
    "C05_modulo_partial",
    "C05_modulo_refuted"
   ],
   "note": "C05_modulo_partial: The remainder; the pair (INT_MIN, -1/4096) is excluded because there the C code divides INT_MIN by -1, which is undefined (see the refutation). C05_modulo_refuted: -524288 % (-1/4096) divides INT_MIN by -1 (undefined)."
  },
  {
   "property": "C06",
   "status": "partial",
   "theorems": [
    "C06_floor",
    "C06_sgn",
    "C06_abs",
    "C06_negate_partial",
    "C06_negate_refuted",
    "C06_rad",
    "C06_deg_partial",
    "C06_deg_refuted"
   ],
   "note": "C06_negate_partial: all numbers but -524288. C06_negate_refuted: finding: negating -524288 is signed overflow in C. C06_deg_partial: whenever the result is representable. C06_deg_refuted: finding: DEG(10000) silently wraps to a negative number."
  },
  {
   "property": "C07",
   "status": "proved",
   "theorems": [
    "C07_rnd"
   ],
   "note": ""
  },
  {
   "property": "C08",
   "status": "partial",
   "theorems": [
    "C08_val_decimal_partial",
    "C08_val_integer_partial",
    "C08_val_prefixed",
    "C08_val_refuted",
    "C08_literal_decimal_partial",
    "C08_literal_overflow",
    "C08_literal_based",
    "C08_literal_refuted"
   ],
   "note": "C08_val_decimal_partial: C08: VAL of [-]ds.fs followed by anything that does not continue the number. [g] is the uninitialised buffer content of the C function: the answer does not depend on it. Partial: integer part below 524288 and at most six decimals; beyond that the claim is false (C08_val_refuted). C08_val_integer_partial: integers below 524288. C08_val_refuted: VAL(\"600000\") wraps; VAL(\"0.1048576\") is 0; VAL(\"\") depends on garbage. C08_literal_decimal_partial: literals in program text: what the compiled code pushes. C08_literal_refuted: the literal 1048576 is accepted and pushes 0."
  },
  {
   "property": "C09",
   "status": "proved",
   "theorems": [
    "C09_constants"
   ],
   "note": ""
  },
  {
   "property": "C10",
   "status": "partial",
   "theorems": [
    "C10_print_partial",
    "C10_print_refuted",
    "C10_stable_partial"
   ],
   "note": "C10_print_partial: C10: the printed text of x is a canonical decimal within 1/1000 of x. Partial: excludes the single value INT_MIN and fractions of 4094/4096 or more, where the claim is false (C10_print_refuted). C10_print_refuted: PRINT 4095/4096 shows \"0.:\"; STR$ of the most negative number is undefined. C10_stable_partial: printing is stable under reading back, except for \"-0\"."
  },
  {
   "property": "C11",
   "status": "proved",
   "theorems": [
    "C11_history",
    "C11_last_write",
    "C11_unwritten",
    "C11_cleared"
   ],
   "note": ""
  },
  {
   "property": "C12",
   "status": "partial",
   "theorems": [
    "C12_room",
    "C12_freevar_drift_refuted"
   ],
   "note": "C12_freevar_drift_refuted: In the mode where CLEAR keeps the names, every DIM after a CLEAR is counted again: FREEVAR is 2 here although only the one name A exists."
  },
  {
   "property": "C13",
   "status": "partial",
   "theorems": [
    "C13_load",
    "C13_jump",
    "C13_reload",
    "C13_table_size",
    "C13_no_labels_refuted",
    "C13_string_label_refuted"
   ],
   "note": "C13_no_labels_refuted: in a program without labels every label search is undefined (mask -1). C13_string_label_refuted: A string label is not checked for its '@': GOTO \"XA\" jumps to @A. A string longer than 17 characters, an empty one, or any label in a program without labels is undefined behaviour instead of Label not found."
  },
  {
   "property": "C14",
   "status": "partial",
   "theorems": [
    "C14_last_write_partial",
    "C14_second_subscript_refuted",
    "C14_minus_one_refuted",
    "C14_zero_rows_refuted"
   ],
   "note": "C14_last_write_partial: C14: an element holds the last value written to it. C14_second_subscript_refuted: The full C14 fails outside legal histories. A(2,1) on a one-dimensional A(5) is not rejected: it reads B(0). C14_minus_one_refuted: A(1,-1) is not rejected: it is A(1,0). C14_zero_rows_refuted: after DIM A(5,0), A(0) addresses memory that belongs to the next array."
  },
  {
   "property": "C15",
   "status": "partial",
   "theorems": [
    "C15_layout_partial",
    "C15_negative_size_refuted",
    "C15_size_wraps_refuted",
    "C15_silent_refuted",
    "C15_stale_error_refuted"
   ],
   "note": "C15_layout_partial: C15: after a legal history the arrays lie inside the memory and are pairwise disjoint, headers included. C15_negative_size_refuted: DIM A(-1) is accepted; the next array overlaps it: A(1) is B(0). C15_size_wraps_refuted: DIM A(65536,65536) is accepted as an array of size 0; A(1,0) is the row count of the next array. C15_silent_refuted: a DIM that does not fit reports no error; the array silently becomes a default one of 10 elements. C15_stale_error_refuted: after any variable error, every later DIM reports an error, also after CLEAR."
  },
  {
   "property": "C16",
   "status": "proved",
   "theorems": [
    "C16_concat",
    "C16_repeat"
   ],
   "note": ""
  },
  {
   "property": "C17",
   "status": "partial",
   "theorems": [
    "C17_len",
    "C17_left",
    "C17_right",
    "C17_mid_partial",
    "C17_mid_refuted"
   ],
   "note": "C17_mid_partial: Partial: holds for positions and lengths below 32768; above, the code truncates to 16 bits and the claim is false (next theorem). C17_mid_refuted: MID$(\"AB\",65536,1) should be \"\" but is \"A\"; MID$(\"AB\",0,32768) overruns the result buffer."
  },
  {
   "property": "C18",
   "status": "partial",
   "theorems": [
    "C18_subst_partial",
    "C18_subst_refuted"
   ],
   "note": "C18_subst_partial: C18. [cnt] is the number of characters removed: the requested count, or the whole rest when it is negative or longer than the string. Partial: an over-long result is refused only when the prefix plus replacement exceed 256; otherwise the code overruns the buffer (next theorem). C18_subst_refuted: SUBST$ on 200 characters with 100 inserted at 0 overruns the result buffer."
  },
  {
   "property": "C19",
   "status": "partial",
   "theorems": [
    "C19_instr_partial",
    "C19_instr_refuted"
   ],
   "note": "C19_instr_partial: C19: [start] is the integer part of the optional argument. Partial: the pattern must be non-empty and start non-negative. C19_instr_refuted: INSTR(-1,\"A\",\"A\") reads before the string; INSTR(3,\"A\",\"\") answers 0."
  },
  {
   "property": "C20",
   "status": "partial",
   "theorems": [
    "C20_chr_asc",
    "C20_chr_range",
    "C20_asc_partial",
    "C20_asc_empty",
    "C20_asc_refuted",
    "C20_hex",
    "C20_hex_width",
    "C20_hex_val"
   ],
   "note": "C20_asc_partial: ASC of any byte-stored string; for a wide string (MEM$) the code answers the display code instead: C20_asc_refuted. C20_asc_refuted: ASC(MEM$) gives the display code."
  },
  {
   "property": "C21",
   "status": "proved",
   "theorems": [
    "C21_roundtrip",
    "C21_injective",
    "C21_copies"
   ],
   "note": ""
  },
  {
   "property": "C22",
   "status": "partial",
   "theorems": [
    "C22_values_partial",
    "C22_fresh_partial",
    "C22_only_assigned_partial",
    "C22_released_partial",
    "C22_room_partial",
    "C22_enough_strings_partial",
    "C22_read_forgets_strings_refuted",
    "C22_errors_forget_strings_refuted",
    "C22_swap_mem_refuted",
    "C22_failed_assignment_refuted",
    "C22_input_forgets_wide_refuted"
   ],
   "note": "C22_values_partial: A history on the pool gives every variable and every pending value the text it has when strings are plain values, and fails exactly when that fails, or when at some point all strings of the pool are in use. Missing: SWAP with MEM$, and going on after an assignment has run out of memory (both false, see below). C22_fresh_partial: (Same histories as above.) The string handed out for a new value is not referred to by any variable, array element or pending value. C22_only_assigned_partial: (Same histories as above.) After [V$ = value], V$ has that text, every other variable and every other pending value keeps its own. C22_released_partial: Without the commands that forget strings, a string is in use exactly as often as it is referred to: one that is no longer referred to is available again. C22_room_partial: ... and the pool has a free string whenever it has more strings than there are variables and pending values. C22_enough_strings_partial: With more strings than variables and pending values together, the pool cannot be told from plain values. C22_read_forgets_strings_refuted: READ A$ in a loop: every READ uses up a string for good; after as many as there are strings the pool is full although only A$ refers to one. C22_errors_forget_strings_refuted: Every PRINT \"A\"+\"B\"+1/0 style error keeps the strings of the pending values: with a pool of two, the second error leaves no string. (CLEAR helps.). C22_swap_mem_refuted: SWAP MEM$,A$ makes A$ another name for MEM$: a later assignment to MEM$ changes A$ too. C22_failed_assignment_refuted: A$=\"B\" reports \"out of memory\" when all strings are in use, although A$ gives back its own string; and the string is then counted as free while A$ still refers to it: the next value overwrites A$. C22_input_forgets_wide_refuted: INPUT A$ over a wide string forgets it."
  },
  {
   "property": "C23",
   "status": "partial",
   "theorems": [
    "C23_queue",
    "C23_fifo",
    "C23_inkey",
    "C23_nul_key_refuted"
   ],
   "note": "C23_nul_key_refuted: a key with code 0 (a NUL character in a KEY string) is consumed but reported as \"no key\"."
  },
  {
   "property": "C24",
   "status": "partial",
   "theorems": [
    "C24_button",
    "C24_bad_mode",
    "C24_select_break",
    "C24_brepeat_range",
    "C24_brepeat_error_effect_refuted"
   ],
   "note": "C24_brepeat_error_effect_refuted: a rejected BREPEAT (negative interval) has already changed the start delay."
  },
  {
   "property": "C25",
   "status": "partial",
   "theorems": [
    "C25_console",
    "C25_page_layout",
    "C25_locate",
    "C25_chkchr",
    "C25_input_prompt_refuted",
    "C25_input_prompt_partial"
   ],
   "note": "C25_input_prompt_refuted: INPUT and LINPUT put their '?' without the scroll check: after text that ends exactly at the end of the last row the write is outside the screen. C25_input_prompt_partial: the prompt of INPUT, when the cursor is not below the last row."
  },
  {
   "property": "C26",
   "status": "proved",
   "theorems": [
    "C26_put_read",
    "C26_parts_round_trip",
    "C26_text_round_trip",
    "C26_one_to_one",
    "C26_layers_distinct",
    "C26_bad_arguments",
    "C26_reachable"
   ],
   "note": ""
  },
  {
   "property": "C27",
   "status": "partial",
   "theorems": [
    "C27_fill",
    "C27_copy_partial",
    "C27_copy_outside_refuted"
   ],
   "note": "C27_copy_partial: BGCOPY when the destination rectangle lies inside the 64x64 layer: the source as it was before, also when the two overlap. Missing: destinations that stick out (see the refutation). C27_copy_outside_refuted: Otherwise BGCOPY changes cells outside the destination columns, or writes outside the layer's memory."
  },
  {
   "property": "C28",
   "status": "proved",
   "theorems": [
    "C28_gpset",
    "C28_gspoit",
    "C28_layout",
    "C28_xor_twice"
   ],
   "note": ""
  },
  {
   "property": "C29",
   "status": "partial",
   "theorems": [
    "C29_gfill_partial",
    "C29_gfill_rectangle",
    "C29_colour_range",
    "C29_gfill_outside_refuted",
    "C29_gfill_swapped_refuted",
    "C29_gbox_partial",
    "C29_gbox_xor_refuted",
    "C29_gbox_outside_refuted",
    "C29_gline_partial",
    "C29_gline_direction",
    "C29_gline_long_refuted",
    "C29_gline_overflow_refuted"
   ],
   "note": "C29_gfill_partial: what GFILL draws, always; [Z.max v 0] is where a negative corner goes. C29_gfill_outside_refuted: a rectangle wholly to the left of the page colours column 0. C29_gfill_swapped_refuted: with the right corner first nothing is drawn. C29_gbox_partial: in the normal mode, a box with no side left of or above the page. C29_gbox_xor_refuted: in the xor mode the corners are drawn twice, so they do not change. C29_gbox_outside_refuted: a side left of the page is drawn at its edge. C29_gline_partial: A line whose ends are at most 2049 apart: one point for each step along its longer side, from one end point to the other, each at most one pixel beside its neighbours and within one pixel of the ideal line. C29_gline_long_refuted: a longer line can miss its last point. C29_gline_overflow_refuted: and a very long one overflows an int: undefined behaviour."
  },
  {
   "property": "C30",
   "status": "partial",
   "theorems": [
    "C30_lossless_partial",
    "C30_one_spare_byte_suffices",
    "C30_attempt_reports_failure",
    "C30_buffer_overrun_refuted"
   ],
   "note": "C30_lossless_partial: C30: whenever the compressor finishes without leaving its buffer, its result decodes to the source, is the smallest over all cache widths and never larger than the source. C30_buffer_overrun_refuted: With the source_size bytes the code allocates, a write lands behind the buffer."
  },
  {
   "property": "C31",
   "status": "partial",
   "theorems": [
    "C31_inplace_partial",
    "C31_inplace_refuted",
    "C31_cache_width_refuted"
   ],
   "note": "C31_inplace_partial: C31: the file is placed at the end of the destination; loading is right when, after every i output bytes, the bytes still to be read are no more than the bytes still to be written (and, for the 0-bit cache, the last byte has an unused bit). C31_inplace_refuted: a compressible start followed by incompressible bytes is destroyed: the decoder overwrites what it has not read. C31_cache_width_refuted: A header that names more than 7 cache bits overruns the decoder's cache array."
  },
  {
   "property": "C32",
   "status": "partial",
   "theorems": [
    "C32_scan_finds_instructions",
    "C32_compiler_emits_instructions_partial",
    "C32_long_name_refuted"
   ],
   "note": "C32_compiler_emits_instructions_partial: Whatever the source lines and the argument checker, with or without variable numbers, the code produced is a sequence of whole instructions (so the previous theorem applies to it), provided names are at most 64 characters long. C32_long_name_refuted: names of 65 characters or more make the scanner take their characters for instructions."
  },
  {
   "property": "C33",
   "status": "partial",
   "theorems": [
    "C33_assignment_partial",
    "C33_minus_after_hex_refuted",
    "C33_after_sort_refuted"
   ],
   "note": "C33_assignment_partial: C33: assignments. The value assigned is [sem] of the expression tree, which is the tree with AND OR XOR < comparisons < + - < * / % < unary, left associative ([wfe]: parentheses are written wherever the tree deviates from that). Missing from the full statement: the misread spellings below. C33_minus_after_hex_refuted: A=&H10-3: a minus after a hexadecimal number (or a string, or a function name without parentheses) is taken for a sign; the assignment is then made to a number. C33_after_sort_refuted: SORT 0,1,K:A=5 : after SORT the rest of the line refers to arrays; the variable A keeps its value, the array A is changed."
  },
  {
   "property": "C34",
   "status": "partial",
   "theorems": [
    "C34_loop_partial",
    "C34_step_zero_partial",
    "C34_zero_trips_partial",
    "C34_zero_trips_leak_refuted",
    "C34_mixed_next_refuted",
    "C34_zero_trips_nested_refuted",
    "C34_abandoned_loop_refuted",
    "C34_long_bounds_refuted"
   ],
   "note": "C34_loop_partial: The body runs exactly [trips] times, the variable taking the values a, a+s, a+2s, ...; then control is after NEXT, the call stack as before the loop, the variable one step beyond; an overflow of the variable is reported. Missing from the full statement: bounds whose value changes while the loop runs, bounds of 256 bytes of code or more, and what the refutations below show. C34_step_zero_partial: STEP 0 with a first value not beyond the last: the body runs for ever. C34_zero_trips_partial: Zero times: control goes to after the NEXT that closes the loop. [mid] is the body; inner loops in it are closed by NEXT without a variable ([walk mid]: back at the outer level at its end). The closing NEXT is at the start of a statement, without variable ([v] = false), or with the loop's variable. Missing from the full statement: the loop is not taken off the call stack (see below). C34_zero_trips_leak_refuted: A loop that runs zero times stays on the call stack: after 255 of them the next loop fails. C34_mixed_next_refuted: NEXT J and NEXT mixed: the end of a loop that runs zero times is not found. C34_zero_trips_nested_refuted: FOR I=1 TO 3 / A=A+1 / FOR J=2 TO 1 / NEXT / NEXT : the second NEXT continues the inner loop, which ran zero times and was not taken off the call stack; the body of the outer loop runs once instead of three times. C34_abandoned_loop_refuted: FOR I=1 TO 2 / FOR J=5 TO 9 / A=A+1 / NEXT I : the inner loop is left unfinished; the outer one should run its body twice, but its bounds are compared with J the second time, and the NEXT of J is looked for. C34_long_bounds_refuted: bounds of 256 bytes of code are not found again."
  },
  {
   "property": "C35",
   "status": "partial",
   "theorems": [
    "C35_gosub_return",
    "C35_return_without_gosub",
    "C35_return_in_loop_refuted",
    "C35_depth"
   ],
   "note": "C35_return_in_loop_refuted: ...except inside a FOR loop, where the entry below the bottom of the call stack is read."
  },
  {
   "property": "C36",
   "status": "partial",
   "theorems": [
    "C36_line_partial",
    "C36_if_partial",
    "C36_nested_else_refuted",
    "C36_label_argument_refuted",
    "C36_print_else_refuted",
    "C36_dim_else_refuted"
   ],
   "note": "C36_line_partial: C36: a line of statements, with IF and ELSE. [exec_lin] is the meaning of the line: statements in order, IF takes exactly one branch, a jump leaves the line, a subroutine call returns to the rest of the line. Missing from the full statement: IF inside the THEN part of an IF with ELSE (and an ELSE for the inner IF), a label directly after THEN or ELSE in a command other than GOTO and GOSUB, FOR and NEXT on a line with IF. C36_if_partial: The plain case: a condition, a THEN and an ELSE statement that fall through; no system variable needs checking. C36_nested_else_refuted: IF 0 THEN IF 1 THEN A=1 ELSE A=2: the ELSE belongs to the inner IF, which must not run at all; A becomes 2. C36_label_argument_refuted: IF 1 THEN RESTORE @L jumps to @L instead of executing RESTORE (82). C36_print_else_refuted: IF 0 THEN PRINT A ELSE LOCATE 1,2 : LOCATE (1) is given the separator of PRINT between its arguments. C36_dim_else_refuted: IF 0 THEN DIM A(5) ELSE B(1)=2 : the ELSE part is still taken for a part of DIM; it makes an array B with one element, and nothing is left to assign to."
  },
  {
   "property": "C37",
   "status": "partial",
   "theorems": [
    "C37_statement",
    "C37_history",
    "C37_out_of_data",
    "C37_unreadable",
    "C37_past_end_refuted",
    "C37_pool_refuted",
    "C37_long_number_refuted",
    "C37_space_refuted",
    "C37_long_line_refuted"
   ],
   "note": "C37_past_end_refuted: a READ that runs out of DATA after its first variable ends the interpreter. C37_pool_refuted: Every string READ uses up one string of the pool for good, even when it replaces the variable's old value: when the pool is empty the next one ends the interpreter. C37_long_number_refuted: a number of more than 16 characters is read as two items. C37_space_refuted: a space in front of a quoted number makes it 0. C37_long_line_refuted: A DATA line of 128 or more bytes cannot be passed: execution continues at or before the bytes of the line itself (on the PC, where char is signed)."
  },
  {
   "property": "C38",
   "status": "partial",
   "theorems": [
    "C38_order",
    "C38_permutes_partial",
    "C38_range",
    "C38_order_refuted",
    "C38_ends_refuted",
    "C38_companion_refuted"
   ],
   "note": "C38_permutes_partial: SORT start,size,data[,extra...] on one-dimensional arrays, all different, with start and size inside all of them: if it finishes, one and the same permutation of the positions start .. start+size-1 has been applied to all the arrays given; nothing else has changed. It never leaves the arrays. Missing: that it finishes, and that the result is in order (both are refuted below). C38_order_refuted: Two elements are not sorted at all, three elements can come out unsorted. C38_ends_refuted: SORT 0,3,A on A = 1,5,5 never ends: the recursion is unbounded (the C program overflows its stack). C38_companion_refuted: A companion given twice is moved twice; an array that does not exist yet is a NULL pointer."
  },
  {
   "property": "C39",
   "status": "partial",
   "theorems": [
    "C39_poke_word",
    "C39_poke_half",
    "C39_poke_byte",
    "C39_layout",
    "C39_outside",
    "C39_word_at_the_end_refuted",
    "C39_bytes_safe",
    "C39_memcopy",
    "C39_memcopy_accepts",
    "C39_memcopy_overlap",
    "C39_memcopy_adjacent_refuted",
    "C39_last_byte_refuted",
    "C39_memfill",
    "C39_ptr",
    "C39_memsafe",
    "C39_addr_name_partial",
    "C39_addr_name_refuted"
   ],
   "note": "C39_word_at_the_end_refuted: a word or half word that begins inside the memory but does not fit is written past its end. C39_memcopy_adjacent_refuted: but blocks that merely touch are refused as if they overlapped, and so is the last byte of the memory. C39_last_byte_refuted: the last byte of the memory is refused by MEMFILL and MEMCOPY. C39_addr_name_partial: ... as long as the whole text has at most 17 characters. C39_addr_name_refuted: a variable whose name is too long for the copy on the stack is written past it."
  },
  {
   "property": "C40",
   "status": "partial",
   "theorems": [
    "C40_chr_roundtrip",
    "C40_chr_reject",
    "C40_chr_other_type",
    "C40_chr_read_back",
    "C40_col_roundtrip",
    "C40_col_precision",
    "C40_col_reject",
    "C40_col_read_back",
    "C40_col_mem_refuted"
   ],
   "note": "C40_col_mem_refuted: MEM$ can hold the same text but is refused as a colour: its characters are compared as wide codes."
  },
  {
   "property": "C41",
   "status": "partial",
   "theorems": [
    "C41_accepts",
    "C41_documented",
    "C41_lax_refuted",
    "C41_buffer",
    "C41_distinct",
    "C41_screens",
    "C41_graphics_pages",
    "C41_default_page",
    "C41_default_bank_refuted",
    "C41_redraw_partial",
    "C41_load",
    "C41_chr_bank_refuted",
    "C41_chr_crash_refuted",
    "C41_chr_partial"
   ],
   "note": "C41_lax_refuted: some others are accepted as well. C41_default_bank_refuted: without a bank, however, the upper screen is meant whatever the current page: TYPE is not TYPE0. C41_redraw_partial: the characters redrawn after LOAD or CHRSET are those of the changed buffer, if the bank was given. C41_chr_bank_refuted: CHRINIT, CHRREAD, CHRSET validate less: the bank is not checked. C41_chr_crash_refuted: beyond the table, or with an unknown type, the program crashes. C41_chr_partial: documented types are handled correctly."
  },
  {
   "property": "C42",
   "status": "partial",
   "theorems": [
    "C42_moves_partial",
    "C42_jumps",
    "C42_others",
    "C42_short_refuted",
    "C42_held_refuted",
    "C42_spchk_refuted"
   ],
   "note": "C42_moves_partial: While undisturbed: n frames after SPOFS id,x,y,t the sprite has gone n steps of 1/t of the way, each rounded towards zero to 1/4096 pixel, and stays there after t frames: less than t/4096 pixels short of the target, exactly there if t divides the way. C42_short_refuted: the steps are rounded: ten pixels in three frames end at pixel nine. C42_held_refuted: in the frame in which a sprite ends its animation the sprites after it stand still. C42_spchk_refuted: a sprite just set is reported as turning and growing."
  },
  {
   "property": "C43",
   "status": "partial",
   "theorems": [
    "C43_number_partial",
    "C43_arguments_partial",
    "C43_accepts_partial",
    "C43_no_damage_partial",
    "C43_only_named",
    "C43_functions",
    "C43_spclr_refuted",
    "C43_sppage_refuted",
    "C43_spanim_refuted",
    "C43_chr_refuted",
    "C43_spscale_refuted"
   ],
   "note": "C43_number_partial: a control number outside 0..99 raises an error and changes nothing. C43_arguments_partial: so does any other argument outside its range, for a sprite that exists; SPPAGE, the character of SPSET and the loops of SPANIM apart. C43_accepts_partial: and arguments in range are accepted. C43_no_damage_partial: whatever the arguments: no slot outside the tables is used, except by SPCLR (and SPSCALE may divide by zero). C43_spclr_refuted: SPCLR does not check the number, SPPAGE not the screen. C43_sppage_refuted: SPPAGE accepts any screen; the next command then leaves the tables. C43_spanim_refuted: SPANIM starts the animation before it rejects the number of loops. C43_chr_refuted: character 512 does not exist. C43_spscale_refuted: SPSCALE knows only 32 sprites."
  },
  {
   "property": "C44",
   "status": "proved",
   "theorems": [
    "C44_halves",
    "C44_elapsed",
    "C44_low_half_is_signed"
   ],
   "note": ""
  },
  {
   "property": "C45",
   "status": "partial",
   "theorems": [
    "C45_dtread",
    "C45_tmread",
    "C45_clock",
    "C45_wide_refuted",
    "C45_wide_value_refuted"
   ],
   "note": "C45_wide_refuted: A date copied to MEM$ (a wide string) is rejected: its digits are the full-width ones. C45_wide_value_refuted: and TMREAD checks the low byte but uses the whole character: U+0130 ... gives 2560 hours."
  },
  {
   "property": "C46",
   "status": "partial",
   "theorems": [
    "C46_formats_partial",
    "C46_functions",
    "C46_commands_partial",
    "C46_missing_list_refuted",
    "C46_comma_refuted",
    "C46_functions_without_format_refuted"
   ],
   "note": "C46_formats_partial: every format of the three tables: accepted means one of the alternatives, or an alternative whose list is missing. C46_commands_partial: commands other than SORT and RSORT, and other than INPUT \"text\"; : exactly the alternatives. C46_missing_list_refuted: INPUT \"text\"; without a variable and SORT 0,5 without an array are accepted. C46_comma_refuted: a comma left on the stack counts as a label: GOTO with \"L<\". C46_functions_without_format_refuted: EXP, TAN and SPHITRC have an empty format: no argument list is accepted."
  },
  {
   "property": "C47",
   "status": "proved",
   "theorems": [
    "C47_on_goto"
   ],
   "note": ""
  },
  {
   "property": "C48",
   "status": "partial",
   "theorems": [
    "C48_line_partial",
    "C48_long_line_refuted"
   ],
   "note": "C48_line_partial: every line of well-formed statements (see StmtSpec.wfl): no underflow, empty stack at its end; other statements are missing. C48_long_line_refuted: more than 100 tokens on a line overrun the compiler's arrays."
  },
  {
   "property": "C49",
   "status": "partial",
   "theorems": [
    "C49_editing_partial",
    "C49_waits_partial",
    "C49_linput_partial",
    "C49_prompt_partial",
    "C49_last_row_refuted",
    "C49_cursor_refuted",
    "C49_stale_refuted",
    "C49_kana_refuted"
   ],
   "note": "C49_editing_partial: Keys typed while the row is empty: the row shows the edited text and nothing else, in the current colour; the cursor is at its place in the text; every other row is as before. (Missing: a full last row, C49_last_row_refuted.). C49_waits_partial: as long as neither Return nor A is pressed and no error occurs, it waits, whatever is typed. C49_linput_partial: LINPUT delivers the text typed, once the prompt is shown and the row after it is empty. C49_prompt_partial: A prompt that fits in the rest of the row appears there, followed by a question mark; the line typed goes to the next row, which is empty if it was empty before or if the screen had to move up. C49_last_row_refuted: 32 characters typed on the last row: Backspace reads beyond the screen's memory. C49_cursor_refuted: with 32 characters the cursor leaves the row; if LINPUT is then broken off, the next character printed fails an assertion. C49_stale_refuted: text already in the row is delivered with what is typed: LOCATE 0,5: PRINT \"HELLO\": LOCATE 0,4: LINPUT A$, X and Return give XELLO. C49_kana_refuted: the hiragana letter U+3041 is delivered as character 224."
  },
  {
   "property": "C50",
   "status": "partial",
   "theorems": [
    "C50_fields_partial",
    "C50_again_partial",
    "C50_not_a_number_partial",
    "C50_no_damage_partial",
    "C50_full_line_refuted",
    "C50_last_character_refuted",
    "C50_space_refuted",
    "C50_redo_refuted"
   ],
   "note": "C50_fields_partial: A line of one field per variable, at most 31 characters: each variable gets its field. C50_again_partial: A line whose number of fields is not the number of variables: \"?Redo from start\", the prompt again, and INPUT goes on with the keys that follow; no variable has changed. C50_not_a_number_partial: The same when the first variable is a number and the line does not begin with a digit, a sign or a point. C50_no_damage_partial: Any line of at most 31 characters, any number or string variables: INPUT takes it or asks again; no access outside the row, the copy or the screen. C50_full_line_refuted: INPUT A with 32 digits writes beyond its copy of the line. C50_last_character_refuted: INPUT A$ with 32 characters loses the last one. C50_space_refuted: INPUT A,B with \"1 2,3\": A is 1, B is 2; a space ends a number, and the rest of the line is not looked at. C50_redo_refuted: INPUT A,B with \"1,X\" asks again, but A has already changed when it is then broken off."
  },
  {
   "property": "C51",
   "status": "partial",
   "theorems": [
    "C51_bgofs_partial",
    "C51_bgofs_exact_partial",
    "C51_bgofs_exact_refuted",
    "C51_bgofs_now"
   ],
   "note": "C51_bgofs_partial: BGOFS with a time: the layer moves by the same step every frame, and the motion ends after t frames; every frame is at most t-1 units of 1/4096 behind the exact linear path. C51_bgofs_exact_partial: It arrives exactly when t divides the distance. C51_bgofs_exact_refuted: Not otherwise: BGOFS 0,1,0,3 from the origin stops at 4095/4096 for ever."
  },
  {
   "property": "C52",
   "status": "proved",
   "theorems": [
    "C52_wait",
    "C52_ends"
   ],
   "note": ""
  },
  {
   "property": "C53",
   "status": "proved",
   "theorems": [
    "C53_swap"
   ],
   "note": ""
  },
  {
   "property": "C54",
   "status": "partial",
   "theorems": [
    "C54_save",
    "C54_save_refused",
    "C54_load",
    "C54_roundtrip",
    "C54_missing",
    "C54_redraw_partial",
    "C54_mem",
    "C54_compressed_partial",
    "C54_truncated_refuted",
    "C54_kind_refuted",
    "C54_mem_size_refuted",
    "C54_compressed_refuted",
    "C54_save_program_refuted"
   ],
   "note": "C54_redraw_partial: what is shown is renewed: palettes always, characters when the name gives the bank. C54_compressed_partial: compressed files: right whenever C31 holds. C54_truncated_refuted: a file cut short is loaded in part, and RESULT says success. C54_kind_refuted: the kind of a file is not looked at: a palette file loads as characters. C54_mem_size_refuted: the length stored in a MEM file is believed: MEM$ then reads beyond its 256 characters. C54_compressed_refuted: a compressed file that is larger than the resource is written in front of it. C54_save_program_refuted: SAVE of a program takes the first characters of the text for the length and an address."
  },
  {
   "property": "C55",
   "status": "partial",
   "theorems": [
    "C55_load_sd",
    "C55_load_internal_partial",
    "C55_kind_refuted",
    "C55_missing",
    "C55_name_refuted",
    "C55_short_refuted",
    "C55_overflow_refuted",
    "C55_empty_refuted",
    "C55_mem_package_refuted",
    "C55_append",
    "C55_append_refused",
    "C55_append_name",
    "C55_new",
    "C55_package",
    "C55_package_text",
    "C55_package_initial_refuted"
   ],
   "note": "C55_load_internal_partial: the internal format. C55_kind_refuted: LOAD does not look at the kind of file: the data of any other resource is taken for a program. C55_name_refuted: the internal format holds no name: PRGNAME$ becomes whatever was on the stack. C55_short_refuted: a file shorter than its header says keeps the old rest of the program. C55_overflow_refuted: a program longer than the buffer is written behind it. C55_empty_refuted: an empty program loads, but RESULT says failure. C55_mem_package_refuted: a packed MEM resource brings its text, but MEM$ keeps the length it had. C55_package_initial_refuted: before the first LOAD, PACKAGE$ has 13 characters, none of them a digit."
  },
  {
   "property": "C56",
   "status": "partial",
   "theorems": [
    "C56_chrinit",
    "C56_chrinit_missing",
    "C56_colinit_all",
    "C56_colinit_layer",
    "C56_colinit_other",
    "C56_colinit_color_refuted"
   ],
   "note": "C56_colinit_color_refuted: COLINIT with a colour never works: the interpreter stops."
  },
  {
   "property": "C57",
   "status": "proved",
   "theorems": [
    "C57_gcopy",
    "C57_page_range"
   ],
   "note": ""
  },
  {
   "property": "C58",
   "status": "partial",
   "theorems": [
    "C58_only_the_area",
    "C58_fills_partial",
    "C58_ends",
    "C58_same_colour_refuted",
    "C58_border_refuted",
    "C58_dots_refuted",
    "C58_on_border_refuted",
    "C58_beside_refuted",
    "C58_below_refuted"
   ],
   "note": "C58_fills_partial: If it ends without an error, and the new colour ends the area, the whole area has the new colour and nothing else has changed. C58_same_colour_refuted: painting an area in the colour it has already: an error. C58_border_refuted: with a border colour, any colour but the border colour fails. C58_dots_refuted: a page of dots exhausts the paint stack. C58_on_border_refuted: a starting point on the border paints the area above it. C58_beside_refuted: a starting point beside the page paints on the page. C58_below_refuted: one below it reads outside the page."
  },
  {
   "property": "C59",
   "status": "partial",
   "theorems": [
    "C59_draws_partial",
    "C59_palette",
    "C59_arguments",
    "C59_top_row_refuted",
    "C59_error_refuted",
    "C59_bgu_refuted"
   ],
   "note": "C59_draws_partial: The character is drawn, except on the top row of the page. C59_top_row_refuted: nothing is drawn on the top row of the page. C59_error_refuted: a name that is no resource is reported, but the palette has been copied by then. C59_bgu_refuted: without a bank, the last letter of \"BGU\" is taken for the page: the palette is that of the upper screen, not of the one selected."
  },
  {
   "property": "C60",
   "status": "partial",
   "theorems": [
    "C60_gcolor",
    "C60_gdrawmd",
    "C60_gprio",
    "C60_gpage_screen",
    "C60_gpage_pages",
    "C60_gpage_refuted",
    "C60_gcls",
    "C60_gcls_range",
    "C60_reachable"
   ],
   "note": "C60_gpage_refuted: a page out of range is reported, but the arguments before it have taken effect already."
  },
  {
   "property": "C61",
   "status": "partial",
   "theorems": [
    "C61_scale_at_once",
    "C61_scale_partial",
    "C61_scale_refuted",
    "C61_scale_zero_refuted",
    "C61_angle_at_once",
    "C61_angle_partial",
    "C61_angle_refuted"
   ],
   "note": "C61_scale_partial: with a time the scale comes near the value in that time, but then goes on for one frame more. C61_scale_refuted: from 100 % to 200 % in ten frames: 209 %. C61_scale_zero_refuted: in no time: a division by zero. C61_angle_partial: backwards (direction -1): like the scale, near the value in the time asked for, then one step more. C61_angle_refuted: forwards (direction 1, also when none is given) it turns the other way round: from 0 to 90 ends at -99."
  },
  {
   "property": "C62",
   "status": "partial",
   "theorems": [
    "C62_forever_partial",
    "C62_loops_partial",
    "C62_no_time_refuted",
    "C62_no_chrs_refuted",
    "C62_spchr_refuted"
   ],
   "note": "C62_forever_partial: without a number of loops, or with 0: forever. C62_loops_partial: with loops: that many times, and then the last one stays; SPCHK tells when. C62_no_time_refuted: time 0 is accepted; the animation then never moves, and never ends. C62_no_chrs_refuted: 0 characters are accepted; the animation then runs on through all the characters there are, and beyond. C62_spchr_refuted: once animated, a sprite does not show what SPCHR says."
  },
  {
   "property": "C63",
   "status": "partial",
   "theorems": [
    "C63_symmetric",
    "C63_sphit",
    "C63_sphitsp",
    "C63_standing",
    "C63_stale_way_refuted",
    "C63_scale_flag_refuted",
    "C63_unscaled_refuted"
   ],
   "note": "C63_stale_way_refuted: the old motion still counts: SPCHK says that both stand still, the boxes are apart, and SPHIT finds a hit. C63_scale_flag_refuted: SPCOL's flag, whether the box is scaled with the sprite, is ignored. C63_unscaled_refuted: a box that is not to be scaled is scaled."
  },
  {
   "property": "C64",
   "status": "partial",
   "theorems": [
    "C64_variables",
    "C64_spset",
    "C64_spread",
    "C64_spread_refuted",
    "C64_spclr"
   ],
   "note": "C64_spread_refuted: SPREAD gives the character without scaling: as a number it is 4096 times too small."
  },
  {
   "property": "C65",
   "status": "partial",
   "theorems": [
    "C65_line_partial",
    "C65_one_type",
    "C65_for_strings_refuted",
    "C65_on_command_refuted",
    "C65_no_subscript_refuted",
    "C65_label_then_statement_refuted",
    "C65_stack_overflow_refuted",
    "C65_empty_arguments_refuted"
   ],
   "note": "C65_line_partial: lines of the statements of StmtSpec (no DIM, DATA, SORT), values waiting at most 40, array elements with subscripts, no statement after a THEN label; FOR is checked only in its first value. C65_for_strings_refuted: FOR A$=\"A\" TO \"B\". C65_on_command_refuted: ON A CLS. C65_no_subscript_refuted: A()=1. C65_label_then_statement_refuted: IF A THEN @X:LOCATE 1,2 is refused. C65_stack_overflow_refuted: PRINT with 21 numbers and 20 semicolons overruns the checker's stack. C65_empty_arguments_refuted: A=ABS(,): the argument count says two, the stack is too short, and memory in front of it is read."
  },
  {
   "property": "C66",
   "status": "partial",
   "theorems": [
    "C66_variables_partial",
    "C66_spread_refuted"
   ],
   "note": "C66_variables_partial: READ, BGREAD, CHRREAD, COLREAD, DTREAD, TMREAD, SWAP, NEXT; missing: INPUT, LINPUT (prompt forms) and SPREAD (refuted). C66_spread_refuted: SPREAD 0,1 is accepted although SPREAD stores into its second argument."
  },
  {
   "property": "C67",
   "status": "partial",
   "theorems": [
    "C67_source_partial",
    "C67_unambiguous_partial",
    "C67_spaces_partial",
    "C67_words",
    "C67_illegal_partial",
    "C67_label_swallows_line_refuted",
    "C67_base_joins_lines_refuted",
    "C67_long_name_refuted",
    "C67_long_line_refuted"
   ],
   "note": "C67_source_partial: C67: lines of text become lines of tokens. [line_spelled] (LexSpec.v) says how a line is written: words and symbols (in capitals or not), with any spaces between them, each one as long as possible, then a remark or DATA to the end of the line, perhaps. At most 100 tokens a line and 255 characters a word. Missing from the full statement: the misread texts refuted below. C67_unambiguous_partial: No text can be read in two ways. C67_spaces_partial: Words and symbols separated by spaces are read as they stand: every sequence of tokens that have a spelling can be written. C67_illegal_partial: A line with an illegal character is an error of that line alone: the lines around it are read as usual. Missing: words before the character that are not followed by a space (as in A#), a line that is an error for another reason. C67_label_swallows_line_refuted: LABEL without a name is an error that swallows the following line: its code is missing from the program. C67_base_joins_lines_refuted: &H at the end of a line takes the end of the line for a digit: the two lines become one. C67_long_name_refuted: A name that starts with an eight-letter reserved word and continues as the table does is read as the reserved word. C67_long_line_refuted: The number of tokens on a line is not checked: after 100 the array of tokens is overrun, whatever the line."
  },
  {
   "property": "C68",
   "status": "partial",
   "theorems": [
    "C68_line_partial"
   ],
   "note": "C68_line_partial: The text of a line among the text of a program, run from the start of its code, does what the line is meant to do. Missing: as in C36, C67."
  },
  {
   "property": "C69",
   "status": "partial",
   "theorems": [
    "C69_expression",
    "C69_line_partial",
    "C69_on_variable_refuted"
   ],
   "note": "C69_line_partial: A line accepted by the check, compiled among any other lines and run from its start in any state, leaves the line (or ends with a BASIC error) without any operation being given operands of the wrong type; the one exception is RETURN inside FOR without GOSUB (C35). Missing: lines with FOR, NEXT (see C65_for_strings_refuted), DATA, SORT, and ON with string variables for labels (refuted below). C69_on_variable_refuted: ON 0 GOTO A$ is accepted, but where the string variable's text is needed its record is taken for a string."
  },
  {
   "property": "C70",
   "status": "partial",
   "theorems": [
    "C70_program_partial",
    "C70_text_partial"
   ],
   "note": "C70_program_partial: C70: a program does what its statements say, line after line, through every GOTO, GOSUB, RETURN, IF, FOR and NEXT, however long it runs: [run_program] (ProgSpec.v) is the reference, on statements, with no code, no offsets and no value stack. The interpreter ends where the program ends, reports the error the program makes, and runs on as long as the program does. Missing from the full statement: NEXT of an outer loop, of a loop around one without a single pass, in a subroutine for a loop outside it (the code leaves loops behind: C34_abandoned_loop, C34_zero_trips_nested), NEXT with and without variable mixed in a loop without a pass (C34_mixed_next), loop bounds of 256 bytes and more (C34_long_bounds), FOR and NEXT inside IF, a table of labels of size 0. C70_text_partial: The same from the text of the program: every line spelled as in C67. Missing: as in C67_source_partial and C70_program_partial."
  },
  {
   "property": "C71",
   "status": "partial",
   "theorems": [
    "C71_text_partial"
   ],
   "note": "C71_text_partial: C71: the machine made of the lexer, the compiler, the interpreter loop, the variable table, the array memory, the numbers, the strings and the console runs a program text the way the ideal computer (Ideal.v) runs its statements, from an empty machine, for as long as it runs. Missing from the full statement: what C70 leaves out; statements the ideal computer leaves unspecified (functions, system variables and commands not in Codes.v, -524288 negated, numbers whose fraction prints wrong (C10), MID$ beyond 32767, DIM with a negative size, ...); the exhaustion of the string memory."
  },
  {
   "property": "C72",
   "status": "partial",
   "theorems": [
    "C72_touch_keyboard_partial",
    "C72_fires",
    "C72_layout",
    "C72_every_character",
    "C72_long_mark_refuted",
    "C72_slip_refuted"
   ],
   "note": "C72_touch_keyboard_partial: For every history of touches, reads of INKEY$, KEYBOARD and FUNCNO, PNLTYPE and KEY commands, from the start: the characters that arrive, the numbers KEYBOARD and FUNCNO answer, and the program being stopped by the escape key, are those of the reference keyboard (layout, legends, SHIFT for one character, CAPS, repeat after 31 frames every 5, at most 256 characters waiting). Partial: the finger must not slip from a held key to a place without a key (C72_slip_refuted), less than 2^31 frames; ICONPUSE stays off (C73_pages covers it); the pictures and the text cursor of the keyboard are not modelled. C72_long_mark_refuted: Refuted: every character of the character set can be typed. No touches at all make INKEY$ answer the kana long mark 176 (KEY can). C72_slip_refuted: Refuted: touching the panel is always safe. Sliding from a held key (here 1) to the blank strip above it reads outside the table of keys."
  },
  {
   "property": "C73",
   "status": "partial",
   "theorems": [
    "C73_icons_partial",
    "C73_icon_range",
    "C73_pages",
    "C73_pages_range",
    "C73_page_in_range",
    "C73_pmax_refuted",
    "C73_page_down_refuted",
    "C73_hidden_button_refuted"
   ],
   "note": "C73_icons_partial: ICONCHK() answers the number of the icon whose place fires, if the icon is shown, and -1 otherwise, for every history of touches, ICONSET and ICONCLR. Partial: as C72_touch_keyboard_partial (no slips, less than 2^31 frames, ICONPUSE off). C73_pmax_refuted: Refuted: ICONPAGE never exceeds ICONPMAX. Lowering ICONPMAX leaves ICONPAGE where it was. C73_page_down_refuted: Refuted: the page buttons repeat while they are held. The upper one does; the lower one turns one page however long it is held. C73_hidden_button_refuted: Refuted: the page buttons work only with ICONPUSE on. With ICONPUSE off the place of the hidden button turns the page back."
  },
  {
   "property": "C74",
   "status": "proved",
   "theorems": [
    "C74_pnlstr",
    "C74_key",
    "C74_pnltype",
    "C74_start"
   ],
   "note": ""
  },
  {
   "property": "C75",
   "status": "proved",
   "theorems": [
    "C75_visible_sets",
    "C75_visible_refuses",
    "C75_hidden_is_not_seen"
   ],
   "note": ""
  },
  {
   "property": "C76",
   "status": "partial",
   "theorems": [
    "C76_upper_screen_partial",
    "C76_negative_offset_refuted",
    "C76_background_partial",
    "C76_graphics",
    "C76_sprites_partial",
    "C76_sprite_extent"
   ],
   "note": "C76_upper_screen_partial: Missing: negative scroll offsets that are not a whole number of characters are shown wrong (next theorem); BGCLIP has no effect on the picture; turned sprites and sprites enlarged by a fraction are left out, and so are the panel and the icons of the lower screen. C76_negative_offset_refuted: after BGOFS with an offset of -1 the layer is drawn 8 pixels off: the first of the two terms truncates toward zero, the other rounds down. C76_background_partial: Missing: other negative offsets (C76_negative_offset_refuted), BGCLIP. C76_sprites_partial: Missing: turned sprites, and sprites enlarged by a fraction (where they reach is C76_sprite_extent)."
  },
  {
   "property": "C77",
   "status": "proved",
   "theorems": [
    "C77_colset_is_shown"
   ],
   "note": ""
  },
  {
   "property": "C78",
   "status": "partial",
   "theorems": [
    "C78_acls_partial",
    "C78_full_stack_refuted",
    "C78_black"
   ],
   "note": "C78_acls_partial: ACLS, whatever is on the screens: everything is cleared (see [cleared]); the program goes on with its own variables and its loops and subroutine calls as they were, unless these fill the call stack. C78_full_stack_refuted: with 255 loops and calls waiting it cannot be run: the program stops with an error, and its variables are gone."
  },
  {
   "property": "C79",
   "status": "partial",
   "theorems": [
    "C79_program_partial"
   ],
   "note": "C79_program_partial: C79: the machine of C71 with the reader of DATA statements, run from a program text, does what the ideal computer does whose READ takes the next items of the program's DATA lines (whatever loops, subroutines and jumps lie between), whose RESTORE goes on with the items behind a label, and which reports Out of data when there are none left and Read failure for an item that is no number. [its] are the items of each statement (DataSpec.v). Missing from the full statement: what C71 leaves out; DATA lines with text behind an unquoted item; READ with more variables than items left (C37_past_end_refuted); numbers of more than 16 characters, with more than six decimals or from 524288 on; the exhaustion of the string memory."
  },
  {
   "property": "C80",
   "status": "partial",
   "theorems": [
    "C80_program_partial",
    "C80_break_partial"
   ],
   "note": "C80_program_partial: C80: the machine of C79 with INPUT and LINPUT and the keys [ks] that will be pressed, run from a program text, does what the ideal computer does that is told the lines typed ([todo]): a question mark and the line typed appear on the page, LINPUT delivers the whole line, INPUT its fields, asks again when there are more or fewer fields than variables or the first number is none, and breaking off stops the program. Missing from the full statement: what C79 leaves out; lines of 32 characters (C50_full_line_refuted, C50_last_character_refuted); a question asked below the last row or in a line that is not empty; a later field that is no number (C50_redo_refuted) and numbers ended by a space (C50_space_refuted); the prompt in front of a semicolon; characters outside the character set. C80_break_partial: A program that asks and is broken off stops with the error of the escape key, wherever it asks."
  },
  {
   "property": "C81",
   "status": "partial",
   "theorems": [
    "C81_direct_partial",
    "C81_next_line_partial",
    "C81_break_repeats_refuted",
    "C81_long_code_refuted",
    "C81_badly_typed_partial"
   ],
   "note": "C81_direct_partial: C81: from the moment it is switched on, the computer asks for a line, keeps it in CODE$, carries it out once, on the variables, arrays and screen the lines before have left, says OK (or Unknown transition, if the line has a character that belongs to no word, or the message of the error the compiler refuses the line with, and then does nothing else), and asks again; the questions of INPUT and LINPUT in a line are answered by what is typed next. Missing from the full statement: what C80 leaves out; what happens after a line has raised an error (its message is given, but the machine keeps no state there); breaking off (C81_break_repeats_refuted); RUN, the editor, shutting down, REM BENCH and REM LABEL. C81_next_line_partial: at any later moment too: one line more, on a machine that shows the ideal computer's state so far. C81_break_repeats_refuted: Breaking off the question carries out the line before once more: N=N+1 typed once and then the escape key leave 2 in N. C81_long_code_refuted: When a program has put more than 32 characters into CODE$, breaking off the question writes past the end of the launcher's buffer. C81_badly_typed_partial: C81: in direct mode a line of the language that is not well typed (C65) is carried out by no part: the computer keeps it in CODE$, says what is wrong (one of its messages) and asks again. Missing from the full statement: as in C81_direct_partial; lines of more than 100 words or with more than 40 values waiting (C65_stack_overflow_refuted)."
  },
  {
   "property": "C82",
   "status": "partial",
   "theorems": [
    "C82_program_partial"
   ],
   "note": "C82_program_partial: C82: the machine of C80 with the graphics pages [g], run from a program text, does what the ideal computer does that has four boards of dots ([b]): GPAGE, GCOLOR, GDRAWMD and GPRIO choose, GCLS, GPSET, GFILL, GBOX and GLINE draw exactly the dots asked for on the board chosen, GCOPY copies a rectangle of any of the boards to it (whatever the overlap), GSPOIT tells the colour of a dot, values out of range stop the program with the error; in the end (and after every statement) every dot of every page has the colour of the board's dot. Missing from the full statement: what C80 leaves out; rectangles with the corners exchanged or wholly beside the page and frames that begin beside it or are drawn in the exclusive-or mode (C29_gfill_outside_refuted, C29_gfill_swapped_refuted, C29_gbox_outside_refuted, C29_gbox_xor_refuted); lines neither level, upright nor diagonal (C29_gline_partial says how these run); GCIRCLE, GPAINT and GPUTCHR as statements of a program; a wrong number of arguments."
  },
  {
   "property": "C83",
   "status": "partial",
   "theorems": [
    "C83_program_partial"
   ],
   "note": "C83_program_partial: C83: the machine of C82 with the background layers [s], run from a program text, does what the ideal computer does that has two pages of two layers of 64 x 64 tiles ([w]): BGPAGE chooses a page, BGCLR empties it or one layer, BGPUT puts a tile (counting round at 64), BGFILL fills a rectangle, BGCOPY copies one (whatever the overlap), BGREAD stores the tile in a number, a text or four numbers; tiles are given as a number, as hexadecimal digits or in parts; values out of range stop the program with the error; in the end (and after every statement) BGREAD would tell the ideal tile for every cell of every layer of both pages. Missing from the full statement: what C82 leaves out; BGOFS and BGCHK (time passes there, C51), BGCLIP; copies that do not fit into the layer (C27_copy_outside_refuted); texts for a tile other than up to four digits and capital letters A to F; a wrong number of arguments."
  },
  {
   "property": "C84",
   "status": "partial",
   "theorems": [
    "C84_program_partial"
   ],
   "note": "C84_program_partial: C84: the machine of C83 with the palettes [r], run from a program text, does what the ideal computer does that has 256 colours for the background, the sprites and the graphics of each screen ([h]): COLSET mixes a colour from six hexadecimal digits (kept to 5, 6 and 5 bits) for the screen BGPAGE or GPAGE has chosen, COLREAD stores red, green and blue in three variables; numbers out of range, other names and other texts stop the program with the error; in the end (and after every statement) COLREAD would tell the ideal colour for every entry of every palette. Missing from the full statement: what C83 leaves out; SPPAGE (sprite palettes are the upper screen's); COLINIT; that the picture shows the new colours (C72, DisplayFrame); a wrong number of arguments."
  }
 ]
}