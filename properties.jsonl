{"id": "C01", "title": "Addition and subtraction are exact or report Overflow", "statement": "For numeric operands, X+Y and X-Y yield exactly the mathematical sum/difference of the two 20.12 fixed-point values when it is representable, and otherwise stop with the Overflow error and push no result; a silently wrapped value is never produced.", "quantifier": "all pairs of 32-bit fixed-point operands", "why_tests_cant": "2^64 operand pairs; tests sample a handful", "anchors": ["source/interpreter/operators.c:op_add,op_sub"]}
{"id": "C02", "title": "Multiplication rounds down to 1/4096 or reports Overflow", "statement": "X*Y yields the exact product rounded toward minus infinity to a multiple of 1/4096 whenever the rounded value is representable; otherwise Overflow is raised.", "quantifier": "all pairs of 32-bit fixed-point operands", "why_tests_cant": "2^64 operand pairs", "anchors": ["source/interpreter/operators.c:op_mult"]}
{"id": "C03", "title": "Division truncates toward zero, or reports Division by zero / Overflow", "statement": "X/Y yields the exact quotient truncated toward zero to a multiple of 1/4096; Y=0 raises Division by zero; a quotient that does not fit raises Overflow.", "quantifier": "all pairs of 32-bit fixed-point operands", "why_tests_cant": "2^64 operand pairs, the boundaries are at INT_MIN and tiny divisors", "anchors": ["source/interpreter/operators.c:op_div"]}
{"id": "C04", "title": "Comparison operators are the order of the values and yield exactly 0 or 1", "statement": "==, !=, <, <=, >, >= on two numbers yield 1.0 exactly when the relation holds of the values, else 0.0; on two strings they compare by content, independently of how the strings are stored; mixing a string and a number is a Type mismatch error.", "quantifier": "all operand pairs and all string representations", "why_tests_cant": "infinitely many strings in four physical encodings", "anchors": ["source/interpreter/operators.c:op_equal..op_greater_or_equal", "source/interpreter/strs.c:str_comp,str_lex"]}
{"id": "C05", "title": "AND/OR/XOR/NOT/! and % act on the values a BASIC program sees", "statement": "AND, OR, XOR and NOT act bitwise on the integer (floored) parts of their operands and produce an integer value; ! is 1 exactly on 0; X%Y is the remainder with the sign of X satisfying X = Y*q + r with |r|<|Y|, and a zero divisor raises Division by zero.", "quantifier": "all 32-bit fixed-point operands", "why_tests_cant": "2^64 operand pairs", "anchors": ["source/interpreter/operators.c:op_and,op_or,op_xor,op_not,op_logical_not,op_modulo"]}
{"id": "C06", "title": "FLOOR, ABS, SGN, unary minus, DEG/RAD behave as their mathematical counterparts", "statement": "FLOOR(x) is the greatest integer not above x; ABS(x) is |x|; SGN(x) is -1, 0 or 1; -x is the negation; RAD/DEG scale by the fixed PI constant with truncation. The single value where |x| and -x are not representable is identified.", "quantifier": "all 32-bit fixed-point arguments", "why_tests_cant": "2^32 arguments and one bad one", "anchors": ["source/interpreter/mathptc.c", "source/interpreter/operators.c:op_negate"]}
{"id": "C07", "title": "RND(n) stays in range", "statement": "For every integer bound n and every value the C random source may return, RND(n) is an integer in [0,n) for n>0 (and in (n,0] for n<0), and n=0 is handled without dividing by zero.", "quantifier": "all arguments and all random source outputs", "why_tests_cant": "random source outputs cannot be enumerated by tests", "anchors": ["source/interpreter/mathptc.c:func_rnd"]}
{"id": "C08", "title": "Decimal literals and VAL read the right value", "statement": "Reading a decimal number text d.f (with optional minus for VAL) yields the fixed-point value floor(4096*f)/4096 + d, hexadecimal/binary prefixed text yields the integer it denotes, and text outside the representable range is rejected.", "quantifier": "all digit strings", "why_tests_cant": "unbounded set of digit strings, with wrap-around in 32-bit accumulators", "anchors": ["source/interpreter/strs.c:str_to_number", "source/interpreter/tokens.c:tok_number,tok_base_number", "source/interpreter/strfuncs.c:func_val"]}
{"id": "C09", "title": "Numeric constants survive compilation", "statement": "A numeric constant emitted into the compiled program is pushed back by the runner as exactly the same fixed-point value, for both the compact and the full encoding, and the emitted instruction has even length.", "quantifier": "all 2^32 constant values", "why_tests_cant": "2^32 values through two encodings", "anchors": ["source/interpreter/tokens.c:tok_code", "source/interpreter/runner.c:_run", "source/interpreter/program.c:bc_scan_pair"]}
{"id": "C10", "title": "Printed numbers are correct decimals", "statement": "STR$(x)/PRINT x shows an optional minus sign, the integer part without leading zeros and up to three decimals without trailing zeros, within 1/1000 of x, using only digits, '-' and '.'.", "quantifier": "all 2^32 fixed-point values", "why_tests_cant": "2^32 values; failures cluster at fractions within 2/4096 of the next integer", "anchors": ["source/interpreter/strs.c:fixp_to_char,str_num"]}
{"id": "C11", "title": "Variables behave as a map from (name,type) to value", "statement": "After any sequence of creations, reads and writes of variables of any names and types, reading a variable returns the last value written to that same name and type (or 0 / empty string if never written), and writing one variable never changes another.", "quantifier": "all histories of variable operations, all names and hash collisions", "why_tests_cant": "hash collisions and probing orders depend on the whole history", "anchors": ["source/interpreter/vars.c:get_var,search_name_type", "source/interpreter/strs.c:name_hash,namecmp"]}
{"id": "C12", "title": "A new variable is refused only when the table is full", "statement": "Looking up or creating a variable always terminates; creation fails exactly when every slot already holds another variable, so FREEVAR more variables can always be created.", "quantifier": "all table contents and names", "why_tests_cant": "every fill pattern and probe cycle", "anchors": ["source/interpreter/vars.c:search_name_type,get_var", "source/subsystem/sysvars.c:sys_freevar"]}
{"id": "C13", "title": "Labels resolve to their unique definition", "statement": "After loading any program, looking up a label finds the position of its (single) definition, a label defined twice is reported as duplicate, an undefined label is reported as not found, and other labels are unaffected by hash collisions.", "quantifier": "all sets of label definitions and lookups", "why_tests_cant": "hash collisions over arbitrary label sets", "anchors": ["source/interpreter/label.c:add_label,find_label,search_label"]}
{"id": "C14", "title": "Array elements are independent cells with checked subscripts", "statement": "For any sequence of DIM and element writes, an in-range element reads back the last value written to it (0 or empty if none), no write changes any other element of any array, and subscripts outside the declared size are rejected with Subscript out of range.", "quantifier": "all histories of DIM/reads/writes and all sizes", "why_tests_cant": "address arithmetic over arbitrary allocation histories", "anchors": ["source/interpreter/arrays.c", "source/interpreter/vars.c:get_arr_entry_via_ptr,get_new_arr_var"]}
{"id": "C15", "title": "DIM allocations never overlap or leave the array memory", "statement": "Every array returned by DIM lies inside the array memory and is disjoint from every other live array; DIM fails with Out of memory exactly when it does not fit; CLEAR makes the whole memory available again, zeroed.", "quantifier": "all sequences of DIM and CLEAR", "why_tests_cant": "allocation histories", "anchors": ["source/interpreter/arrays.c:get_init_new_arr,reset_arr"]}
{"id": "C16", "title": "String concatenation and repetition", "statement": "A$+B$ is the concatenation of the characters when it has at most 256 characters, else String too long; A$*N is N copies of A$ under the same limit; the result does not depend on the storage format of the operands and the operands are unchanged.", "quantifier": "all strings and counts", "why_tests_cant": "all lengths x all storage formats", "anchors": ["source/interpreter/operators.c:op_add,op_mult", "source/interpreter/strs.c:str_concat,str_copy"]}
{"id": "C17", "title": "LEFT$, RIGHT$, MID$, LEN return the specified slice", "statement": "LEFT$(s,n)/RIGHT$(s,n)/MID$(s,i,n) return exactly the first n / last n / n-from-i characters clipped to the string; LEN is the number of characters; out of range arguments raise the documented error and never read outside the string.", "quantifier": "all strings, all numeric arguments", "why_tests_cant": "all argument values incl. 16-bit truncation", "anchors": ["source/interpreter/strfuncs.c:func_left,func_right,func_mid,func_len"]}
{"id": "C18", "title": "SUBST$ replaces a slice and respects the 256 character limit", "statement": "SUBST$(s,i,n,t) equals s with the n characters from i replaced by t; it never produces or writes more than 256 characters.", "quantifier": "all strings and arguments", "why_tests_cant": "buffer-end combinations of four lengths", "anchors": ["source/interpreter/strfuncs.c:func_subst"]}
{"id": "C19", "title": "INSTR finds the first occurrence", "statement": "INSTR([start,]s,t) is the least index i>=start at which t occurs in s, and -1 exactly when there is none; it reads only inside the strings.", "quantifier": "all strings and start positions", "why_tests_cant": "all pairs of strings", "anchors": ["source/interpreter/strfuncs.c:func_instr"]}
{"id": "C20", "title": "HEX$ and VAL, CHR$ and ASC are inverses", "statement": "HEX$(n[,w]) prints the uppercase hexadecimal digits of the integer, VAL(\"&H\"+HEX$(n)) gives n back; ASC(CHR$(c))=c for every character code 0..255.", "quantifier": "all integers, widths and codes", "why_tests_cant": "round trip over full integer range", "anchors": ["source/interpreter/strfuncs.c:func_hex,func_chr,func_asc,func_val"]}
{"id": "C21", "title": "Character set conversion is lossless", "statement": "Converting a PTC 8-bit character to its 16-bit display form and back gives the same character for every code, so a string's content is independent of whether it is stored as bytes or as wide characters.", "quantifier": "all 256 codes and all strings", "why_tests_cant": "strings of any content pass through conversions at arbitrary points", "anchors": ["source/interpreter/strs.c:to_wide,to_char,str_wide_copy,str_char_copy"]}
{"id": "C22", "title": "Live strings are never overwritten by new temporaries", "statement": "At any point of any history of string allocations, assignments and temporary consumption, a freshly handed out string buffer is not referenced by any variable or pending stack value, so assigning one string never changes another variable's content; buffers no longer referenced become available again.", "quantifier": "all histories of string operations", "why_tests_cant": "reference counts depend on the entire history", "anchors": ["source/interpreter/strs.c:get_new_str", "source/interpreter/operators.c:op_assign,op_add", "source/interpreter/stack.h:value_str"]}
{"id": "C23", "title": "Keyboard buffer is a FIFO queue", "statement": "For every interleaving of key events and INKEY$ reads, INKEY$ returns the keys in the order typed, each exactly once, dropping keys only when the buffer is full, and reports empty exactly when every stored key has been read.", "quantifier": "all interleavings of producer and consumer operations", "why_tests_cant": "unbounded histories wrapping around the ring", "anchors": ["source/subsystem/input.c:set_inkey,get_inkey"]}
{"id": "C24", "title": "BUTTON / BTRIG report edges, levels and repeats correctly", "statement": "For any sequence of per-frame button states, BUTTON(0) is the current state, BUTTON(1) reports exactly the presses with configured repeats (first after the start delay, then every interval), BUTTON(2) only new presses and BUTTON(3) only releases.", "quantifier": "all per-frame input histories and repeat settings", "why_tests_cant": "time-dependent behaviour over unbounded frame histories", "anchors": ["source/subsystem/input.c:set_input,func_button,func_btrig,cmd_brepeat", "source/subsystem/input.h:check_repeat"]}
{"id": "C25", "title": "Console output: cursor always legal, text laid out row-major with scrolling", "statement": "Starting from any legal cursor position, any sequence of PRINT items, newlines, tabs and LOCATE keeps the cursor within 32x24 (or one past the last row pending a scroll), never writes outside the text screen, and the screen holds exactly the characters printed in row-major order with older rows scrolled up.", "quantifier": "all output sequences and cursor positions", "why_tests_cant": "scroll/wrap interactions over arbitrary output histories", "anchors": ["source/subsystem/console.c:con_advance,con_scroll,con_newline,con_put,con_puts,cmd_print,cmd_locate"]}
{"id": "C26", "title": "Background tiles: independent cells, exact read back", "statement": "BGPUT then BGREAD at the same position returns the same tile, palette and flips; no BGPUT affects another coordinate; the 64x64 coordinates map one-to-one to the screen memory of the layer.", "quantifier": "all coordinates, tiles and layer contents", "why_tests_cant": "4096 cells x 65536 tiles x contents", "anchors": ["source/subsystem/background.h:to_tiledata", "source/subsystem/background.c:bg_index,cmd_bgput,cmd_bgread"]}
{"id": "C27", "title": "BGFILL fills exactly the rectangle; BGCOPY copies a rectangle", "statement": "BGFILL x1,y1,x2,y2 changes exactly the cells of the clamped rectangle (in any corner order) to the tile; BGCOPY copies the source rectangle as it was before the command even when source and destination overlap, and changes nothing outside the destination.", "quantifier": "all rectangles and contents", "why_tests_cant": "all overlaps and corner orders", "anchors": ["source/subsystem/background.c:cmd_bgfill,cmd_bgcopy"]}
{"id": "C28", "title": "Graphics pixels: independent cells, clipped drawing", "statement": "GPSET then GSPOIT returns the colour (xor-combined in the xor mode); a point outside 256x192 changes nothing and GSPOIT there returns -1; the pixel layout is one-to-one so no pixel write affects another pixel.", "quantifier": "all coordinates, colours, modes, page contents", "why_tests_cant": "49152 cells; injectivity of the tiled layout", "anchors": ["source/subsystem/graphics.h:grp_index", "source/subsystem/graphics.c:grp_pixel,cmd_gpset,func_gspoit"]}
{"id": "C29", "title": "GFILL / GBOX / GLINE draw exactly their shapes, clipped to the page", "statement": "GFILL colours exactly the pixels of the rectangle on the page, GBOX exactly its outline, GLINE a connected set of pixels between and including both end points with one pixel per major-axis step; nothing outside the page is touched.", "quantifier": "all end points, colours and contents", "why_tests_cant": "all coordinate pairs", "anchors": ["source/subsystem/graphics.c:cmd_gfill,cmd_gbox,draw_line,cmd_gline"]}
{"id": "C30", "title": "Resource compression is lossless", "statement": "For every byte sequence, whatever cache width the compressor selects, decompressing the output yields the original bytes; the compressor reports failure rather than produce output at least as large as the input.", "quantifier": "all byte sequences and cache widths", "why_tests_cant": "all inputs", "anchors": ["source/extension/compress.c"]}
{"id": "C31", "title": "In-place loading of compressed resources", "statement": "Loading a compressed resource file, which is placed at the end of its own destination buffer and decompressed in place, yields the original resource.", "quantifier": "all resource contents", "why_tests_cant": "depends on the compression-ratio profile along the data", "anchors": ["source/subsystem/resources.c:check_load_file", "source/extension/compress.c:sbc_decompress"]}
{"id": "C32", "title": "Bytecode scanning visits exactly the instruction boundaries", "statement": "For every program the compiler can emit, scanning instruction by instruction from the start lands exactly on each emitted instruction and on the end, so label/DATA search never mistakes string or number payload bytes for an opcode.", "quantifier": "all compiled programs", "why_tests_cant": "payload bytes are arbitrary", "anchors": ["source/interpreter/program.c:bc_scan_pair,bc_scan", "source/interpreter/tokens.c:tok_code"]}
{"id": "C33", "title": "Expressions evaluate with standard precedence and associativity", "statement": "For every expression built from literals, variables, unary and binary operators, and parentheses, compiling its source tokens and running the result leaves exactly the value of the expression under the documented operator priorities with left associativity, and compilation needs no more than the documented stack.", "quantifier": "all expressions of any depth", "why_tests_cant": "infinitely many nestings", "anchors": ["source/interpreter/tokens.c:tok_eval,tok_prio,tok_code", "source/interpreter/runner.c:_run"]}
{"id": "C34", "title": "FOR/NEXT runs the body the right number of times", "statement": "FOR I=a TO b STEP s runs its body for I=a, a+s, ... while I<=b (s>=0) or I>=b (s<0), zero times if the condition fails initially, nested loops pair with their own NEXT, and an increment beyond the numeric range raises Overflow rather than wrapping.", "quantifier": "all bounds, steps and nestings", "why_tests_cant": "number of iterations unbounded", "anchors": ["source/interpreter/flow.c:cmd_for,cmd_to,cmd_step,cmd_next", "source/interpreter/runner.c:_run BEGIN_LOOP"]}
{"id": "C35", "title": "GOSUB/RETURN nest as a stack", "statement": "RETURN continues directly after the most recent un-returned GOSUB, discarding FOR loops opened since; RETURN without GOSUB is reported as an error and never reads outside the call stack; nesting deeper than the limit is reported.", "quantifier": "all call histories", "why_tests_cant": "unbounded histories, empty/for-only stacks", "anchors": ["source/interpreter/flow.c:cmd_return,goto_gosub"]}
{"id": "C36", "title": "IF/THEN/ELSE selects exactly one branch", "statement": "For any nesting of single-line IF ... THEN ... ELSE, a false condition (value 0) skips to the matching ELSE or the end of line and a true one runs the THEN part and skips the ELSE part.", "quantifier": "all nestings", "why_tests_cant": "unbounded nesting", "anchors": ["source/interpreter/flow.c:cmd_if,cmd_else,cmd_endif"]}
{"id": "C37", "title": "READ delivers DATA items in order", "statement": "Successive READs deliver the DATA items of the program in textual order with their exact values, RESTORE label continues at the first DATA after the label, and reading past the last item raises Out of data.", "quantifier": "all programs and READ/RESTORE histories", "why_tests_cant": "arbitrary programs", "anchors": ["source/interpreter/data.c", "source/interpreter/tokens.c:tok_data"]}
{"id": "C38", "title": "SORT/RSORT sort", "statement": "SORT start,count,arr[,arr...] permutes the range (all companion arrays by the same permutation), leaves everything outside the range unchanged, and leaves the key array in ascending (RSORT: descending) order.", "quantifier": "all array contents and ranges", "why_tests_cant": "all permutations", "anchors": ["source/subsystem/variables.c"]}
{"id": "C39", "title": "PEEK/POKE/MEMCOPY/MEMFILL touch only the addressed SBC memory", "statement": "POKE then PEEK returns the stored byte/half/word; addresses outside the exposed memory raise an error and change nothing; MEMCOPY copies as if through a temporary or reports overlap; MEMFILL fills exactly the range.", "quantifier": "all addresses, values, sizes", "why_tests_cant": "2^32 addresses", "anchors": ["source/extension/sbc_memory.c"]}
{"id": "C40", "title": "COLSET/COLREAD and CHRSET/CHRREAD round trip", "statement": "COLSET of RRGGBB followed by COLREAD gives components that agree with the stored 5/6/5-bit colour (rescaled to 0..255), and changes only that palette entry; CHRREAD after CHRSET returns the same 64 hex digits and only that character changes; invalid digits are rejected without modifying the character.", "quantifier": "all colours, palettes, character data", "why_tests_cant": "2^24 colours, 16^64 characters", "anchors": ["source/subsystem/resources.c:cmd_colset,cmd_colread,cmd_chrset,cmd_chrread"]}
{"id": "C41", "title": "Resource names are validated before use", "statement": "A resource string is accepted exactly when it is [TYPE[bank[page]]:]NAME with a known type, bank within range, a permitted page and a name of 1-8 name characters; every accepted type string designates a distinct existing buffer inside the resource tables.", "quantifier": "all strings", "why_tests_cant": "all strings up to 14 characters", "anchors": ["source/subsystem/resources.c:verify_resource_type,verify_resource_name,get_resource_ptr,get_chr_index"]}
{"id": "C42", "title": "Sprite motion arrives exactly at its target in the requested time", "statement": "After SPOFS id,x,y,t the sprite moves every frame and after t frames is exactly at x,y and stays there; other sprites are unaffected.", "quantifier": "all start/target positions, durations and other sprite states", "why_tests_cant": "every frame history", "anchors": ["source/subsystem/sprites.c:cmd_spofs,step_sprites"]}
{"id": "C43", "title": "Sprite and page commands reject out of range identifiers", "statement": "A sprite control number, page or variable index outside its range raises an error and changes nothing; no sprite command accesses a slot outside the sprite tables.", "quantifier": "all numeric arguments", "why_tests_cant": "2^32 arguments per parameter", "anchors": ["source/subsystem/sprites.c"]}
{"id": "C44", "title": "Frame counter sysvars reconstruct the counter", "statement": "MAINCNTL and MAINCNTH are whole numbers from -2^19 to 2^19-1 which determine the frame counter: their remainders modulo 2^20 are its low and high 20 bits. The difference of two readings of MAINCNTL is the number of frames passed as long as the low half does not cross a multiple of 2^19.", "quantifier": "all counter values", "why_tests_cant": "2^64 counter values", "anchors": ["source/subsystem/sysvars.c:sys_maincntl,sys_maincnth", "source/timers.c"]}
{"id": "C45", "title": "DTREAD/TMREAD accept exactly well-formed calendar strings", "statement": "DTREAD \"YYYY/MM/DD\" and TMREAD \"HH:MM:SS\" assign the numbers written in the string; every other string is rejected with Syntax error; DATE$ and TIME$ (years up to 9999) always produce strings these accept, with the same fields.", "quantifier": "all strings and all clock values", "why_tests_cant": "all 256-char strings, all dates", "anchors": ["source/interpreter/strfuncs.c:func_dtread,func_tmread", "source/subsystem/sysvars.c:sys_date,sys_time"]}
{"id": "C46", "title": "Command argument checking accepts exactly the documented forms", "statement": "A command or function call is accepted exactly when its argument types match one of the alternatives of its format string.", "quantifier": "all argument lists and format strings", "why_tests_cant": "all argument combinations for 100+ commands", "anchors": ["source/interpreter/tokens.c:check_cmd"]}
{"id": "C47", "title": "ON n GOTO/GOSUB selects the n-th label", "statement": "ON n GOTO L0,L1,.. jumps to label number n (0-based) when 0<=n<count and otherwise continues with the next statement.", "quantifier": "all n and label lists", "why_tests_cant": "all values incl. fractional and negative", "anchors": ["source/interpreter/flow.c:goto_gosub"]}
{"id": "C48", "title": "Stack discipline: compiled expressions never underflow or overflow the value stack unnoticed", "statement": "Running compiled code never pops more than was pushed and a program that needs more than the available entries is rejected or reported rather than corrupting memory.", "quantifier": "all compiled programs", "why_tests_cant": "unbounded expression depth", "anchors": ["source/interpreter/runner.c:_run", "source/interpreter/stack.h", "source/interpreter/tokens.c:tok_test"]}
{"id": "C49", "title": "INPUT/LINPUT line editing", "statement": "For every sequence of key presses while INPUT or LINPUT waits, the row shows the prompt followed by the edited text, insertion and deletion change only that row from the cursor on, the cursor stays on the row, and the text delivered is the text shown.", "quantifier": "all key sequences and prompts", "why_tests_cant": "unbounded key histories", "anchors": ["source/subsystem/console.c:shared_input,cmd_linput,cmd_input"]}
{"id": "C50", "title": "INPUT assigns the typed fields to the variables", "statement": "INPUT V1,V2,.. splits the typed line at commas and assigns each field (numbers converted, strings verbatim) to its variable in order, asking again if there are too few fields; no line the user can type damages memory.", "quantifier": "all typed lines of up to 32 characters and all variable lists", "why_tests_cant": "all lines", "anchors": ["source/subsystem/console.c:cmd_input"]}
{"id": "C51", "title": "BGOFS scrolls a layer to its target in the given number of frames", "statement": "BGOFS layer,x,y sets the display offset at once; BGOFS layer,x,y,t moves it in equal steps and after t frames the offset is exactly x,y and BGCHK reports 0; the other layers are unaffected.", "quantifier": "all offsets, times and previous positions", "why_tests_cant": "all distances and divisors", "anchors": ["source/subsystem/background.c:cmd_bgofs,step_background,func_bgchk"]}
{"id": "C52", "title": "WAIT and VSYNC wait for the given number of frames", "statement": "WAIT n and VSYNC n end only when at least INT(n) frames have passed since they started, end at the first check at which that is so, end at once for n<1, and are cut short only by an error such as Break.", "quantifier": "all numbers n, all sequences of clock readings, all moments of a Break", "why_tests_cant": "unbounded schedules of the display thread", "anchors": ["source/system.c:cmd_wait,cmd_vsync", "source/timers.c"]}
{"id": "C53", "title": "SWAP exchanges two variables", "statement": "SWAP A,B (two variables or array elements of the same type) leaves each with the other's former value and changes nothing else, also when both are the same cell.", "quantifier": "all memory contents and pairs of cells", "why_tests_cant": "all pairs of cells", "anchors": ["source/subsystem/variables.c:cmd_swap"]}
{"id": "C54", "title": "SAVE and LOAD of resources", "statement": "SAVE \"TYPE:NAME\" writes one file with the bytes of the named resource and changes nothing else; a later LOAD of that file into any resource of the same kind makes it byte-identical to what was saved (for MEM also MEM$) and changes no other resource; a missing or unreadable file changes nothing and RESULT tells; RESULT is 1 only if the resource was loaded completely.", "quantifier": "all resource contents, names, pages, files and everything that happens between SAVE and LOAD", "why_tests_cant": "all file and buffer contents", "anchors": ["source/subsystem/resources.c:cmd_save,cmd_load,check_save_res,check_load_file,syschk_mem"]}
{"id": "C55", "title": "Loading, appending and clearing programs", "statement": "LOAD of a program file makes the program text exactly the stored text, restores every resource packed with it and no other, sets PRGNAME$ and PACKAGE$, and reports in RESULT; APPEND adds the stored text at the end up to the capacity; NEW leaves the empty program; a file that is damaged or not a program leaves the program as it was.", "quantifier": "all program texts, package words, packed contents and files", "why_tests_cant": "all file contents", "anchors": ["source/subsystem/resources.c:load_program,cmd_append,verify_file_type,cmd_new,sys_package"]}
{"id": "C56", "title": "CHRINIT and COLINIT restore the original characters and colours", "statement": "CHRINIT \"BANK\" replaces exactly that bank by the original characters and has it redrawn, or raises an error and changes nothing if they cannot be read; COLINIT restores all palettes, with a layer that layer's palette, with a colour that one colour.", "quantifier": "all bank names, pages, contents", "why_tests_cant": "all states", "anchors": ["source/subsystem/resources.c:cmd_chrinit,cmd_colinit,init_col"]}
{"id": "C57", "title": "GCOPY copies a rectangle exactly, also onto itself", "statement": "GCOPY [page,]x1,y1,x2,y2,x3,y3,mode gives every pixel of the rectangle of the same size at (x3,y3) the colour its source pixel had before the command (0 for source pixels outside the page), also when the two rectangles overlap on one page; in mode 0 source pixels of colour 0 are not copied; parts outside the page are clipped and no other pixel changes.", "quantifier": "all rectangles, targets, pages, modes and contents", "why_tests_cant": "all overlaps of two rectangles", "anchors": ["source/subsystem/graphics.c:cmd_gcopy"]}
{"id": "C58", "title": "GPAINT fills exactly the connected area", "statement": "GPAINT x,y,c[,b] colours with c exactly the pixels 4-connected to (x,y) through pixels of the starting colour (with b: of any colour but b), always ends, and changes nothing else; a starting point outside the page or on the border changes nothing.", "quantifier": "all pages, starting points, colours and borders", "why_tests_cant": "all shapes of areas; termination", "anchors": ["source/subsystem/graphics.c:cmd_gpaint,inside"]}
{"id": "C59", "title": "GPUTCHR draws a character enlarged", "statement": "GPUTCHR x,y,res,chr,pal,size draws each non-zero pixel of the character as a block of size x size pixels of colour 16*pal+pixel, leaves the page unchanged under zero pixels, clips at the page, copies palette pal of the character's layer to the graphics palette, and on an error changes nothing.", "quantifier": "all characters, positions, sizes, palettes", "why_tests_cant": "all characters and positions", "anchors": ["source/subsystem/graphics.c:cmd_gputchr"]}
{"id": "C60", "title": "The graphics settings", "statement": "GPAGE, GCOLOR, GDRAWMD and GPRIO set exactly their setting (GPAGE and GPRIO of the selected screen) if their arguments are in range and otherwise raise an error and change nothing; GCLS gives every pixel of the page drawn on the colour and changes no other page; no sequence of graphics commands leads to a setting out of range or to a pixel that is not a colour 0..255.", "quantifier": "all sequences of graphics commands and arguments", "why_tests_cant": "unbounded histories", "anchors": ["source/subsystem/graphics.c:cmd_gpage,cmd_gcolor,cmd_gdrawmd,cmd_gprio,cmd_gcls"]}
{"id": "C61", "title": "SPSCALE and SPANGLE reach their target in the requested time", "statement": "SPSCALE id,s (SPANGLE id,a) sets the scale (angle) at once; with a time t it changes evenly, is exactly the one asked for after t frames and stays so; with the direction the sprite turns that way round.", "quantifier": "all sprites, scales, angles, times, directions and numbers of frames", "why_tests_cant": "all times and frames", "anchors": ["source/subsystem/sprites.c:cmd_spscale,cmd_spangle,step_sprites"]}
{"id": "C62", "title": "SPANIM shows its characters in turn", "statement": "SPANIM id,n,t,loops shows each of n characters for t frames, from the sprite's own on, that many times over (forever without loops or with 0); then the last one stays. SPCHK tells whether the animation runs. Other sprites are unaffected.", "quantifier": "all sprites, numbers of characters, times, loops and frames", "why_tests_cant": "unbounded number of frames", "anchors": ["source/subsystem/sprites.c:cmd_spanim,step_sprites,get_sprite_chr,func_spchk"]}
{"id": "C63", "title": "SPHIT and SPHITSP detect exactly the sprites that meet", "statement": "SPHITSP(a,b) is 1 exactly when both sprites exist, share a group, and their boxes (SPCOL's, scaled if asked for) have a point in common at some moment while both move along their way (SPCOLVEC's, or their motion); SPHIT(a[,start]) finds the lowest-numbered such sprite from start on, and SPHITNO is its number; otherwise they are 0 and change nothing.", "quantifier": "all positions, boxes, scales, ways, groups", "why_tests_cant": "all geometric configurations; the meeting time is any rational number", "anchors": ["source/subsystem/sprites.c:is_hit,func_sphit,func_sphitsp,sys_sphitno"]}
{"id": "C64", "title": "Sprite variables, SPSET, SPCLR and SPREAD", "statement": "SPGETV gives what SPSETV last stored in that variable of that sprite, also frames later; SPSET makes the sprite stand at 0,0 at 100 % with the character and all variables 0; SPREAD tells position, angle, scale and character; SPCLR removes exactly the sprite named or all of the screen.", "quantifier": "all sprites, variables, values and numbers of frames", "why_tests_cant": "all histories", "anchors": ["source/subsystem/sprites.c:cmd_spsetv,func_spgetv,cmd_spset,cmd_spread,cmd_spclr"]}
{"id": "C65", "title": "A line is accepted exactly when it is well typed", "statement": "A line is accepted by the check at compile time exactly when every operator, function, array element, assignment and command in it gets operands of the types it takes; otherwise it is refused with an error, and the check itself never misbehaves.", "quantifier": "all lines: all nestings of expressions, IF/ELSE, statements", "why_tests_cant": "unbounded family of programs", "anchors": ["source/interpreter/tokens.c:tok_test,check_cmd"]}
{"id": "C66", "title": "Commands that store a result accept only variables there", "statement": "READ, INPUT, LINPUT, BGREAD, CHRREAD, COLREAD, DTREAD, TMREAD, SPREAD, SWAP and NEXT are refused when an argument they would store into is not a variable.", "quantifier": "all argument lists", "why_tests_cant": "all argument combinations", "anchors": ["source/interpreter/tokens.c:cmd_format,check_cmd", "source/subsystem/sprites.c:cmd_spread"]}
{"id": "C67", "title": "Source text is split into the words and symbols it is made of", "statement": "Each line of program text becomes one line of tokens: reserved words in capitals or small letters, names, numbers, strings, labels and symbols, each as long as possible, whatever spaces stand between them; the rest of the line after REM, ' or DATA is taken as it is; a line with an illegal character is an error of that line alone. No text can be read in two ways.", "quantifier": "all program texts: all words, spacings and capitalisations, any number of lines", "why_tests_cant": "unbounded family of texts", "anchors": ["source/interpreter/tokens.c:tokenize_full,tok_none,tok_name,tok_label,tok_string,tok_base_number,tok_number,tok_in_str_index"]}
{"id": "C68", "title": "A program runs as its text says", "statement": "Running a line of a program, given as text among any other lines, does what the statements it spells mean: assignments, commands, PRINT, IF/ELSE and jumps in order, for every state of the machine.", "quantifier": "all program texts, lines and machine states", "why_tests_cant": "unbounded family of texts and states", "anchors": ["source/interpreter/tokens.c:tokenize_full", "source/interpreter/runner.c:_run"]}
{"id": "C69", "title": "An accepted line never confuses numbers and strings", "statement": "When a line that passed the check at compile time runs, in any state, every operator, function, command and assignment in it is given operands of the types it takes; the line ends normally or with a BASIC error, never by taking a number for a string or a variable for its value.", "quantifier": "all accepted lines, all machine states, all behaviours of the operations", "why_tests_cant": "unbounded family of programs and states", "anchors": ["source/interpreter/tokens.c:tok_test,check_cmd", "source/interpreter/runner.c:_run", "source/interpreter/flow.c:cmd_goto_gosub"]}
{"id": "C70", "title": "A whole program does what its statements say, for as long as it runs", "statement": "A program of any number of lines, given as text, that compiles without an error does exactly what its statements say in order: labels, GOTO, GOSUB, RETURN, ON, IF/ELSE, FOR and NEXT lead to the statement they name, whatever the program, its input state and the number of steps. It ends where its last statement or END is reached, stops with the error its statement makes, and never stops otherwise.", "quantifier": "all programs, all initial states, executions of any length (endless ones included)", "why_tests_cant": "unbounded programs and executions", "anchors": ["source/interpreter/tokens.c:tokenize_full,tok_convert", "source/interpreter/label.c", "source/interpreter/runner.c:_run", "source/interpreter/flow.c"]}
{"id": "C71", "title": "Programs compute and print what the language says, on the whole machine", "statement": "A program text that compiles leaves, in its variables, arrays and on the screen, exactly what a plain reading of its statements gives: variables hold what was last stored in them and nothing else does, an array element keeps its own value, arithmetic is in steps of 1/4096, texts are compared, cut and joined as texts, PRINT, LOCATE, COLOR and CLS change the page as documented, and an error of a statement stops the program with that error. This holds from an empty machine, for any program and any number of steps.", "quantifier": "all program texts, executions of any length, all sizes of the variable table (powers of two up to 2^18) and of the array memory", "why_tests_cant": "unbounded programs, names, values and executions", "anchors": ["source/interpreter/tokens.c:tokenize_full,tok_convert", "source/interpreter/runner.c:_run", "source/interpreter/vars.c", "source/interpreter/arrays.c", "source/interpreter/operators.c", "source/interpreter/strfuncs.c", "source/subsystem/console.c"]}
{"id": "C72", "title": "The touch keyboard types the key that is touched", "statement": "A touch of the lower screen presses the key drawn there; it types at once and, held, again after 31 frames and then every 5; the characters arrive at INKEY$ in order (up to 256 waiting), SHIFT holds for one character, CAPS until pressed again, the three keyboards give their own characters, function keys type their text, escape stops the program; KEYBOARD and FUNCNO tell the key that fires. Every character can be typed.", "quantifier": "all histories of touches, reads, PNLTYPE and KEY commands", "why_tests_cant": "unbounded histories", "anchors": ["source/subsystem/panel.c:press_key,get_pressed_key,set_function_key,cmd_pnltype,cmd_key", "source/subsystem/sysvars.c:sys_keyboard,sys_funcno", "source/subsystem/input.c:set_inkey,get_inkey"]}
{"id": "C73", "title": "Icons answer when touched, and pages stay in range", "statement": "ICONCHK() tells the shown icon that is touched and -1 otherwise. ICONPAGE and ICONPMAX are whole and not negative, ICONPAGE does not exceed ICONPMAX, and the page buttons move ICONPAGE by one within that range.", "quantifier": "all histories of touches, ICONSET, ICONCLR and assignments to ICONPUSE, ICONPMAX, ICONPAGE", "why_tests_cant": "unbounded histories", "anchors": ["source/subsystem/panel.c:press_key,cmd_iconset,cmd_iconclr,func_iconchk,syschk_iconpuse,syschk_iconpmax,syschk_iconpage"]}
{"id": "C74", "title": "PNLSTR writes into one row, KEY sets one key", "statement": "PNLSTR writes the characters that fit into the row from the given column, in the given colour, and changes nothing else on the panel; KEY changes the text and the label of one function key; PNLTYPE accepts exactly its five names.", "quantifier": "all strings, positions, colours, keys, panel states", "why_tests_cant": "all arguments and states", "anchors": ["source/subsystem/panel.c:cmd_pnlstr,cmd_key,set_function_key,cmd_pnltype", "source/subsystem/console.c:con_put"]}
{"id": "C75", "title": "VISIBLE shows and hides exactly the chosen layers", "statement": "VISIBLE takes six switches (text, panel, BG 0, BG 1, sprites, graphics), each 0, 1 or omitted; it sets exactly the ones given and keeps the others, and refuses anything else without any change. What is switched off cannot be seen, whatever it contains, and the rest of the picture stays as it is.", "quantifier": "all argument lists, all contents of the screen, all pixels", "why_tests_cant": "all contents of text, backgrounds, sprites and graphics", "anchors": ["source/system.c:cmd_visible", "source/graphics/pc/display_pc.c:display_console,display_background,display_sprite,display_graphics"]}
{"id": "C76", "title": "The screen shows what the program put on it", "statement": "Every pixel of the upper screen has the colour of the topmost layer with something there: cursor, sprites and graphics of priority 0, text, priority 1, background 0, priority 2, background 1, priority 3. A background is shown scrolled by its offset and repeats every 512 pixels; tiles, characters and sprites appear mirrored, enlarged and in the palette asked for; of two sprites of one priority the one with the larger number is in front; each pixel of a sprite belongs to one of its characters only.", "quantifier": "all pixels, all contents of console, backgrounds, graphics, sprites and character resources", "why_tests_cant": "unbounded set of pictures", "anchors": ["source/graphics/pc/display_pc.c", "source/graphics/pc/tilemap.c", "source/graphics/pc/sprite.c", "source/graphics/pc/graphic.c", "resources/bgsp.frag"]}
{"id": "C77", "title": "Colours are shown as COLSET sets them", "statement": "After COLSET the colour is shown with the red, green and blue asked for, rounded down to what 16 bits hold (steps of 8, green of 4), and all other colours stay as they were.", "quantifier": "all palettes, colours and RRGGBB values, in capitals or small letters", "why_tests_cant": "2^24 colours in 6 palettes of 256", "anchors": ["source/subsystem/resources.c:cmd_colset", "source/graphics/pc/display_pc.c:gen_col_texture", "resources/bgsp.frag"]}
{"id": "C78", "title": "ACLS clears both screens and leaves the program alone", "statement": "ACLS makes all layers visible, blanks the text of the upper screen in colour 0 with the cursor at the top left, clears the graphics pages 0 and 1 and shows each on its screen, clears both background layers of both screens and puts their offset back to (0,0), removes all sprites, puts the first palettes back, clears the panel text and the icons. Nothing else changes: variables, waiting loops and subroutines, the place of READ, the characters and the graphics pages 2 and 3 are as before. With blank first characters the upper screen is then black everywhere.", "quantifier": "all contents of the screens, all variables, all depths of loops and calls", "why_tests_cant": "all reachable states of all subsystems at once", "anchors": ["source/system.c:acls_code,cmd_acls", "source/interpreter/runner.c:_run", "source/subsystem/console.c:cmd_cls", "source/subsystem/background.c:cmd_bgclr", "source/subsystem/graphics.c:cmd_gcls,cmd_gpage,cmd_gprio", "source/subsystem/sprites.c:cmd_spclr", "source/subsystem/resources.c:cmd_colinit"]}
{"id": "C79", "title": "READ delivers the program's data wherever it stands", "statement": "In a running program READ takes the next items of the program's DATA lines, in the order of the lines, into the variables and array elements named, whatever loops, subroutines, jumps and other READs lie between; RESTORE goes on with the first item behind the label; when no item is left Out of data is reported, and Read failure for an item that is not a number where one is wanted. The results show in variables, texts and on the screen as they would on an ideal computer.", "quantifier": "all programs, all their runs of any length, all contents of DATA lines", "why_tests_cant": "unbounded runs and programs", "anchors": ["source/interpreter/data.c:cmd_read,cmd_restore,read_one_u8,find_data", "source/interpreter/tokens.c:tok_data", "source/interpreter/runner.c:_run", "source/program.c:tokenize_full"]}
{"id": "C80", "title": "Programs ask and get the answers typed", "statement": "In a running program INPUT and LINPUT show a question mark, let the player type and edit a line at the place of the screen after it, and leave the line standing there. LINPUT puts the whole line into its string variable; INPUT cuts it at the commas, gives each variable or array element named its field, and asks again with Redo from start when the number of fields is not the number of variables or a field that should be a number is none. What the program does then, and what the screen shows, is what an ideal computer would do with these answers; the keys left over are there for the next question. Breaking off stops the program.", "quantifier": "all programs, all their runs of any length, all sequences of keys pressed (any editing), all answers", "why_tests_cant": "unbounded runs, programs and key sequences", "anchors": ["source/subsystem/console.c:cmd_input,cmd_linput,shared_input,con_prompt,con_reprompt", "source/interpreter/runner.c:_run", "source/program.c:tokenize_full"]}
{"id": "C81", "title": "Direct mode carries out each line typed, once, and reports", "statement": "From the moment it is switched on the computer asks for a line, keeps it in CODE$, carries it out exactly once, and then prints OK or the message of the error on a line of its own and asks again. Variables, arrays, texts and the screen are for each line as the lines before have left them; the questions of INPUT and LINPUT in a line are answered by what is typed next. A line that is not understood is reported and changes nothing else. A question broken off carries out nothing.", "quantifier": "all sessions: all sequences of lines of any length and content, all editing, all answers", "why_tests_cant": "unbounded histories of lines on one state", "anchors": ["source/system.c:launch_system,token_and_run,launcher", "source/subsystem/console.c:cmd_linput,shared_input,con_puts,con_newline", "source/error.c:error_messages", "source/program.c:tokenize_full", "source/interpreter/runner.c:_run"]}
{"id": "C82", "title": "Programs draw what their statements say", "statement": "In a running program GPAGE, GCOLOR, GDRAWMD and GPRIO choose the screen, the pages drawn on and shown, colour, mode and priority; GCLS, GPSET, GFILL, GBOX and GLINE then change exactly the dots of the page drawn on that belong to the figure, to the colour given or chosen, or to the exclusive or with it; GCOPY puts the dots of a rectangle of any page, as they were before it, on the page drawn on (those of colour 0 only on request); GSPOIT tells the colour of a dot, -1 beside the page. A value out of range stops the program with Out of range. At every moment of the run all four pages look as on an ideal computer that follows the program, whatever loops, subroutines, questions and READs lie between.", "quantifier": "all programs, all their runs of any length, all contents of the pages at the start, all answers", "why_tests_cant": "unbounded runs, programs and sequences of drawing commands on 4 x 49152 dots", "anchors": ["source/subsystem/graphics.c:cmd_gpage,cmd_gcolor,cmd_gdrawmd,cmd_gprio,cmd_gcls,cmd_gpset,cmd_gfill,cmd_gbox,cmd_gline,cmd_gcopy,func_gspoit", "source/interpreter/runner.c:_run", "source/program.c:tokenize_full"]}
{"id": "C83", "title": "Programs lay out the background as their statements say", "statement": "In a running program BGPAGE chooses one of two pages of two layers of 64 x 64 tiles; BGPUT changes exactly one cell of the layer given (counting round at 64), BGFILL exactly the rectangle between two corners, BGCLR a layer or the whole page, and BGCOPY copies a rectangle of a layer as it was before, whatever the overlap; BGREAD stores the tile of a cell in a number, a text or four numbers, whichever variables are given, and a tile given as a number, as hexadecimal digits or in parts reads back the same. A layer, page or part out of range stops the program with Out of range. At every moment of the run all cells of all layers are as on an ideal computer that follows the program.", "quantifier": "all programs, all their runs of any length, all contents of the layers at the start, all answers", "why_tests_cant": "unbounded runs, programs and sequences of commands on 4 x 4096 cells", "anchors": ["source/subsystem/background.c:cmd_bgpage,cmd_bgclr,cmd_bgput,cmd_bgfill,cmd_bgcopy,cmd_bgread,bg_index", "source/interpreter/runner.c:_run", "source/program.c:tokenize_full"]}
{"id": "C84", "title": "Programs mix the colours their statements name", "statement": "In a running program COLSET changes exactly one entry of one palette - of the background, the sprites or the graphics, on the screen BGPAGE or GPAGE has chosen - to the colour of six hexadecimal digits, as precisely as 5, 6 and 5 bits allow, and COLREAD stores red, green and blue of an entry, from 0 to 255, in three number variables. A number of an entry that is out of range, another name, or a text that is not six digits or capital letters A to F stops the program with the error and changes nothing. At every moment of the run all entries of all palettes are as on an ideal computer that follows the program.", "quantifier": "all programs, all their runs of any length, all colours at the start, all answers", "why_tests_cant": "unbounded runs, programs and sequences of commands on 6 x 256 colours of 65536", "anchors": ["source/subsystem/resources.c:cmd_colset,cmd_colread,get_col_resource,get_resource_ptr", "source/interpreter/runner.c:_run", "source/program.c:tokenize_full"]}
