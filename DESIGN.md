# Design of the Rocq model of Minxrod/sbc

(First version written before the proofs; kept current as the model grows.)

## Method

* Every model file `theories/<Area>.v` is a set of small total Gallina functions mirroring the C
  functions one by one (each definition cites `source/...:lines`).  32/16/8-bit wrap-around is written
  explicitly.  C undefined behaviour, failed asserts and out-of-bounds accesses are the distinct outcome
  `UB` (or `Crash` for commands that return a state); BASIC errors are `Err code` / `Raised code`; loops
  are structural recursion, or fuel with a distinct result that theorems exclude.
* `theories/<Area>Spec.v` holds the independent specification where one is needed (maps, queues,
  rectangles, decimal strings, syntax trees and their meaning, types), `<Area>Proofs.v` the lemmas, and
  `<Area>Props.v` (or the file named in the table) the property theorems, the non-vacuity `Example`s and
  `Print Assumptions`.
* A property that the faithful model violates gets `_refuted` theorems (a witness, or a whole family of
  inputs for which it fails) and a theorem that proves the largest part found to be true (`_partial`).  MANIFEST.json says for each
  what is missing.  A status `partial` therefore usually means: the code breaks the property on the inputs named by
  the `_refuted` theorems, and has it on the rest.
* Theorems are tested against edited models (mutants); `seeded/LOG.jsonl` records each attempt.

## Per-property plan

| id | model | proof | theorems in |
|----|-------|-------|-------------|
| C01-C07 | Num: operators.c, mathptc.c arithmetic on Z with explicit int32/int64 | against Z and Q (NumSpec) | NumProps |
| C04, C16-C21 | Strs, StrFuncs: strs.c, strfuncs.c over the storage formats of a string | lists of character codes (StrSpec) | StrProps, NumProps |
| C08-C10 | NumText: str_to_number, tok_number, fixp_to_char, constants in bytecode | numerals as digit lists (NumTextSpec), wrap side conditions | NumTextProps |
| C11, C12, C14, C15 | Hash, Vars: vars.c hash table with triangular probing, arrays.c bump allocator | probing visits every slot; refinement to a finite map over histories (VarsHist, VarsSim) | VarsProps |
| C13 | Labels: label.c, sizing in program.c | same probing theory | LabelsProps |
| C22 | Pool: strs.c pool with use counts, op_assign, value_str | invariant over histories | PoolProps |
| C23, C24 | Input: input.c ring buffer, button counters | refinement to a queue; induction over frames | InputProps |
| C25 | Console: console.c text screen | refinement to a page of rows (ConsoleSpec) | ConsoleProps |
| C26, C27, C51 | Background: background.c | bijection of index, rectangles, frame induction | BackgroundProps |
| C28, C29, C57-C60 | Graphics: graphics.c | bijection of index, rectangles, line invariant, reachability (paint) | GraphicsProps, GraphicsLine, GraphicsCopy, GraphicsPaint, GraphicsChr, GraphicsState |
| C30, C31 | Compress: compress.c, loader in resources.c | bit streams; simulation of both caches | CompressProps |
| C32 | Bytecode: tok_code, tok_data, tokenize_full (from tokens), bc_scan | instruction lists (BytecodeSpec) | BytecodeProps |
| C33, C36, C48 | Tokens (tok_prio, tok_eval), Bytecode, Runner (_run) | syntax trees with meaning (ExprSpec, StmtSpec, FlowSpec); shunting yard by induction; simulation of the machine for every host | FlowProps |
| C34 | Runner, flow.c FOR/NEXT | loop meaning (ForSpec), search for NEXT (ForSkip) | ForProps |
| C35, C47 | Runner: GOSUB/RETURN/ON | induction over calls | FlowProps |
| C37 | Data: data.c | item lists (DataSpec) | DataProps |
| C38, C53 | Sort: variables.c | permutations (SortSpec) | SortProps |
| C39 | Memory: sbc_memory.c | byte memory (MemorySpec) | MemoryProps |
| C40, C41, C56 | Resources, ChrCol, Files | name tables, bit arithmetic | ResourcesProps, ChrColProps, InitProps |
| C42, C43, C61-C64 | Sprites: sprites.c | frame induction, rational geometry (SpritesSpec) | SpritesMove, SpritesArgs, SpritesAnim, SpritesHit |
| C44, C45, C52 | SysVars: sysvars.c, DTREAD/TMREAD, WAIT/VSYNC | arithmetic, calendar (SysVarsSpec) | SysVarsProps |
| C46, C65, C66 | TokTest: tables, check_cmd, tok_test | format language and a type system (TokTestSpec); simulation of the checker | TokTestProps |
| C69 | Runner, TokTest | type soundness by induction over typed trees, for every host that keeps to the types (TypeSpec) | TypeProps |
| C49, C50 | LineInput: INPUT, LINPUT | edited text and field lists (LineInputSpec) | LineInputProps, LineInputFields |
| C70 | Link (compiler with label table), Runner, Labels, Lexer | forward simulation between runs over statements (ProgSpec) and runs of the code, any length | ProgProps |
| C71 | Machine (Vars, Num, Strs, StrFuncs, NumText, Console as one host of the interpreter loop) | simulation of hosts: an ideal computer (Ideal.v: maps from names to values, a page) and the machine stay related by every operator, function, command, assignment; lifted to whole programs by HostSim, then composed with C70 | MachineProps |
| C67, C68 | Lexer: tables, tok_none and its sub-states, tokenize_full's loop | spelling as an inductive relation (LexSpec); step lemmas, then composition with C36 | LexProps |
| C72-C74 | Panel: panel.c (tables, press_key, icons, pages, PNLSTR, KEY, PNLTYPE), KEYBOARD, FUNCNO | layout and legends as tables of their own, histories of touches (PanelSpec); refinement | PanelProps |
| C75-C77 | Display: vertex arrays, textures and shader of the PC build, the order of the layers, VISIBLE | the picture as a function of the pixel, layer by layer (DisplaySpec); the drawing of thousands of quads is shown equal to it | DisplayProps |
| C78 | Acls: ACLS as the program it is (acls_code compiled by the modelled compiler, run by the modelled interpreter loop over a host that joins console, graphics, background, sprites, palettes and panel) | what a cleared screen is, subsystem by subsystem (AclsProps); the run of the inner program is computed symbolically for any state, and joined with C76 to a black picture (AclsBlack) | AclsProps, AclsBlack |
| C79 | the machine of C71 with the reader of Data.v attached (HostData: a host with something more to remember; MachineData) | the reader of the code stands where the list of remaining items of the ideal computer says (IdealData; relation `standing` of C37), through every READ and RESTORE; lifted to whole programs by HostSim and composed with C70 from the program text | DataProgProps |
| C80 | the machine of C79 with INPUT and LINPUT attached (Ask: the keys that will be pressed are part of the state) | a page on which the question and the typed line appear (IdealAsk), a player who types lines or breaks off; the console model after the line editor of C49 shows that page (AskProofs), the fields of C50 are the line cut at its commas; lifted to whole programs like C79 | AskProps |
| C81 | the launcher's round (Direct, system.c:368-477): prompt, line, compile, run, report, on the machine of C80 | sessions of an ideal computer that keeps variables and page from line to line and says OK (IdealDirect); induction over the rounds, each by the simulation of C80 from an arbitrary related state; breaking off repeats the line before (refuted), a CODE$ of more than 32 characters overflows (refuted); every line of the language that is not well typed (C65) is refused as a whole by the checker and its message said | DirectProps, DirectTypes |
| C82 | the graphics pages attached to the machine of C80 (Draw: GPAGE GCOLOR GDRAWMD GPRIO GCLS GPSET GFILL GBOX GLINE by number of arguments, GCOPY; GSPOIT as a further function) | four boards of dots, a figure is a set of dots (IdealDraw); every command keeps boards and pages alike (DrawProofs, from C28, C29, C57, C60; level, upright and diagonal lines exactly), lifted to whole programs like C80 (DrawHost) | DrawProps |
| C83 | the background layers attached to the machine of C82 (Tiles: BGPAGE BGCLR BGPUT BGFILL BGCOPY by number and kind of arguments, BGREAD stores in the variables of the machine) | two pages of two layers of tiles (IdealTiles), the same cells as BGREAD of Background.v reports; every command keeps them alike (TilesProofs, from C26, C27), lifted to whole programs like C82 (TilesHost) | TilesProps |
| C84 | the palettes attached to the machine of C83 (Colours: COLSET, COLREAD, names on the pages BGPAGE and GPAGE have chosen) | six palettes of red, green and blue from 0 to 255 (IdealColours), the same entries as COLREAD of ChrCol.v reports; COLSET keeps them alike (ColoursProofs, from C40), lifted to whole programs like C83 | ColoursProps |
| C54, C55 | Files: SAVE, LOAD, APPEND, NEW, packages | files as byte lists (FilesSpec) | FilesProps |

## Trusted base

* Coq's kernel (8.16.1, including its virtual machine for `vm_compute`; `coqchk` re-checks everything without it).
* The reading of the C code into Gallina, checked only by review and by the comments that cite the lines.
* `Print Assumptions` says "Closed under the global context" for every property theorem: no axioms, neither of
  the standard library nor others.  (The seven `ssr.ssrunder` parameters that `coqchk` may list belong to a library file
  that is loaded, not to any theorem.)

## What is modelled, and simplifications

* Strings: the formats STRING_CHAR, BC_STRING and STRING_WIDE (MEM$).  Characters are codes.
* Pointers are indices; distinct C objects never alias unless the model says so.  Reading memory outside an object is `UB`
  and ends the model's claim about that run.
* The interpreter loop is a function of a record `host` of everything it calls (operators, functions, commands, variables);
  the theorems about control flow hold for every host.  The other files model the hosts' parts one by one; Machine.v joins
  the variable table, arrays, numbers, strings and console into one host (C71; C79 with DATA, READ and RESTORE, C80 with INPUT and LINPUT, C82 with GPAGE GCOLOR GDRAWMD GPRIO GCLS GPSET GFILL GBOX GLINE GCOPY GSPOIT, C83 with BGPAGE BGCLR BGPUT BGFILL BGCOPY BGREAD, C84 with COLSET COLREAD; functions ABS ASC CHKCHR CHR$ DEG FLOOR HEX$ INSTR LEFT$ LEN MID$ PI RAD RIGHT$ SGN STR$ SUBST$ VAL, system variables TRUE FALSE CANCEL FREEVAR CSRX CSRY, commands PRINT LOCATE COLOR CLS SWAP DIM and everything of C70).  There the string pool is a list that only
  grows; functions, system variables and commands that are not listed in Codes.v are `UB`.
* Tokens carry their text instead of an offset into the source; reading behind the end of the source is `UB`.
* Concurrency: the mutex of input.c makes its operations atomic; histories are interleavings of these operations.
* Time: frames and polls of the buttons are events; nothing is said about how long they take.
* The graphics card (Display.v): a pixel belongs to a rectangle when its centre is inside, texture places are interpolated linearly,
  textures are read at the nearest texel and clamped, alpha 0 leaves what is below and 255 hides it.
* Files are byte lists found by path; reading and writing either happen as a whole or not at all.
* char is signed (PC build) where it matters; noted at the definition.

## Not modelled

* floating point: GCIRCLE, SIN, COS, TAN, ATAN, LOG, EXP, SQR, POW (their argument checks are in TokTest)
* sound (BEEP, BGM...), TALK, the pictures of the panel and its text cursor, turned sprites, the NDS back end, the software renderer; the textures are
  taken as always up to date (the flags regen_chr and regen_col are not modelled)
* the file dialogs, SENDFILE/RECVFILE, the settings file, main.c; of the launcher the editor, RUN, autoload and shutting down
* GPUTCHR of something that is not a character resource is a crash in the model
