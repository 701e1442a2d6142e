(** Numbers of functions, system variables and commands: their places in the tables of tokens.c. *)
From Verif Require Import Base.

(** tokens.c:43-52 *)
Definition FUNC_ABS := 0. Definition FUNC_ASC := 1. Definition FUNC_CHKCHR := 8. Definition FUNC_CHR := 9. Definition FUNC_FLOOR := 13. Definition FUNC_INSTR := 18.
Definition FUNC_LEFT := 19. Definition FUNC_LEN := 20. Definition FUNC_MID := 22. Definition FUNC_RIGHT := 26. Definition FUNC_SGN := 28.
Definition FUNC_DEG := 11. Definition FUNC_HEX := 15. Definition FUNC_PI := 23. Definition FUNC_RAD := 25. Definition FUNC_VAL := 39.
Definition FUNC_STR := 36. Definition FUNC_SUBST := 37.
(** tokens.c:63-74 *)
Definition SYS_TRUE := 0. Definition SYS_FALSE := 1. Definition SYS_CANCEL := 2. Definition SYS_FREEVAR := 8. Definition SYS_CSRX := 17. Definition SYS_CSRY := 18.
(** tokens.c:20-41 (PRINT is in Tokens.v) *)
Definition CMD_LOCATE := 1. Definition CMD_COLOR := 2. Definition CMD_CLS := 18. Definition CMD_SWAP := 101. Definition CMD_READ := 78. Definition CMD_RESTORE := 82.
