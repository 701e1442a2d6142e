(** Which resource names exist. *)
From Coq Require Import String Ascii.
From Verif Require Import Base.
Open Scope Z_scope.
Definition text (s : string) : list Z := map (fun c => Z.of_nat (nat_of_ascii c)) (list_ascii_of_string s).

(** type, number of banks, pages it may be asked for on (None: not paged) *)
Definition kinds : list (list Z * Z * option (list Z)) :=
  [(text "BGU", 4, Some [85; 76]); (text "BGD", 2, Some [85; 76]); (text "BGF", 1, Some [85; 76]);
   (text "SPU", 8, Some [85]); (text "SPS", 2, Some [85; 76]); (text "SPD", 4, Some [76]);
   (text "COL", 3, Some [85; 76]); (text "SCU", 2, Some [85; 76]); (text "GRP", 4, None)].
(** [TYPE], [TYPEn], [TYPEnp]: the bank n is a digit below the number of banks *)
Inductive type_name : list Z -> Prop :=
| type_only base n pgs : In (base, n, pgs) kinds -> type_name base
| type_bank base n pgs b : In (base, n, pgs) kinds -> 0 <= b < n -> type_name (base ++ [48 + b])
| type_page base n pgs b pg : In (base, n, Some pgs) kinds -> 0 <= b < n -> In pg pgs -> type_name (base ++ [48 + b; pg]).
(** the two types without banks *)
Definition unbanked : list (list Z) := [text "PRG"; text "MEM"].
(** what the interpreter accepts besides: anything after PRG or MEM, any page letter on GRP *)
Inductive lax_type_name : list Z -> Prop :=
| lax_any base rest : In base unbanked -> (length rest <= 2)%nat -> ~ In 58 rest -> lax_type_name (base ++ rest)
| lax_grp b pg : 0 <= b < 4 -> pg <> 58 -> lax_type_name (text "GRP" ++ [48 + b; pg]).

(** letters, digits and underscore *)
Definition name_char (c : Z) : Prop := 65 <= c <= 90 \/ 97 <= c <= 122 \/ 48 <= c <= 57 \/ c = 95.
Definition file_name (n : list Z) : Prop := (1 <= length n <= 8)%nat /\ Forall name_char n.

(** [TYPE:]NAME *)
Definition resource_name (types : list Z -> Prop) (s : list Z) : Prop :=
  file_name s \/ exists t n, s = t ++ [58] ++ n /\ types t /\ file_name n.
