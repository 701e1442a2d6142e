(** What a user sees of the touch panel. *)
From Verif Require Import Base Strs Input InputSpec Panel.

(** ** The layout: the code of the key at pixel (x, y) of the lower screen.  From the top: the function keys and the exit button, the four rows of
    the keyboard, the row with the space bar, the buttons below it. *)
Definition key_under (x y : Z) : option Z :=
  if y <? 16 then Some (if x <? 240 then 101 + x / 48 else 106)
  else if y <? 48 then None
  else if y <? 72 then Some (if x <? 24 then 1 else if x <? 232 then 2 + (x - 24) / 16 else 15)
  else if y <? 96 then Some (16 + x / 16)
  else if y <? 120 then if x <? 24 then Some 32 else if x <? 248 then Some (33 + (x - 24) / 16) else None
  else if y <? 144 then Some (if x <? 32 then 47 else if x <? 224 then 48 + (x - 32) / 16 else 60)
  else if y <? 160 then
    if x <? 16 then Some 61 else if x <? 24 then None else if x <? 72 then Some (62 + (x - 24) / 16) else if x <? 80 then None
    else if x <? 192 then Some 65 else if x <? 200 then None else if x <? 216 then Some 66 else if x <? 232 then Some 67 else if x <? 240 then None else Some 68
  else if y <? 168 then None
  else if x <? 32 then Some 70 else if x <? 40 then None else if x <? 88 then Some 71 else if x <? 136 then Some 72 else if x <? 144 then None
  else if x <? 160 then Some 80 else Some (90 + (x - 160) / 24).

(** ** The finger.  A frame is the position touched, or None.  Histories have the newest frame first. *)
Definition touch : Type := option (Z * Z).
Definition on_screen (t : touch) : Prop := match t with Some (x, y) => 0 <= x < 256 /\ 0 <= y < 192 | None => True end.
Definition key_of (t : touch) : option Z := match t with Some (x, y) => key_under x y | None => None end.
(** the finger is held on key [k] for the [n]-th frame: since it was put down it was on no key, and in the last [n] frames on [k] *)
Definition held_on (l : list touch) (k n : Z) : Prop :=
  exists now blank rest, l = now ++ blank ++ rest /\ Z.of_nat (length now) = n /\ 0 < n /\ Forall (fun t => key_of t = Some k) now /\
    Forall (fun t => t <> None /\ key_of t = None) blank /\ (rest = [] \/ exists r, rest = None :: r).
(** a key fires when it is touched, and while it is held in frame 31 and every 5 frames from then on *)
Definition fires_key (l : list touch) (k : Z) : Prop := exists n, held_on l k n /\ fires n 30 4.
(** the finger slips from a held key to where there is no key *)
Definition slips (l : list touch) : Prop := exists t r k n, l = t :: r /\ t <> None /\ key_of t = None /\ held_on r k n.
Fixpoint all_tails {A} (P : list A -> Prop) (l : list A) : Prop := P l /\ match l with [] => True | _ :: r => all_tails P r end.

(** the same as a function: which key is held, for how long *)
Inductive finger := Up | Searching | On (k n : Z) | Off.
Fixpoint finger_of (l : list touch) : finger :=
  match l with
  | [] | None :: _ => Up
  | t :: r =>
      match finger_of r, key_of t with
      | (Up | Searching), None => Searching
      | (Up | Searching), Some k => On k 1
      | On k n, Some k' => if k' =? k then On k (n + 1) else Off
      | _, _ => Off
      end
  end.

(** ** The legends: the characters of the keys 2-14, 16-31, 33-46, 48-59 (the four rows), for the three keyboards without and with SHIFT *)
Definition legends : list (list (list (list Z))) :=
  [(* letters: digits / QWERTYUIOP / ASDFGHJKL / ZXCVBNM, and punctuation *) [
    [[49]; [50]; [51]; [52]; [53]; [54]; [55]; [56]; [57]; [48]; [45]; [43]; [61]];
    [[36]; [34]; [81]; [87]; [69]; [82]; [84]; [89]; [85]; [73]; [79]; [80]; [64]; [42]; [40]; [41]];
    [[33]; [65]; [83]; [68]; [70]; [71]; [72]; [74]; [75]; [76]; [59]; [58]; [60]; [62]];
    [[39]; [90]; [88]; [67]; [86]; [66]; [78]; [77]; [44]; [46]; [47]; [37]]];
   (* letters with SHIFT: small letters, more punctuation *) [
    [[]; []; [35]; []; []; [38]; []; [94]; [92]; [126]; []; [127]; [124]];
    [[]; []; [113]; [119]; [101]; [114]; [116]; [121]; [117]; [105]; [111]; [112]; [96]; []; [91]; [93]];
    [[]; [97]; [115]; [100]; [102]; [103]; [104]; [106]; [107]; [108]; []; []; [123]; [125]];
    [[]; [122]; [120]; [99]; [118]; [98]; [110]; [109]; []; []; [63]; [95]]];
   (* symbols *) [
    [[241]; [242]; [240]; [243]; [10]; [229]; [26]; [228]; [230]; [231]; [16]; [7]; [20]];
    [[3]; [150]; [152]; [145]; [153]; [236]; [238]; [239]; [237]; [14]; [15]; [5]; [6]; [4]; [11]; [27]];
    [[149]; [146]; [147]; [148]; [21]; [23]; [22]; [244]; [246]; [247]; [245]; [235]; [234]; [232]];
    [[255]; [154]; [144]; [155]; [252]; [253]; [254]; [151]; [156]; [157]; [158]; [159]]];
   (* symbols with SHIFT *) [
    [[]; [128]; []; []; []; [225]; []; [224]; [226]; [227]; [17]; [8]; []];
    [[]; []; [248]; [30]; [250]; [1]; [2]; [24]; [25]; [12]; [18]; [19]; []; []; [233]; []];
    [[]; [29]; []; [28]; []; [129]; [130]; [131]; [132]; [133]; [134]; [135]; []; []];
    [[]; [249]; [31]; [251]; [136]; [137]; [138]; [139]; [140]; [141]; [142]; [143]]];
   (* kana *) [
    [[177]; [178]; [179]; [180]; [181]; [197]; [198]; [199]; [200]; [201]; [45]; [43]; [61]];
    [[160]; [165]; [182]; [183]; [184]; [185]; [186]; [202]; [203]; [204]; [205]; [206]; [162]; [163]; [221]; [161]];
    [[187]; [188]; [189]; [190]; [191]; [207]; [208]; [209]; [210]; [211]; [212]; [213]; [214]; [164]];
    [[192]; [193]; [194]; [195]; [196]; [215]; [216]; [217]; [218]; [219]; [220]; [166]]];
   (* kana with SHIFT: small kana, digits, and kana with the voiced marks 222, 223 *) [
    [[167]; [168]; [169]; [170]; [171]; []; []; []; []; []; [202; 223]; [203; 223]; [204; 223]];
    [[175]; [179; 222]; [182; 222]; [183; 222]; [184; 222]; [185; 222]; [186; 222]; [202; 222]; [203; 222]; [204; 222]; [205; 222]; [206; 222]; [205; 223]; [206; 223]; []; []];
    [[187; 222]; [188; 222]; [189; 222]; [190; 222]; [191; 222]; [49]; [50]; [51]; [52]; [53]; [172]; [173]; [174]; []];
    [[192; 222]; [193; 222]; [194; 222]; [195; 222]; [196; 222]; [54]; [55]; [56]; [57]; [48]; []; []]]].
Definition legend (m k : Z) : list Z :=
  let row j := nth j (nth (Z.to_nat m) legends []) [] in
  if k =? 32 then [9] else if k =? 60 then [13] else if k =? 65 then [32]
  else if (2 <=? k) && (k <=? 14) then nth (Z.to_nat (k - 2)) (row 0%nat) []
  else if (16 <=? k) && (k <=? 31) then nth (Z.to_nat (k - 16)) (row 1%nat) []
  else if (33 <=? k) && (k <=? 46) then nth (Z.to_nat (k - 33)) (row 2%nat) []
  else if (48 <=? k) && (k <=? 59) then nth (Z.to_nat (k - 48)) (row 3%nat) []
  else [].

(** ** Typing.  [kind]: 0 panel off, 1 PNL, 2 letters, 3 symbols, 4 kana; [keys]: the texts of the function keys 1..5 (as wide characters) *)
Record typist := { kind : Z; shifted : bool; caps : bool; keys : Z -> list Z }.
(** the keyboard after the key, and the characters typed *)
Definition type_key (s : typist) (k : Z) : typist * list Z :=
  if kind s <? 2 then (s, [])
  else if k =? 47 then ({| kind := kind s; shifted := negb (shifted s); caps := caps s; keys := keys s |}, [])
  else if k =? 61 then ({| kind := kind s; shifted := shifted s; caps := negb (caps s); keys := keys s |}, [])
  else if (62 <=? k) && (k <=? 64) then ({| kind := k - 60; shifted := shifted s; caps := caps s; keys := keys s |}, [])
  else if (101 <=? k) && (k <=? 105) then (s, keys s (k - 100))
  else match legend (2 * (kind s - 2) + if xorb (shifted s) (caps s) then 1 else 0) k with
       | [] => (s, [])
       | l => ({| kind := kind s; shifted := false; caps := caps s; keys := keys s |}, map to_wide l)
       end.

(** ** A session: the finger, the program reading INKEY$, KEYBOARD and FUNCNO, PNLTYPE and KEY, in order of time *)
Inductive event := Finger (t : touch) | Inkey | Keyboard | Funcno | Pnltype (t : Z) | Keytext (n : Z) (b : list Z).
Definition type_names : list (list Z) := [[79;70;70]; [80;78;76]; [75;89;65]; [75;89;77]; [75;89;75]].   (* OFF PNL KYA KYM KYK *)
Definition fired_now (h : list touch) : option Z :=
  match finger_of h with On k n => if (n =? 1) || ((30 <? n) && ((n - 31) mod 5 =? 0)) then Some k else None | _ => None end.
(** what the program sees: answers to its questions (numbers times 4096, characters of INKEY$, 0: nothing typed), the program is stopped *)
Inductive answer := Got (z : Z) | Break.
(** [h]: the frames so far, newest first; [q]: the characters typed and not yet read, at most 256 *)
Fixpoint expected (h : list touch) (s : typist) (q : list Z) (l : list event) : list answer :=
  match l with
  | [] => []
  | Finger t :: r =>
      match fired_now (t :: h) with
      | Some k =>
          let (s', out) := type_key s k in
          (if (k =? 1) && (2 <=? kind s) then [Break] else []) ++ expected (t :: h) s' (firstn 256 (q ++ out)) r
      | None => expected (t :: h) s q r
      end
  | Inkey :: r => Got (hd 0 q) :: expected h s (tl q) r
  | Keyboard :: r => Got (match fired_now h with Some k => if k <=? 69 then 4096 * k else 0 | None => 0 end) :: expected h s q r
  | Funcno :: r => Got (match fired_now h with Some k => if (101 <=? k) && (k <=? 105) then 4096 * (k - 100) else 0 | None => 0 end) :: expected h s q r
  | Pnltype t :: r => expected h {| kind := t; shifted := shifted s; caps := caps s; keys := keys s |} q r
  | Keytext n b :: r => expected h {| kind := kind s; shifted := shifted s; caps := caps s; keys := fun j => if j =? n then map to_wide b else keys s j |} q r
  end.
Definition fingers (l : list event) : list touch := rev (flat_map (fun e => match e with Finger t => [t] | _ => [] end) l).
Definition sensible (e : event) : Prop :=
  match e with Finger t => on_screen t | Inkey | Keyboard | Funcno => True | Pnltype t => 0 <= t <= 4 | Keytext n b => 1 <= n <= 5 /\ (length b <= 256)%nat end.
(** the keyboard at the start *)
Definition fresh : typist :=
  {| kind := 2; shifted := false; caps := false;
     keys := fun j => map to_wide (nth (Z.to_nat j) [[]; [70;73;76;69;83]; [76;79;65;68;34]; [83;65;86;69;34]; [67;79;78;84]; [82;85;78]] []) |}.

(** * The same events on the modelled code *)
Fixpoint panel_run (p : panel) (i : inkey) (l : list event) : outcome (list answer) :=
  match l with
  | [] => Ok []
  | Finger t :: r => let* (q, b) := press_key p i t in let* a := panel_run (fst q) (snd q) r in Ok ((if b : bool then [Break] else []) ++ a)
  | Inkey :: r => let* (k, i) := get_inkey i in let* a := panel_run p i r in Ok (Got k :: a)
  | Keyboard :: r => let* a := panel_run p i r in Ok (Got (sys_keyboard p) :: a)
  | Funcno :: r => let* a := panel_run p i r in Ok (Got (sys_funcno p) :: a)
  | Pnltype t :: r => let* p := cmd_pnltype p (SChar (nth (Z.to_nat t) type_names [])) in panel_run p i r
  | Keytext n b :: r => let* p := cmd_key p n (SChar b) in panel_run p i r
  end.

(** ** Icons: the finger, ICONSET i, picture, ICONCLR i, ICONCLR, and the function ICONCHK() *)
Inductive icon_event := ITouch (t : touch) | Iconset (i v : Z) | Iconclr (i : option Z) | Iconchk.
(** [on]: which of the icons 0..3 are shown.  ICONCHK answers the number of a shown icon whose place fires, -1 otherwise (times 4096) *)
Fixpoint icon_answers (h : list touch) (on : Z -> bool) (l : list icon_event) : list Z :=
  match l with
  | [] => []
  | ITouch t :: r => icon_answers (t :: h) on r
  | Iconset i _ :: r => icon_answers h (fun j => if j =? i then true else on j) r
  | Iconclr (Some i) :: r => icon_answers h (fun j => if j =? i then false else on j) r
  | Iconclr None :: r => icon_answers h (fun _ => false) r
  | Iconchk :: r =>
      (match fired_now h with Some k => if (90 <=? k) && (k <=? 93) && on (k - 90) then 4096 * (k - 90) else -4096 | None => -4096 end) :: icon_answers h on r
  end.
Definition icon_touches (l : list icon_event) : list touch := rev (flat_map (fun e => match e with ITouch t => [t] | _ => [] end) l).
Definition icon_sensible (e : icon_event) : Prop :=
  match e with ITouch t => on_screen t | Iconset i v => 0 <= i <= 3 /\ 0 <= v <= 64 | Iconclr (Some i) => 0 <= i <= 3 | _ => True end.
Fixpoint icon_run (p : panel) (i : inkey) (l : list icon_event) : outcome (list Z) :=
  match l with
  | [] => Ok []
  | ITouch t :: r => let* (q, _) := press_key p i t in icon_run (fst q) (snd q) r
  | Iconset n v :: r => let* p := cmd_iconset p n v in icon_run p i r
  | Iconclr n :: r => let* p := cmd_iconclr p n in icon_run p i r
  | Iconchk :: r => let* z := func_iconchk p in let* a := icon_run p i r in Ok (z :: a)
  end.

(** ** Icon pages: the program assigns ICONPUSE, ICONPMAX, ICONPAGE (one line each), the finger touches the page buttons *)
Inductive page_event := PTouch (t : touch) | SetUse (v : Z) | SetMax (v : Z) | SetPage (v : Z).
Definition page_step (p : panel) (i : inkey) (e : page_event) : outcome (panel * inkey) :=
  match e with
  | PTouch t => let* (q, _) := press_key p i t in Ok q
  | SetUse v => Ok (syschk_iconpuse (set_uses p v (iconpmax p)), i)
  | SetMax v => Ok (syschk_iconpmax (set_uses p (iconpuse p) v), i)
  | SetPage v => Ok (syschk_iconpage (set_page p v), i)
  end.
Fixpoint page_run (p : panel) (i : inkey) (l : list page_event) : outcome (panel * inkey) :=
  match l with [] => Ok (p, i) | e :: r => let* (p, i) := page_step p i e in page_run p i r end.
(** the same by the rules of the manual.  [f]: the finger; a touch of the lower half of the page button is the key 81 when ICONPUSE is on *)
Record pages := { fing : finger; puse : Z; pmax : Z; page : Z }.
Definition next_finger (f : finger) (use : bool) (t : touch) : option finger :=
  match t with
  | None => Some Up
  | Some (x, y) =>
      match f with
      | Up | Searching => Some (match key_under x y with Some k => On (if use && (k =? 80) && (180 <=? y) then 81 else k) 1 | None => Searching end)
      | On k n => match key_under x y with Some k' => Some (if k' =? k then On k (n + 1) else Off) | None => None end
      | Off => Some Off
      end
  end.
Definition fires_f (f : finger) : option Z := match f with On k n => if (n =? 1) || ((30 <? n) && ((n - 31) mod 5 =? 0)) then Some k else None | _ => None end.
Definition page_ref (g : pages) (e : page_event) : option pages :=
  match e with
  | PTouch t =>
      match next_finger (fing g) (negb (puse g =? 0)) t with
      | None => None
      | Some f => Some {| fing := f; puse := puse g; pmax := pmax g;
          page := match fires_f f with
                  | Some 80 => if 0 <? page g then page g - 4096 else page g
                  | Some 81 => if page g <? pmax g then page g + 4096 else page g
                  | _ => page g
                  end |}
      end
  | SetUse v => Some {| fing := fing g; puse := if v =? 0 then 0 else 4096; pmax := pmax g; page := page g |}
  | SetMax v => Some {| fing := fing g; puse := puse g; pmax := Z.max 0 (4096 * (v / 4096)); page := page g |}
  | SetPage v => Some {| fing := fing g; puse := puse g; pmax := pmax g; page := Z.max 0 (Z.min (pmax g) (4096 * (v / 4096))) |}
  end.
Fixpoint pages_ref (g : pages) (l : list page_event) : option pages :=
  match l with [] => Some g | e :: r => match page_ref g e with Some g => pages_ref g r | None => None end end.
Definition no_pages : pages := {| fing := Up; puse := 0; pmax := 0; page := 0 |}.
Definition page_sensible (e : page_event) : Prop := match e with PTouch t => on_screen t | SetUse v | SetMax v | SetPage v => - 2 ^ 31 <= v < 2 ^ 31 end.
