(** The touch panel (source/subsystem/panel.c, panel.h): the keyboard on the lower screen, function keys, icons, panel text. *)
From Verif Require Import Base Strs Console Input.

(** panel.c:12-118 keyboard_pos: x, y, width, height of each picture and its key code (the character numbers are left out) *)
Definition keyboard_pos : list (Z * Z * Z * Z * Z) :=
  [(0,48,32,32,1); (24,48,16,32,2); (40,48,16,32,3); (56,48,16,32,4);
   (72,48,16,32,5); (88,48,16,32,6); (104,48,16,32,7); (120,48,16,32,8);
   (136,48,16,32,9); (152,48,16,32,10); (168,48,16,32,11); (184,48,16,32,12);
   (200,48,16,32,13); (216,48,16,32,14); (232,48,32,32,15); (0,72,16,32,16);
   (16,72,16,32,17); (32,72,16,32,18); (48,72,16,32,19); (64,72,16,32,20);
   (80,72,16,32,21); (96,72,16,32,22); (112,72,16,32,23); (128,72,16,32,24);
   (144,72,16,32,25); (160,72,16,32,26); (176,72,16,32,27); (192,72,16,32,28);
   (208,72,16,32,29); (224,72,16,32,30); (240,72,16,32,31); (0,96,32,32,32);
   (24,96,16,32,33); (40,96,16,32,34); (56,96,16,32,35); (72,96,16,32,36);
   (88,96,16,32,37); (104,96,16,32,38); (120,96,16,32,39); (136,96,16,32,40);
   (152,96,16,32,41); (168,96,16,32,42); (184,96,16,32,43); (200,96,16,32,44);
   (216,96,16,32,45); (232,96,16,32,46); (0,120,32,32,47); (32,120,16,32,48);
   (48,120,16,32,49); (64,120,16,32,50); (80,120,16,32,51); (96,120,16,32,52);
   (112,120,16,32,53); (128,120,16,32,54); (144,120,16,32,55); (160,120,16,32,56);
   (176,120,16,32,57); (192,120,16,32,58); (208,120,16,32,59); (224,120,32,32,60);
   (0,144,16,16,61); (24,144,16,16,62); (40,144,16,16,63); (56,144,16,16,64);
   (80,144,32,16,65); (112,144,16,16,65); (128,144,16,16,65); (144,144,16,16,65);
   (160,144,16,16,65); (176,144,16,16,65); (200,144,16,16,66); (216,144,16,16,67);
   (240,144,16,16,68); (0,(-1),16,16,101); (16,(-1),32,16,101); (48,(-1),16,16,102);
   (64,(-1),32,16,102); (96,(-1),16,16,103); (112,(-1),32,16,103); (144,(-1),16,16,104);
   (160,(-1),32,16,104); (192,(-1),16,16,105); (208,(-1),32,16,105); (240,0,16,16,106);
   (0,168,32,32,70); (40,168,32,32,71); (72,168,16,32,71); (88,168,16,32,72);
   (104,168,32,32,72); (144,168,16,16,80); (144,180,16,16,81); (160,168,32,32,90);
   (184,168,32,32,91); (208,168,32,32,92); (232,168,32,32,93)].
(** vars[0] of the panel's sprites after init_panel (panel.c:133-153) *)
Definition key_codes : list Z := Eval vm_compute in map (fun q => snd q) keyboard_pos.
(** panel.c:249-263 keyboard_chr, as bytes, each with the terminating 0 *)
Definition keyboard_chr : list (list Z) :=
  [[0; 0; 49; 50; 51; 52; 53; 54; 55; 56; 57; 48; 45; 43; 61; 0; 36; 34; 81; 87; 69; 82; 84; 89; 85; 73; 79; 80; 64; 42; 40; 41; 9; 33; 65; 83; 68; 70; 71; 72; 74; 75; 76; 59; 58; 60; 62; 0; 39; 90; 88; 67; 86; 66; 78; 77; 44; 46; 47; 37; 13; 0; 0; 0; 0; 32; 0; 0; 0; 0];
   [0; 0; 0; 0; 35; 0; 0; 38; 0; 94; 92; 126; 0; 127; 124; 0; 0; 0; 113; 119; 101; 114; 116; 121; 117; 105; 111; 112; 96; 0; 91; 93; 9; 0; 97; 115; 100; 102; 103; 104; 106; 107; 108; 0; 0; 123; 125; 0; 0; 122; 120; 99; 118; 98; 110; 109; 0; 0; 63; 95; 13; 0; 0; 0; 0; 32; 0; 0; 0; 0];
   [0; 0; 241; 242; 240; 243; 10; 229; 26; 228; 230; 231; 16; 7; 20; 0; 3; 150; 152; 145; 153; 236; 238; 239; 237; 14; 15; 5; 6; 4; 11; 27; 9; 149; 146; 147; 148; 21; 23; 22; 244; 246; 247; 245; 235; 234; 232; 0; 255; 154; 144; 155; 252; 253; 254; 151; 156; 157; 158; 159; 13; 0; 0; 0; 0; 32; 0; 0; 0; 0];
   [0; 0; 0; 128; 0; 0; 0; 225; 0; 224; 226; 227; 17; 8; 0; 0; 0; 0; 248; 30; 250; 1; 2; 24; 25; 12; 18; 19; 0; 0; 233; 0; 9; 0; 29; 0; 28; 0; 129; 130; 131; 132; 133; 134; 135; 0; 0; 0; 0; 249; 31; 251; 136; 137; 138; 139; 140; 141; 142; 143; 13; 0; 0; 0; 0; 32; 0; 0; 0; 0];
   [0; 0; 177; 178; 179; 180; 181; 197; 198; 199; 200; 201; 45; 43; 61; 0; 160; 165; 182; 183; 184; 185; 186; 202; 203; 204; 205; 206; 162; 163; 221; 161; 9; 187; 188; 189; 190; 191; 207; 208; 209; 210; 211; 212; 213; 214; 164; 0; 192; 193; 194; 195; 196; 215; 216; 217; 218; 219; 220; 166; 13; 0; 0; 0; 0; 32; 0; 0; 0; 0];
   [0; 32; 0; 32; 167; 0; 168; 0; 169; 0; 170; 0; 171; 0; 0; 32; 0; 32; 0; 32; 0; 32; 0; 32; 202; 223; 203; 223; 204; 223; 0; 32; 175; 0; 179; 222; 182; 222; 183; 222; 184; 222; 185; 222; 186; 222; 202; 222; 203; 222; 204; 222; 205; 222; 206; 222; 205; 223; 206; 223; 0; 32; 0; 32; 9; 0; 187; 222; 188; 222; 189; 222; 190; 222; 191; 222; 49; 0; 50; 0; 51; 0; 52; 0; 53; 0; 172; 0; 173; 0; 174; 0; 0; 32; 0; 32; 192; 222; 193; 222; 194; 222; 195; 222; 196; 222; 54; 0; 55; 0; 56; 0; 57; 0; 48; 0; 0; 32; 0; 32; 13; 0; 0; 32; 0; 32; 0; 32; 0; 32; 32; 0; 0; 32; 0; 32; 0; 32; 0]].
(** panel.c:301-326 key_map: 32 by 24 cells of 8 by 8 pixels; 255 is no key *)
Definition key_map : list Z :=
  [73; 73; 74; 74; 74; 74; 75; 75; 76; 76; 76; 76; 77; 77; 78; 78; 78; 78; 79; 79; 80; 80; 80; 80; 81; 81; 82; 82; 82; 82; 83; 83;
   73; 73; 74; 74; 74; 74; 75; 75; 76; 76; 76; 76; 77; 77; 78; 78; 78; 78; 79; 79; 80; 80; 80; 80; 81; 81; 82; 82; 82; 82; 83; 83;
   255; 255; 255; 255; 255; 255; 255; 255; 255; 255; 255; 255; 255; 255; 255; 255; 255; 255; 255; 255; 255; 255; 255; 255; 255; 255; 255; 255; 255; 255; 255; 255;
   255; 255; 255; 255; 255; 255; 255; 255; 255; 255; 255; 255; 255; 255; 255; 255; 255; 255; 255; 255; 255; 255; 255; 255; 255; 255; 255; 255; 255; 255; 255; 255;
   255; 255; 255; 255; 255; 255; 255; 255; 255; 255; 255; 255; 255; 255; 255; 255; 255; 255; 255; 255; 255; 255; 255; 255; 255; 255; 255; 255; 255; 255; 255; 255;
   255; 255; 255; 255; 255; 255; 255; 255; 255; 255; 255; 255; 255; 255; 255; 255; 255; 255; 255; 255; 255; 255; 255; 255; 255; 255; 255; 255; 255; 255; 255; 255;
   0; 0; 0; 1; 1; 2; 2; 3; 3; 4; 4; 5; 5; 6; 6; 7; 7; 8; 8; 9; 9; 10; 10; 11; 11; 12; 12; 13; 13; 14; 14; 14;
   0; 0; 0; 1; 1; 2; 2; 3; 3; 4; 4; 5; 5; 6; 6; 7; 7; 8; 8; 9; 9; 10; 10; 11; 11; 12; 12; 13; 13; 14; 14; 14;
   0; 0; 0; 1; 1; 2; 2; 3; 3; 4; 4; 5; 5; 6; 6; 7; 7; 8; 8; 9; 9; 10; 10; 11; 11; 12; 12; 13; 13; 14; 14; 14;
   15; 15; 16; 16; 17; 17; 18; 18; 19; 19; 20; 20; 21; 21; 22; 22; 23; 23; 24; 24; 25; 25; 26; 26; 27; 27; 28; 28; 29; 29; 30; 30;
   15; 15; 16; 16; 17; 17; 18; 18; 19; 19; 20; 20; 21; 21; 22; 22; 23; 23; 24; 24; 25; 25; 26; 26; 27; 27; 28; 28; 29; 29; 30; 30;
   15; 15; 16; 16; 17; 17; 18; 18; 19; 19; 20; 20; 21; 21; 22; 22; 23; 23; 24; 24; 25; 25; 26; 26; 27; 27; 28; 28; 29; 29; 30; 30;
   31; 31; 31; 32; 32; 33; 33; 34; 34; 35; 35; 36; 36; 37; 37; 38; 38; 39; 39; 40; 40; 41; 41; 42; 42; 43; 43; 44; 44; 45; 45; 255;
   31; 31; 31; 32; 32; 33; 33; 34; 34; 35; 35; 36; 36; 37; 37; 38; 38; 39; 39; 40; 40; 41; 41; 42; 42; 43; 43; 44; 44; 45; 45; 255;
   31; 31; 31; 32; 32; 33; 33; 34; 34; 35; 35; 36; 36; 37; 37; 38; 38; 39; 39; 40; 40; 41; 41; 42; 42; 43; 43; 44; 44; 45; 45; 255;
   46; 46; 46; 46; 47; 47; 48; 48; 49; 49; 50; 50; 51; 51; 52; 52; 53; 53; 54; 54; 55; 55; 56; 56; 57; 57; 58; 58; 59; 59; 59; 59;
   46; 46; 46; 46; 47; 47; 48; 48; 49; 49; 50; 50; 51; 51; 52; 52; 53; 53; 54; 54; 55; 55; 56; 56; 57; 57; 58; 58; 59; 59; 59; 59;
   46; 46; 46; 46; 47; 47; 48; 48; 49; 49; 50; 50; 51; 51; 52; 52; 53; 53; 54; 54; 55; 55; 56; 56; 57; 57; 58; 58; 59; 59; 59; 59;
   60; 60; 255; 61; 61; 62; 62; 63; 63; 255; 64; 64; 64; 64; 65; 65; 66; 66; 67; 67; 68; 68; 69; 69; 255; 70; 70; 71; 71; 255; 72; 72;
   60; 60; 255; 61; 61; 62; 62; 63; 63; 255; 64; 64; 64; 64; 65; 65; 66; 66; 67; 67; 68; 68; 69; 69; 255; 70; 70; 71; 71; 255; 72; 72;
   255; 255; 255; 255; 255; 255; 255; 255; 255; 255; 255; 255; 255; 255; 255; 255; 255; 255; 255; 255; 255; 255; 255; 255; 255; 255; 255; 255; 255; 255; 255; 255;
   84; 84; 84; 84; 255; 85; 85; 85; 85; 86; 86; 87; 87; 88; 88; 88; 88; 255; 89; 89; 91; 91; 91; 92; 92; 92; 93; 93; 93; 94; 94; 94;
   84; 84; 84; 84; 255; 85; 85; 85; 85; 86; 86; 87; 87; 88; 88; 88; 88; 255; 89; 89; 91; 91; 91; 92; 92; 92; 93; 93; 93; 94; 94; 94;
   84; 84; 84; 84; 255; 85; 85; 85; 85; 86; 86; 87; 87; 88; 88; 88; 88; 255; 89; 89; 91; 91; 91; 92; 92; 92; 93; 93; 93; 94; 94; 94].

Definition PNL_OFF : Z := 0. Definition PNL_PNL : Z := 1. Definition PNL_KYA : Z := 2. Definition PNL_KYM : Z := 3. Definition PNL_KYK : Z := 4.   (* panel.h:32-38 *)
(** panel.h:30-72.  [icons]: active flag and chr of the sprites 89..94 (the two page buttons and the four icons); the other sprites never change.
    [shift] holds PNL_SHIFT = 1 and PNL_CAPS_LOCK = 2. *)
Record panel := mkP { ptype : Z; fkeys : list (list Z); ptext : console; ktext : console; icons : list (bool * Z);
  key_pressed : Z; id_pressed : Z; pressed_time : Z; shift : Z; cursor : Z; iconpuse : Z; iconpmax : Z; iconpage : Z }.
Definition set_press (p : panel) (k i t : Z) : panel :=
  mkP (ptype p) (fkeys p) (ptext p) (ktext p) (icons p) k i t (shift p) (cursor p) (iconpuse p) (iconpmax p) (iconpage p).
Definition set_page (p : panel) (g : Z) : panel :=
  mkP (ptype p) (fkeys p) (ptext p) (ktext p) (icons p) (key_pressed p) (id_pressed p) (pressed_time p) (shift p) (cursor p) (iconpuse p) (iconpmax p) g.
Definition set_shift (p : panel) (s : Z) : panel :=
  mkP (ptype p) (fkeys p) (ptext p) (ktext p) (icons p) (key_pressed p) (id_pressed p) (pressed_time p) s (cursor p) (iconpuse p) (iconpmax p) (iconpage p).
Definition set_type (p : panel) (t : Z) : panel :=
  mkP t (fkeys p) (ptext p) (ktext p) (icons p) (key_pressed p) (id_pressed p) (pressed_time p) (shift p) (cursor p) (iconpuse p) (iconpmax p) (iconpage p).
Definition set_insert (p : panel) (c : Z) : panel :=
  mkP (ptype p) (fkeys p) (ptext p) (ktext p) (icons p) (key_pressed p) (id_pressed p) (pressed_time p) (shift p) c (iconpuse p) (iconpmax p) (iconpage p).
Definition set_icons (p : panel) (l : list (bool * Z)) : panel :=
  mkP (ptype p) (fkeys p) (ptext p) (ktext p) l (key_pressed p) (id_pressed p) (pressed_time p) (shift p) (cursor p) (iconpuse p) (iconpmax p) (iconpage p).
Definition set_uses (p : panel) (u m : Z) : panel :=
  mkP (ptype p) (fkeys p) (ptext p) (ktext p) (icons p) (key_pressed p) (id_pressed p) (pressed_time p) (shift p) (cursor p) u m (iconpage p).
Definition set_ptext (p : panel) (c : console) : panel :=
  mkP (ptype p) (fkeys p) c (ktext p) (icons p) (key_pressed p) (id_pressed p) (pressed_time p) (shift p) (cursor p) (iconpuse p) (iconpmax p) (iconpage p).
Definition set_keys (p : panel) (f : list (list Z)) (c : console) : panel :=
  mkP (ptype p) f (ptext p) c (icons p) (key_pressed p) (id_pressed p) (pressed_time p) (shift p) (cursor p) (iconpuse p) (iconpmax p) (iconpage p).

(** panel.c:435-440 get_pressed_key *)
Definition get_pressed_key (p : panel) : Z :=
  if (key_pressed p =? 0) || negb (check_repeat (pressed_time p) 30 4) then 0 else key_pressed p.
(** key_map[x/8 + 32*(y/8)]; the screen is 256 by 192, main.c:297 passes no other positions *)
Definition cell (x y : Z) : outcome Z :=
  if (0 <=? x) && (x <? 256) && (0 <=? y) && (y <? 192) then
    match nth_error key_map (Z.to_nat (x / 8 + 32 * (y / 8))) with Some c => Ok c | None => UB end
  else UB.
(** keys[(int)c].vars[0]; 255 is keys[-1] (keys[255] where char is unsigned), outside the array *)
Definition code (c : Z) : outcome Z := match nth_error key_codes (Z.to_nat c) with Some k => Ok k | None => UB end.
(** panel.c:328-358, the part of press_key that finds out which key is held *)
Definition track (p : panel) (touch : option (Z * Z)) : outcome panel :=
  match touch with
  | None => Ok (set_press p 0 255 0)
  | Some (x, y) =>
      if negb (key_pressed p =? 0) then
        let* c := cell x y in let* k := code c in
        if negb (k =? key_pressed p) then Ok (set_press p 0 255 (pressed_time p))
        else if s32b (pressed_time p + 1) then Ok (set_press p (key_pressed p) (id_pressed p) (pressed_time p + 1)) else UB
      else if pressed_time p >? 0 then Ok p
      else
        let* c := cell x y in
        let c := if (c =? 89) && negb (iconpuse p =? 0) && (y >=? 180) then 90 else c in
        if negb (c =? 255) then let* k := code c in Ok (set_press p k c 1)
        else Ok (set_press p (key_pressed p) (id_pressed p) 0)
  end.
(** panel.c:360-365: the page buttons *)
Definition turn_page (p : panel) (k : Z) : outcome panel :=
  if k =? 80 then Ok (set_page p (iconpage p - INT_TO_FP (b2z (iconpage p >? 0))))
  else if k =? 81 then let g := iconpage p + INT_TO_FP (b2z (iconpage p <? iconpmax p)) in if s32b g then Ok (set_page p g) else UB
  else Ok p.
Fixpoint set_inkeys (i : inkey) (l : list Z) : outcome inkey :=
  match l with [] => Ok i | c :: r => let* (_, i) := set_inkey i c in set_inkeys i r end.
Definition has (bits b : Z) : bool := negb (Z.land bits b =? 0).
(** panel.c:368-417: what a pressed key does; the flag is ERR_BREAK.  refresh_panel only changes pictures. *)
Definition press (p : panel) (i : inkey) (k : Z) : outcome (panel * inkey * bool) :=
  if k =? 0 then Ok (p, i, false)
  else if k =? 1 then Ok (p, i, true)
  else if k =? 47 then Ok (set_shift p (Z.lxor (shift p) 1), i, false)
  else if (k <=? 60) || (k =? 65) then
    let up := xorb (has (shift p) 1) (has (shift p) 2) in
    let m := 2 * (ptype p - 2) + b2z up in
    let at_ j := match nth_error keyboard_chr (Z.to_nat m) with
                 | Some l => match nth_error l (Z.to_nat j) with Some c => Ok c | None => UB end | None => UB end in
    let j := if m =? 5 then 2 * k else k in
    let* c := at_ j in
    if c =? 0 then Ok (p, i, false)
    else
      let* i := set_inkeys i [to_wide c] in
      let* i := (if m =? 5 then let* d := at_ (j + 1) in if d =? 0 then Ok i else set_inkeys i [to_wide d] else Ok i) in
      Ok (if has (shift p) 1 then set_shift p (Z.land (shift p) (Z.lnot 1)) else p, i, false)
  else if (61 <=? k) && (k <=? 64) then
    Ok (if k =? 61 then set_shift p (Z.lxor (shift p) 2) else if k =? 62 then set_type p PNL_KYA else if k =? 63 then set_type p PNL_KYM else set_type p PNL_KYK, i, false)
  else if k =? 66 then Ok (set_insert p (Z.lxor (cursor p) 1), i, false)
  else if (101 <=? k) && (k <=? 105) then
    match nth_error (fkeys p) (Z.to_nat (k - 101)) with
    | Some l => let* i := set_inkeys i l in Ok (p, i, false)
    | None => UB
    end
  else Ok (p, i, false).
(** panel.c:328-422 press_key, once per frame *)
Definition press_key (p : panel) (i : inkey) (touch : option (Z * Z)) : outcome (panel * inkey * bool) :=
  let* p := track p touch in
  match touch with
  | None => Ok (p, i, false)
  | Some _ =>
      let k := get_pressed_key p in
      let* p := turn_page p k in
      if (ptype p =? PNL_OFF) || (ptype p =? PNL_PNL) then Ok (p, i, false) else press p i k
  end.

(** sysvars.c:173-182 *)
Definition sys_keyboard (p : panel) : Z := let k := get_pressed_key p in INT_TO_FP (if k <=? 69 then k else 0).
Definition sys_funcno (p : panel) : Z := let k := get_pressed_key p in INT_TO_FP (if (k >=? 101) && (k <=? 105) then k - 100 else 0).

(** panel.c:278-294 set_function_key, key 1..5 *)
Fixpoint put_label (c : console) (ws : list Z) (n : nat) (j : Z) : outcome console :=
  match n with
  | O => Ok c
  | S n =>
      let len := zlen ws in
      let* c := con_put c (if (j =? 4) && (len >? 4) then to_wide 46 else if j <? len then nth (Z.to_nat j) ws 0 else to_wide 32) in
      put_label c ws n (j + 1)
  end.
Definition set_function_key (p : panel) (key : Z) (s : str) : outcome panel :=
  if (1 <=? key) && (key <=? 5) then
    let ws := str_wide_copy s in
    let* c := put_label (set_cursor (ktext p) (1 + (key - 1) * 6) (cy (ktext p))) ws 5 0 in
    Ok (set_keys p (upd (fkeys p) (Z.to_nat (key - 1)) ws) c)
  else UB.
(** panel.c:208-215 cmd_key *)
Definition cmd_key (p : panel) (key : Z) (s : str) : outcome panel :=
  if (key <? 1) || (5 <? key) then Err ERR_OUT_OF_RANGE else set_function_key p key s.
(** panel.c:165-186 cmd_pnltype; the background picture (set_panel_bg) is left out *)
Fixpoint which_type (s : str) (l : list (list Z * Z)) : outcome Z :=
  match l with
  | [] => Err ERR_INVALID_ARGUMENT_VALUE
  | (n, t) :: r => let* b := str_comp s (SBc n) in if b then Ok t else which_type s r
  end.
Definition cmd_pnltype (p : panel) (s : str) : outcome panel :=
  let* t := which_type s [([79;70;70], PNL_OFF); ([80;78;76], PNL_PNL); ([75;89;65], PNL_KYA); ([75;89;77], PNL_KYM); ([75;89;75], PNL_KYK)] in
  Ok (set_type p t).
(** panel.c:189-206 cmd_pnlstr; [c]: the colour when there are four arguments *)
Definition set_look (c : console) (x y k : Z) : console :=
  {| cx := x; cy := y; tabstep := tabstep c; sys_tabstep := sys_tabstep c; col := k; text := text c; color := color c |}.
Fixpoint put_row (c : console) (y : Z) (ws : list Z) : outcome console :=
  match ws with
  | [] => Ok c
  | w :: r => let* c := con_put c w in if negb (cy c =? y) then Ok c else put_row c y r
  end.
Definition cmd_pnlstr (p : panel) (x y : Z) (s : str) (c : option Z) : outcome panel :=
  if (x <? 0) || (31 <? x) then Ok p else if (y <? 0) || (23 <? y) then Ok p else
  match c with
  | Some k => if (k <? 0) || (15 <? k) then Err ERR_OUT_OF_RANGE else let* t := put_row (set_look (ptext p) x y k) y (str_wide_copy s) in Ok (set_ptext p t)
  | None => let* t := put_row (set_look (ptext p) x y 0) y (str_wide_copy s) in Ok (set_ptext p t)
  end.
(** panel.c:217-224 cmd_iconset *)
Definition cmd_iconset (p : panel) (i icon : Z) : outcome panel :=
  if (i <? 0) || (3 <? i) then Err ERR_OUT_OF_RANGE else if (icon <? 0) || (64 <? icon) then Err ERR_OUT_OF_RANGE
  else Ok (set_icons p (upd (icons p) (Z.to_nat (2 + i)) (true, icon * 4))).
(** panel.c:226-237 cmd_iconclr *)
Definition icon_off (l : list (bool * Z)) (j : nat) : list (bool * Z) :=
  match nth_error l j with Some (_, c) => upd l j (false, c) | None => l end.
Definition cmd_iconclr (p : panel) (i : option Z) : outcome panel :=
  match i with
  | Some i => if (i <? 0) || (3 <? i) then Err ERR_OUT_OF_RANGE else Ok (set_icons p (icon_off (icons p) (Z.to_nat (2 + i))))
  | None => Ok (set_icons p (icon_off (icon_off (icon_off (icon_off (icons p) 2) 3) 4) 5))
  end.
(** panel.c:239-246 func_iconchk *)
Definition func_iconchk (p : panel) : outcome Z :=
  let k := get_pressed_key p in
  if (k >=? 90) && (k <=? 94) then
    if (0 <=? id_pressed p) && (id_pressed p <? 89) then Ok (INT_TO_FP (k - 90))
    else match nth_error (icons p) (Z.to_nat (id_pressed p - 89)) with
         | Some (true, _) => Ok (INT_TO_FP (k - 90)) | Some (false, _) => Ok (- INT_TO_FP 1) | None => UB end
  else Ok (- INT_TO_FP 1).
(** panel.c:470-500: the checks after a line that mentions the system variable *)
Definition whole (z : Z) : Z := s32 (Z.land (u32 z) 4294963200).
Definition syschk_iconpuse (p : panel) : panel :=
  let u := INT_TO_FP (b2z (negb (iconpuse p =? 0))) in
  let a := negb (u =? 0) in
  let set j l := match nth_error l j with Some (_, c) => upd l j (a, c) | None => l end in
  set_icons (set_uses p u (iconpmax p)) (set 1%nat (set 0%nat (icons p))).
Definition syschk_iconpmax (p : panel) : panel := set_uses p (iconpuse p) (if iconpmax p <? 0 then 0 else whole (iconpmax p)).
Definition syschk_iconpage (p : panel) : panel :=
  set_page p (if iconpage p >? iconpmax p then iconpmax p else if iconpage p <? 0 then 0 else whole (iconpage p)).

(** panel.c:120-158 init_panel; pictures and the background are left out *)
Definition start_panel : panel :=
  mkP PNL_KYA (repeat [] 5) init_console init_console [(false, 316); (false, 317); (false, -1); (false, -1); (false, -1); (false, -1)] 0 0 0 0 1 0 0 0.
Definition init_panel : outcome panel :=
  let* p := set_function_key start_panel 1 (SBc [70;73;76;69;83]) in
  let* p := set_function_key p 2 (SBc [76;79;65;68;34]) in
  let* p := set_function_key p 3 (SBc [83;65;86;69;34]) in
  let* p := set_function_key p 4 (SBc [67;79;78;84]) in
  set_function_key p 5 (SBc [82;85;78]).
