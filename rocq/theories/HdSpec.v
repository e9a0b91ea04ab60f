(** The HD44780 display: interface and memory. *)
Require Import ZArith List Bool.
Import ListNotations.
From Verif Require Import Base HdModel.
Open Scope Z_scope.

(** ** Interface.  The display takes the lines at the falling edge of enable.  It powers up in 8-bit
    mode, where every edge is a whole byte with D0..D3 not connected ([lo]); in 4-bit mode two edges
    make a byte, high nibble first. *)
Definition nibble (l : lines) : Z :=
  Z.b2z (d4 l) + 2 * Z.b2z (d5 l) + 4 * Z.b2z (d6 l) + 8 * Z.b2z (d7 l).
Inductive mode := M8 | M4 | M4half (high : Z).
(** A byte taken by the display: register select and value. *)
Definition taken : Type := bool * Z.
(** A function-set command switches the mode. *)
Definition mode_after (t : taken) (m : mode) : mode :=
  let (r, b) := t in
  if negb r && (32 <=? b) && (b <? 64) then (if Z.testbit b 4 then M8 else M4) else m.
Section If.
Variable lo : Z.
Definition edge (m : mode) (r : bool) (n : Z) : mode * list taken :=
  match m with
  | M8 => let b := 16 * n + lo in (mode_after (r, b) M8, [(r, b)])
  | M4 => (M4half n, [])
  | M4half h => let b := 16 * h + n in (mode_after (r, b) M4, [(r, b)])
  end.
Fixpoint edges (m : mode) (ns : list (bool * Z)) : mode * list taken :=
  match ns with
  | [] => (m, [])
  | (r, n) :: rest => let (m, t) := edge m r n in let (m, ts) := edges m rest in (m, t ++ ts)
  end.
(** The display watching the lines. *)
Fixpoint watch (l : lines) (m : mode) (tr : list lines) : lines * mode * list taken :=
  match tr with
  | [] => (l, m, [])
  | l' :: rest =>
      let (m, t) := if en l && negb (en l') then edge m (rs l') (nibble l') else (m, []) in
      let '(l, m, ts) := watch l' m rest in (l, m, t ++ ts)
  end.
End If.
(** RS and data are stable while enable falls. *)
Fixpoint setup (l : lines) (tr : list lines) : Prop :=
  match tr with
  | [] => True
  | l' :: rest => (en l = true -> en l' = false -> rs l' = rs l /\ nibble l' = nibble l) /\ setup l' rest
  end.

(** The nibbles a driver call stands for. *)
Definition nibs (r : bool) (o : dop) : list (bool * Z) :=
  match o with
  | DCmd b => [(false, b / 16); (false, b mod 16)]
  | DData b => [(true, b / 16); (true, b mod 16)]
  | DNib n => [(r, n mod 16)]
  end.
Definition rs_after (r : bool) (o : dop) : bool :=
  match o with DCmd _ => false | DData _ => true | DNib _ => r end.
Fixpoint all_nibs (r : bool) (os : list dop) : list (bool * Z) :=
  match os with [] => [] | o :: rest => nibs r o ++ all_nibs (rs_after r o) rest end.
Definition dop_ok (o : dop) : Prop :=
  match o with DCmd b | DData b => 0 <= b < 256 | DNib n => 0 <= n < 256 end.
(** Calls that are whole bytes and do not leave 4-bit mode, and the byte they stand for. *)
Definition whole (o : dop) : Prop :=
  match o with DCmd b => 0 <= b < 256 /\ ~ (48 <= b < 64) | DData b => 0 <= b < 256 | DNib _ => False end.
Definition byte_of (o : dop) : taken :=
  match o with DCmd b => (false, b) | DData b => (true, b) | DNib n => (false, n) end.

(** The lines of a register value: I2C board and shift register. *)
Definition i2c_lines (r : Z) : lines :=
  {| rs := Z.testbit r 0; en := Z.testbit r 2;
     d4 := Z.testbit r 4; d5 := Z.testbit r 5; d6 := Z.testbit r 6; d7 := Z.testbit r 7 |}.
Definition w3_lines (ix : indices) (r : Z) : lines :=
  {| rs := Z.testbit r (irs ix); en := Z.testbit r (ien ix);
     d4 := Z.testbit r (i4 ix); d5 := Z.testbit r (i5 ix); d6 := Z.testbit r (i6 ix); d7 := Z.testbit r (i7 ix) |}.
Definition index_list (ix : indices) : list Z := [irs ix; ien ix; i4 ix; i5 ix; i6 ix; i7 ix].

(** A trace delivers nibbles: it ends with enable high and the given lines, RS and data are stable at
    every falling edge, and in whatever mode the display is, it takes exactly those nibbles. *)
Definition delivers (lo : Z) (l : lines) (tr : list lines) (ns : list (bool * Z)) (l' : lines) : Prop :=
  en l' = true /\ setup l tr /\ last tr l = l' /\
  forall m, watch lo l m tr = (l', fst (edges lo m ns), snd (edges lo m ns)).
(** The same for the calls of the I2C driver; the backlight takes no part. *)
Definition inibs (r : bool) (o : iop) : list (bool * Z) := match o with IOp o => nibs r o | ILight _ => [] end.
Definition irs_after (r : bool) (o : iop) : bool := match o with IOp o => rs_after r o | ILight _ => r end.
Definition light_after (v : bool) (o : iop) : bool := match o with IOp _ => v | ILight v => v end.
Definition iop_ok (o : iop) : Prop := match o with IOp o => dop_ok o | ILight _ => True end.
Fixpoint all_inibs (r : bool) (os : list iop) : list (bool * Z) :=
  match os with [] => [] | o :: rest => inibs r o ++ all_inibs (irs_after r o) rest end.
Definition final_light (v : bool) (os : list iop) : bool := fold_left light_after os v.
(** Bits of the shared register that belong to other devices. *)
Definition others (w : Z) (ix : indices) (r r' : Z) : Prop :=
  forall j, 0 <= j < w -> ~ In j (index_list ix) -> Z.testbit r' j = Z.testbit r j.

(** ** Memory: two lines of 40 cells at 0 and 64. *)
Record lcd := { mem : Z -> Z; ac : Z; cg : bool; inc : bool; shift : bool; disp : bool; curs : bool; blink : bool; off : Z }.
(** The address counter after an access. *)
Definition ac_next (up : bool) (a : Z) : Z :=
  if up then (if a =? 39 then 64 else if a =? 103 then 0 else (a + 1) mod 128)
  else (if a =? 0 then 103 else if a =? 64 then 39 else (a - 1) mod 128).
Definition exec (d : lcd) (t : taken) : lcd :=
  let (r, b) := t in
  if r then
    if cg d then {| mem := mem d; ac := (if inc d then (ac d + 1) mod 64 else (ac d - 1) mod 64); cg := true; inc := inc d;
                    shift := shift d; disp := disp d; curs := curs d; blink := blink d; off := off d |}
    else {| mem := upd (mem d) (ac d) b; ac := ac_next (inc d) (ac d); cg := false; inc := inc d; shift := shift d;
            disp := disp d; curs := curs d; blink := blink d;
            off := if shift d then (if inc d then off d + 1 else off d - 1) else off d |}
  else if b >=? 128 then
    {| mem := mem d; ac := b - 128; cg := false; inc := inc d; shift := shift d; disp := disp d; curs := curs d; blink := blink d; off := off d |}
  else if b >=? 64 then
    {| mem := mem d; ac := b - 64; cg := true; inc := inc d; shift := shift d; disp := disp d; curs := curs d; blink := blink d; off := off d |}
  else if b >=? 32 then d
  else if b >=? 16 then
    if Z.testbit b 3
    then {| mem := mem d; ac := ac d; cg := cg d; inc := inc d; shift := shift d; disp := disp d; curs := curs d; blink := blink d;
            off := if Z.testbit b 2 then off d - 1 else off d + 1 |}
    else {| mem := mem d; ac := ac_next (Z.testbit b 2) (ac d); cg := cg d; inc := inc d; shift := shift d; disp := disp d; curs := curs d;
            blink := blink d; off := off d |}
  else if b >=? 8 then
    {| mem := mem d; ac := ac d; cg := cg d; inc := inc d; shift := shift d;
       disp := Z.testbit b 2; curs := Z.testbit b 1; blink := Z.testbit b 0; off := off d |}
  else if b >=? 4 then
    {| mem := mem d; ac := ac d; cg := cg d; inc := Z.testbit b 1; shift := Z.testbit b 0; disp := disp d; curs := curs d; blink := blink d; off := off d |}
  else if b >=? 2 then
    {| mem := mem d; ac := 0; cg := false; inc := inc d; shift := shift d; disp := disp d; curs := curs d; blink := blink d; off := 0 |}
  else if b =? 1 then
    {| mem := fun _ => 32; ac := 0; cg := false; inc := true; shift := shift d; disp := disp d; curs := curs d; blink := blink d; off := 0 |}
  else d.
Definition exec_all (d : lcd) (ts : list taken) : lcd := fold_left exec ts d.
(** After power-on. *)
Definition lcd_new : lcd :=
  {| mem := fun _ => 32; ac := 0; cg := false; inc := true; shift := false; disp := false; curs := false; blink := false; off := 0 |}.

(** ** The screen a user of the view has in mind: a position and a character per cell. *)
Definition width (rows : Z) : Z := Z.min 40 (80 / rows).
Record screen := { srow : Z; scol : Z; cell : Z -> Z -> Z }.
Definition scr_op (s : screen) (o : vop) : screen :=
  match o with
  | VChar ch =>
      if ch =? 10 then {| srow := srow s + 1; scol := scol s; cell := cell s |}
      else if ch =? 13 then {| srow := srow s; scol := 0; cell := cell s |}
      else {| srow := srow s; scol := scol s + 1;
              cell := fun r c => if (r =? srow s) && (c =? scol s) then ch else cell s r c |}
  | VCursor r c => {| srow := r; scol := c; cell := cell s |}
  | VHome => {| srow := 0; scol := 0; cell := cell s |}
  | VInit _ => s
  end.
(** Calls that stay on the screen: a character needs a free cell in the row, a line feed a next row. *)
Definition scr_ok (rows : Z) (s : screen) (o : vop) : Prop :=
  match o with
  | VChar ch => 0 <= ch < 256 /\
      if ch =? 10 then srow s + 1 < rows else if ch =? 13 then True else scol s < width rows
  | VCursor r c => 0 <= r < rows /\ 0 <= c < width rows
  | VHome => True
  | VInit _ => False
  end.
Fixpoint scr_fits (rows : Z) (s : screen) (os : list vop) : Prop :=
  match os with [] => True | o :: rest => scr_ok rows s o /\ scr_fits rows (scr_op s o) rest end.
Definition scr_final (s : screen) (os : list vop) : screen := fold_left scr_op os s.
(** Where a cell is in the display's memory. *)
Definition cell_address (r c : Z) : Z := nth (Z.to_nat r) [0; 64; 20; 84] 0 + c.

(** ** Settings of the controller. *)
Record settings := { s_disp : bool; s_curs : bool; s_blink : bool; s_left : bool; s_shift : bool }.
Definition set_op (s : settings) (o : cop) : settings :=
  match o with
  | CBlink v => {| s_disp := s_disp s; s_curs := s_curs s; s_blink := v; s_left := s_left s; s_shift := s_shift s |}
  | CCursor v => {| s_disp := s_disp s; s_curs := v; s_blink := s_blink s; s_left := s_left s; s_shift := s_shift s |}
  | CDisplay v => {| s_disp := v; s_curs := s_curs s; s_blink := s_blink s; s_left := s_left s; s_shift := s_shift s |}
  | CControl d c b => {| s_disp := d; s_curs := c; s_blink := b; s_left := s_left s; s_shift := s_shift s |}
  | CDirection l => {| s_disp := s_disp s; s_curs := s_curs s; s_blink := s_blink s; s_left := l; s_shift := s_shift s |}
  | CShift v => {| s_disp := s_disp s; s_curs := s_curs s; s_blink := s_blink s; s_left := s_left s; s_shift := v |}
  | CEntry l v => {| s_disp := s_disp s; s_curs := s_curs s; s_blink := s_blink s; s_left := l; s_shift := v |}
  | _ => s
  end.
Definition cop_ok (o : cop) : Prop :=
  match o with CAddress a | CCharAddress a => 0 <= a < 256 | _ => True end.
Definition no_init (o : cop) : Prop := match o with CInit true => False | _ => True end.
(** Calls that send an entry-mode command, and calls that do not clear the display. *)
Definition entry_call (o : cop) : Prop :=
  match o with CDirection _ | CShift _ | CEntry _ _ => True | _ => False end.
Definition no_clear (o : cop) : Prop := match o with CClear | CInit _ => False | _ => True end.
Definition set_all (s : settings) (os : list cop) : settings := fold_left set_op os s.
Definition settings_new : settings := {| s_disp := false; s_curs := false; s_blink := false; s_left := false; s_shift := false |}.
Definition blank : screen := {| srow := 0; scol := 0; cell := fun _ _ => 32 |}.
(** Any state of the interface; the nibbles of a full initialisation; layouts the display has room for. *)
Definition mode_ok (m : mode) : Prop := match m with M4half h => 0 <= h < 16 | _ => True end.
Definition init_ops : list dop := [DNib 3; DNib 3; DNib 3; DNib 2].
Definition rows_ok (rows : Z) : Prop := rows = 1 \/ rows = 2 \/ rows = 4.
(** ** What each controller call should do to the display. *)
Definition lcd_control (s : settings) (d : lcd) : lcd :=
  {| mem := mem d; ac := ac d; cg := cg d; inc := inc d; shift := shift d;
     disp := s_disp s; curs := s_curs s; blink := s_blink s; off := off d |}.
Definition lcd_entry (s : settings) (d : lcd) : lcd :=
  {| mem := mem d; ac := ac d; cg := cg d; inc := s_left s; shift := s_shift s;
     disp := disp d; curs := curs d; blink := blink d; off := off d |}.
(** Moves to a cell of the text memory or of the character memory. *)
Definition lcd_at (d : lcd) (a : Z) (chars : bool) : lcd :=
  {| mem := mem d; ac := a; cg := chars; inc := inc d; shift := shift d;
     disp := disp d; curs := curs d; blink := blink d; off := off d |}.
Definition lcd_scrolled (d : lcd) (by_ : Z) : lcd :=
  {| mem := mem d; ac := ac d; cg := cg d; inc := inc d; shift := shift d;
     disp := disp d; curs := curs d; blink := blink d; off := off d + by_ |}.
Definition lcd_home (d : lcd) : lcd :=
  {| mem := mem d; ac := 0; cg := false; inc := inc d; shift := shift d;
     disp := disp d; curs := curs d; blink := blink d; off := 0 |}.
Definition lcd_cleared (d : lcd) : lcd :=
  {| mem := fun _ => 32; ac := 0; cg := false; inc := true; shift := shift d;
     disp := disp d; curs := curs d; blink := blink d; off := 0 |}.
Definition lcd_call (p : settings * lcd) (o : cop) : settings * lcd :=
  let s := set_op (fst p) o in
  let d := snd p in
  (s, match o with
      | CInit _ | CClear => lcd_cleared d
      | CHome => lcd_home d
      | CBlink _ | CCursor _ | CDisplay _ | CControl _ _ _ => lcd_control s d
      | CDirection _ | CShift _ | CEntry _ _ => lcd_entry s d
      | CAddress a => lcd_at d (a mod 128) false
      | CCharAddress a => lcd_at d (a mod 64) true
      | CMove false rt => lcd_at d (ac_next rt (ac d)) (cg d)
      | CMove true rt => lcd_scrolled d (if rt then -1 else 1)
      end).
