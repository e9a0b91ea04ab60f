(** HD44780_Driver.h, HD44780_DriverI2C.h, HD44780_DriverSerial3Wire.h, HD44780_Controller.h,
    HD44780_View.h, HD44780_ViewPort.h, HD44780_DisplayWriter.h: translated code.
    Delays (HD44780_Profile.h) are in HdTimeModel.v. *)
Require Import ZArith List Bool.
Import ListNotations.
From Verif Require Import Base BitModel.
Open Scope Z_scope.

(** The lines to the display: register select, enable, and D4..D7. *)
Record lines := { rs : bool; en : bool; d4 : bool; d5 : bool; d6 : bool; d7 : bool }.

(** What a driver is asked to do: WriteCommand, WriteData, Write4. *)
Inductive dop := DCmd (b : Z) | DData (b : Z) | DNib (n : Z).

Definition nz (x : Z) : bool := negb (x =? 0).

(** ** HD44780_Driver.h.  A trace lists the lines after each pin write. *)
Definition set_rs (l : lines) v := {| rs := v; en := en l; d4 := d4 l; d5 := d5 l; d6 := d6 l; d7 := d7 l |}.
Definition set_en (l : lines) v := {| rs := rs l; en := v; d4 := d4 l; d5 := d5 l; d6 := d6 l; d7 := d7 l |}.
Definition set_d4 (l : lines) v := {| rs := rs l; en := en l; d4 := v; d5 := d5 l; d6 := d6 l; d7 := d7 l |}.
Definition set_d5 (l : lines) v := {| rs := rs l; en := en l; d4 := d4 l; d5 := v; d6 := d6 l; d7 := d7 l |}.
Definition set_d6 (l : lines) v := {| rs := rs l; en := en l; d4 := d4 l; d5 := d5 l; d6 := v; d7 := d7 l |}.
Definition set_d7 (l : lines) v := {| rs := rs l; en := en l; d4 := d4 l; d5 := d5 l; d6 := d6 l; d7 := v |}.
(** 95-103 [Write4] and 126-131 [PulseEnable]. *)
Definition par_write4 (l : lines) (data : Z) : list lines :=
  let l1 := set_d4 l (nz (Z.land data 1)) in
  let l2 := set_d5 l1 (nz (Z.land data 2)) in
  let l3 := set_d6 l2 (nz (Z.land data 4)) in
  let l4 := set_d7 l3 (nz (Z.land data 8)) in
  [l1; l2; l3; l4; set_en l4 false; set_en (set_en l4 false) true].
(** 85-89 [Write8]. *)
Definition par_write8 (l : lines) (data : Z) : list lines :=
  let t1 := par_write4 l (Z.shiftr data 4) in
  t1 ++ par_write4 (last t1 l) data.
(** 65-79. *)
Definition par_op (l : lines) (o : dop) : list lines :=
  match o with
  | DCmd b => set_rs l false :: par_write8 (set_rs l false) b
  | DData b => set_rs l true :: par_write8 (set_rs l true) b
  | DNib n => par_write4 l n
  end.
Fixpoint par_run (l : lines) (os : list dop) : list lines :=
  match os with
  | [] => []
  | o :: rest => let t := par_op l o in t ++ par_run (last t l) rest
  end.

(** ** HD44780_DriverI2C.h.  A trace lists the bytes sent; bit 0 RS, 1 R/W, 2 enable, 3 backlight,
    4..7 data.  State: the register _dataReg. *)
Definition bindo {A B : Type} (m : option A) (f : A -> option B) : option B :=
  match m with Some a => f a | None => None end.
Section I2C.
Variable iw : Z.
(** 43-47: the constructor, from 0. *)
Definition i2c_new : option Z :=
  bindo (ba_set iw 8 0 2) (fun r => bindo (ba_set iw 8 (fst r) 3) (fun r => Some (fst r))).
(** 143-152. *)
Definition i2c_pulse (r : Z) : option (Z * list Z) :=
  bindo (ba_reset iw 8 r 2) (fun a =>
  bindo (ba_set iw 8 (fst a) 2) (fun b => Some (fst b, [fst a; fst b]))).
(** 109-115. *)
Definition i2c_write4 (r data : Z) : option (Z * list Z) :=
  bindo (ba_set_field iw 8 r 4 data 4) (fun a =>
  bindo (i2c_pulse (fst a)) (fun b => Some (fst b, fst a :: snd b))).
(** 99-103. *)
Definition i2c_write8 (r data : Z) : option (Z * list Z) :=
  bindo (i2c_write4 r (Z.shiftr data 4)) (fun a =>
  bindo (i2c_write4 (fst a) data) (fun b => Some (fst b, snd a ++ snd b))).
(** 138-141 and the write that follows it. *)
Definition i2c_clear (r : Z) : option Z := bindo (ba_set_field iw 8 r 4 0 4) (fun a => Some (fst a)).
(** 61-81; backlight 88-93. *)
Inductive iop := IOp (o : dop) | ILight (v : bool).
Definition i2c_op (r : Z) (o : iop) : option (Z * list Z) :=
  match o with
  | IOp (DCmd b) =>
      bindo (ba_reset iw 8 r 0) (fun a => bindo (i2c_clear (fst a)) (fun c =>
      bindo (i2c_write8 c b) (fun w => Some (fst w, c :: snd w))))
  | IOp (DData b) =>
      bindo (ba_set iw 8 r 0) (fun a => bindo (i2c_clear (fst a)) (fun c =>
      bindo (i2c_write8 c b) (fun w => Some (fst w, c :: snd w))))
  | IOp (DNib n) => i2c_write4 r n
  | ILight v => bindo (ba_put iw 8 r 3 v) (fun a => bindo (i2c_clear (fst a)) (fun c => Some (c, [c])))
  end.
Fixpoint i2c_run (r : Z) (os : list iop) : option (Z * list Z) :=
  match os with
  | [] => Some (r, [])
  | o :: rest => bindo (i2c_op r o) (fun a => bindo (i2c_run (fst a) rest) (fun b => Some (fst b, snd a ++ snd b)))
  end.
End I2C.

(** ** HD44780_DriverSerial3Wire.h.  A trace lists the values of the shared register given to
    BaseT::Write.  [ix] is the bit index of each line. *)
Record indices := { irs : Z; ien : Z; i4 : Z; i5 : Z; i6 : Z; i7 : Z }.
Section W3.
Variables (iw w : Z) (ix : indices).
Definition put (r i : Z) (v : bool) : option Z := bindo (ba_put iw w r i v) (fun a => Some (fst a)).
(** 64-78 [setDataRegister]. *)
Definition w3_attach (r : Z) : option (Z * list Z) :=
  bindo (put r (irs ix) false) (fun r => bindo (put r (ien ix) true) (fun r =>
  bindo (put r (i4 ix) false) (fun r => bindo (put r (i5 ix) false) (fun r =>
  bindo (put r (i6 ix) false) (fun r => bindo (put r (i7 ix) false) (fun r => Some (r, [r]))))))).
(** 143-154 and 177-186. *)
Definition w3_write4 (r data : Z) : option (Z * list Z) :=
  bindo (put r (i4 ix) (nz (Z.land data 1))) (fun r =>
  bindo (put r (i5 ix) (nz (Z.land data 2))) (fun r =>
  bindo (put r (i6 ix) (nz (Z.land data 4))) (fun r =>
  bindo (put r (i7 ix) (nz (Z.land data 8))) (fun r =>
  bindo (put r (ien ix) false) (fun r1 =>
  bindo (put r1 (ien ix) true) (fun r2 => Some (r2, [r; r1; r2]))))))).
(** 132-136. *)
Definition w3_write8 (r data : Z) : option (Z * list Z) :=
  bindo (w3_write4 r (Z.shiftr data 4)) (fun a =>
  bindo (w3_write4 (fst a) data) (fun b => Some (fst b, snd a ++ snd b))).
(** 104-123, with a register attached. *)
Definition w3_op (r : Z) (o : dop) : option (Z * list Z) :=
  match o with
  | DCmd b => bindo (put r (irs ix) false) (fun r => w3_write8 r b)
  | DData b => bindo (put r (irs ix) true) (fun r => w3_write8 r b)
  | DNib n => w3_write4 r n
  end.
Fixpoint w3_run (r : Z) (os : list dop) : option (Z * list Z) :=
  match os with
  | [] => Some (r, [])
  | o :: rest => bindo (w3_op r o) (fun a => bindo (w3_run (fst a) rest) (fun b => Some (fst b, snd a ++ snd b)))
  end.
End W3.

(** ** HD44780_Controller.h.  State: _registers, a BitArray<uint8_t>; output: driver calls. *)
Inductive cop :=
| CInit (full : bool) | CClear | CHome
| CBlink (v : bool) | CCursor (v : bool) | CDisplay (v : bool) | CControl (display cursor blink : bool)
| CDirection (left : bool) | CShift (v : bool) | CEntry (left : bool) (shift : bool)
| CAddress (a : Z) | CCharAddress (a : Z) | CMove (display : bool) (right : bool).
Section Ctl.
Variable iw : Z.
(** 298-309. *)
Definition display_control (r : Z) : Z := Z.lor (Z.land r 7) 8.
Definition entry_mode (r : Z) : Z := Z.lor (Z.shiftr (Z.land r 24) 3) 4.
Definition put8 (r i : Z) (v : bool) : option Z := bindo (ba_put iw 8 r i v) (fun a => Some (fst a)).
(** Registers enum 242-254: Blink 0, Cursor 1, Display 2, EntryDisplayShift 3, EntryCursorDirection 4. *)
Definition ctl_op (r : Z) (o : cop) : option (Z * list dop) :=
  match o with
  (* 62-79; the driver's Initialize is Write4(2) and WriteCommand(0x28) *)
  | CInit full => Some (r, (if full then [DNib 3; DNib 3; DNib 3; DNib 2; DCmd 40] else []) ++ [DCmd 1; DCmd 2])
  | CClear => Some (r, [DCmd 1])
  | CHome => Some (r, [DCmd 2])
  | CBlink v => bindo (put8 r 0 v) (fun r => Some (r, [DCmd (display_control r)]))
  | CCursor v => bindo (put8 r 1 v) (fun r => Some (r, [DCmd (display_control r)]))
  | CDisplay v => bindo (put8 r 2 v) (fun r => Some (r, [DCmd (display_control r)]))
  | CControl d c b =>
      bindo (put8 r 0 b) (fun r => bindo (put8 r 1 c) (fun r => bindo (put8 r 2 d) (fun r =>
      Some (r, [DCmd (display_control r)]))))
  | CDirection lf => bindo (put8 r 4 lf) (fun r => Some (r, [DCmd (entry_mode r)]))
  | CShift v => bindo (put8 r 3 v) (fun r => Some (r, [DCmd (entry_mode r)]))
  | CEntry lf v => bindo (put8 r 4 lf) (fun r => bindo (put8 r 3 v) (fun r => Some (r, [DCmd (entry_mode r)])))
  (* 210-237 *)
  | CAddress a => Some (r, [DCmd (Z.lor a 128)])
  | CCharAddress a => Some (r, [DCmd (Z.lor (Z.land a 63) 64)])
  | CMove d rt => Some (r, [DCmd (Z.lor (Z.lor 16 (if d then 8 else 0)) (if rt then 4 else 0))])
  end.
Fixpoint ctl_run (r : Z) (os : list cop) : option (Z * list dop) :=
  match os with
  | [] => Some (r, [])
  | o :: rest => bindo (ctl_op r o) (fun a => bindo (ctl_run (fst a) rest) (fun b => Some (fst b, snd a ++ snd b)))
  end.
(** The getters 100-103, 117-120, 134-137, 181-184; getEntryCursorDirection (164-167) converts bool
    to an enum and does not compile. *)
Definition ctl_get (r i : Z) : option bool := ba_true iw 8 r i.
End Ctl.

(** ** HD44780_View.h *)
Record view := { row : Z; col : Z }.
Section View.
Variable rows : Z.
Definition total_cols : Z := 80 / rows.
(** 157-180. *)
Definition inc_row (v : view) : view :=
  if row v + 1 >? rows then {| row := 0; col := col v |} else {| row := u8 (row v + 1); col := col v |}.
Definition inc_col (v : view) : view :=
  if col v + 1 >? total_cols then inc_row {| row := row v; col := 0 |}
  else {| row := row v; col := u8 (col v + 1) |}.
(** 182-198; the row offsets table has four entries. *)
Definition row_offset (r : Z) : option Z :=
  if r =? 0 then Some 0 else if r =? 1 then Some 64 else if r =? 2 then Some 20 else if r =? 3 then Some 84 else None.
Definition calc_address (r c : Z) : option Z :=
  match row_offset (if r >=? rows then 0 else r) with Some o => Some (u8 (o + c)) | None => None end.
Definition goto_op (v : view) : option (list dop) :=
  match calc_address (row v) (col v) with Some a => Some [DCmd (Z.lor a 128)] | None => None end.
Inductive vop := VChar (ch : Z) | VCursor (r c : Z) | VHome | VInit (full : bool).
(** 46-54, 61-80, 120-125, 146-151.  Initialize(full) calls the controller's ReturnHome, not the
    view's, so it leaves the tracked position alone; SetEntryMode(Left, false) sends 6. *)
Definition view_op (v : view) (o : vop) : option (view * list dop) :=
  match o with
  | VChar ch =>
      if ch =? 10 then let v := inc_row v in bindo (goto_op v) (fun d => Some (v, d))
      else if ch =? 13 then let v := {| row := row v; col := 0 |} in bindo (goto_op v) (fun d => Some (v, d))
      else Some (inc_col v, [DData ch])
  | VCursor r c => let v := {| row := r; col := c |} in bindo (goto_op v) (fun d => Some (v, d))
  | VHome => Some ({| row := 0; col := 0 |}, [DCmd 2])
  | VInit full => Some (v, (if full then [DNib 3; DNib 3; DNib 3; DNib 2; DCmd 40] else []) ++ [DCmd 1; DCmd 2] ++
                           (if full then [DCmd 6] else []))
  end.
Fixpoint view_run (v : view) (os : list vop) : option (view * list dop) :=
  match os with
  | [] => Some (v, [])
  | o :: rest => bindo (view_op v o) (fun a => bindo (view_run (fst a) rest) (fun b => Some (fst b, snd a ++ snd b)))
  end.
End View.

(** ** HD44780_ViewPort.h 47-73: new offset, answer, and the shift command sent if any. *)
Definition scroll_right (off : Z) : Z * bool * list dop :=
  if off >? 0 then (u8 (off - 1), true, [DCmd 28]) else (off, false, []).
Definition scroll_left (total off : Z) : Z * bool * list dop :=
  if off >? total then (u8 (off + 1), true, [DCmd 24]) else (off, false, []).
Fixpoint scroll_run (total off : Z) (ops : list bool) : Z * list bool * list dop :=
  match ops with
  | [] => (off, [], [])
  | lf :: rest =>
      let '(off, b, d) := if (lf : bool) then scroll_left total off else scroll_right off in
      let '(off, bs, ds) := scroll_run total off rest in (off, b :: bs, d ++ ds)
  end.

(** ** HD44780_DisplayWriter.h 58-93; DontCare is 255.  State: view position and controller register. *)
Definition dw_goto (rows : Z) (v : view) (l c : Z) : option (view * list dop) :=
  let l := if l =? 255 then row v else l in
  let c := if c =? 255 then col v else c in
  view_op rows v (VCursor l c).
Definition dw_cursor (iw rows : Z) (r : Z) (v : view) (l c : Z) (edit : bool) : option (Z * view * list dop) :=
  if (l =? 255) && (c =? 255)
  then bindo (ctl_op iw r (CCursor false)) (fun a => Some (fst a, v, snd a))
  else
    bindo (ctl_get iw r 1) (fun on =>
    bindo (if on then Some (r, []) else ctl_op iw r (CCursor true)) (fun a =>
    bindo (ctl_get iw (fst a) 0) (fun bl =>
    bindo (if Bool.eqb bl edit then Some (fst a, []) else ctl_op iw (fst a) (CBlink edit)) (fun b =>
    bindo (view_op rows v (VCursor l c)) (fun g => Some (fst b, fst g, snd a ++ snd b ++ snd g)))))).
