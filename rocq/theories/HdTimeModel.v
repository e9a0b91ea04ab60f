(** HD44780_Profile.h and where the drivers, the controller and the view wait: translated code.
    The same functions as in HdModel, with the delays kept. *)
Require Import ZArith List Bool.
Import ListNotations.
From Verif Require Import Base BitModel HdModel.
Open Scope Z_scope.

(** A timing profile (TimingProfileT), in microseconds. *)
Record profile := { p_power : Z; p_init_long : Z; p_init : Z; p_init_short : Z;
                    p_command : Z; p_command_long : Z; p_pulse : Z }.
(** HD44780_Profile.h 34-88; WaitPowerUp is in milliseconds. *)
Definition default_profile : profile :=
  {| p_power := 1000 * 10; p_init_long := 1000; p_init := 30; p_init_short := 20;
     p_command := 15; p_command_long := 800; p_pulse := 8 |}.

(** A step of a driver: something put on the pins, bus or register, or a delay. *)
Inductive act (A : Type) := Put (x : A) | Wait (t : Z).
Arguments Put {A} x.
Arguments Wait {A} t.
(** What controller and view ask of the driver, with their own delays. *)
Inductive top := TOp (o : dop) | TWait (t : Z).

Section P.
Variable p : profile.

(** ** HD44780_Driver.h: lines after the call, and the steps. *)
Definition t_par_write4 (l : lines) (data : Z) : lines * list (act lines) :=      (* 95-103, 126-131 *)
  let l1 := set_d4 l (nz (Z.land data 1)) in
  let l2 := set_d5 l1 (nz (Z.land data 2)) in
  let l3 := set_d6 l2 (nz (Z.land data 4)) in
  let l4 := set_d7 l3 (nz (Z.land data 8)) in
  let l5 := set_en l4 false in
  let l6 := set_en l5 true in
  (l6, [Put l1; Put l2; Put l3; Put l4; Put l5; Wait (p_pulse p); Put l6]).
Definition t_par_write8 (l : lines) (data : Z) : lines * list (act lines) :=      (* 85-89 *)
  let (l, t1) := t_par_write4 l (Z.shiftr data 4) in
  let (l, t2) := t_par_write4 l data in (l, t1 ++ t2).
Definition t_par_op (l : lines) (o : top) : lines * list (act lines) :=           (* 65-79 *)
  match o with
  | TOp (DCmd b) => let l := set_rs l false in let (l', t) := t_par_write8 l b in (l', Put l :: t)
  | TOp (DData b) => let l := set_rs l true in let (l', t) := t_par_write8 l b in (l', Put l :: t)
  | TOp (DNib n) => t_par_write4 l n
  | TWait t => (l, [Wait t])
  end.
Fixpoint t_par_run (l : lines) (os : list top) : lines * list (act lines) :=
  match os with
  | [] => (l, [])
  | o :: rest => let (l, t1) := t_par_op l o in let (l, t2) := t_par_run l rest in (l, t1 ++ t2)
  end.

(** ** HD44780_DriverI2C.h *)
Section I2C.
Variable iw : Z.
Definition t_i2c_write4 (r data : Z) : option (Z * list (act Z)) :=               (* 109-115, 143-152 *)
  bindo (ba_set_field iw 8 r 4 data 4) (fun a =>
  bindo (ba_reset iw 8 (fst a) 2) (fun b =>
  bindo (ba_set iw 8 (fst b) 2) (fun c =>
  Some (fst c, [Put (fst a); Put (fst b); Wait (p_pulse p); Put (fst c)])))).
Definition t_i2c_write8 (r data : Z) : option (Z * list (act Z)) :=               (* 99-103 *)
  bindo (t_i2c_write4 r (Z.shiftr data 4)) (fun a =>
  bindo (t_i2c_write4 (fst a) data) (fun b => Some (fst b, snd a ++ snd b))).
Definition t_i2c_op (r : Z) (o : top) : option (Z * list (act Z)) :=              (* 61-81 *)
  match o with
  | TOp (DCmd b) =>
      bindo (ba_reset iw 8 r 0) (fun a => bindo (i2c_clear iw (fst a)) (fun c =>
      bindo (t_i2c_write8 c b) (fun w => Some (fst w, Put c :: snd w))))
  | TOp (DData b) =>
      bindo (ba_set iw 8 r 0) (fun a => bindo (i2c_clear iw (fst a)) (fun c =>
      bindo (t_i2c_write8 c b) (fun w => Some (fst w, Put c :: snd w))))
  | TOp (DNib n) => t_i2c_write4 r n
  | TWait t => Some (r, [Wait t])
  end.
Fixpoint t_i2c_run (r : Z) (os : list top) : option (Z * list (act Z)) :=
  match os with
  | [] => Some (r, [])
  | o :: rest => bindo (t_i2c_op r o) (fun a => bindo (t_i2c_run (fst a) rest) (fun b => Some (fst b, snd a ++ snd b)))
  end.
End I2C.

(** ** HD44780_DriverSerial3Wire.h *)
Section W3.
Variables (iw w : Z) (ix : indices).
Definition t_w3_write4 (r data : Z) : option (Z * list (act Z)) :=                (* 143-154, 177-186 *)
  bindo (put iw w r (i4 ix) (nz (Z.land data 1))) (fun r =>
  bindo (put iw w r (i5 ix) (nz (Z.land data 2))) (fun r =>
  bindo (put iw w r (i6 ix) (nz (Z.land data 4))) (fun r =>
  bindo (put iw w r (i7 ix) (nz (Z.land data 8))) (fun r =>
  bindo (put iw w r (ien ix) false) (fun r1 =>
  bindo (put iw w r1 (ien ix) true) (fun r2 => Some (r2, [Put r; Put r1; Wait (p_pulse p); Put r2]))))))).
Definition t_w3_write8 (r data : Z) : option (Z * list (act Z)) :=                (* 132-136 *)
  bindo (t_w3_write4 r (Z.shiftr data 4)) (fun a =>
  bindo (t_w3_write4 (fst a) data) (fun b => Some (fst b, snd a ++ snd b))).
Definition t_w3_op (r : Z) (o : top) : option (Z * list (act Z)) :=               (* 104-123 *)
  match o with
  | TOp (DCmd b) => bindo (put iw w r (irs ix) false) (fun r => t_w3_write8 r b)
  | TOp (DData b) => bindo (put iw w r (irs ix) true) (fun r => t_w3_write8 r b)
  | TOp (DNib n) => t_w3_write4 r n
  | TWait t => Some (r, [Wait t])
  end.
Fixpoint t_w3_run (r : Z) (os : list top) : option (Z * list (act Z)) :=
  match os with
  | [] => Some (r, [])
  | o :: rest => bindo (t_w3_op r o) (fun a => bindo (t_w3_run (fst a) rest) (fun b => Some (fst b, snd a ++ snd b)))
  end.
End W3.

(** ** HD44780_Controller.h *)
Section Ctl.
Variable iw : Z.
Definition t_control (r : Z) : option (Z * list top) :=                           (* 298-302 *)
  Some (r, [TOp (DCmd (display_control r)); TWait (p_command p)]).
Definition t_entry (r : Z) : option (Z * list top) :=                             (* 304-309 *)
  Some (r, [TOp (DCmd (entry_mode r)); TWait (p_command p)]).
Definition t_clear : list top := [TOp (DCmd 1); TWait (p_command_long p)].        (* 83-87 *)
Definition t_home : list top := [TOp (DCmd 2); TWait (p_command_long p)].         (* 91-95 *)
Definition t_power_up : list top :=                                               (* 64-74 *)
  [TWait (p_power p); TOp (DNib 3); TWait (p_init_long p); TOp (DNib 3); TWait (p_init p);
   TOp (DNib 3); TWait (p_init_short p); TOp (DNib 2); TOp (DCmd 40)].
Definition t_ctl_op (r : Z) (o : cop) : option (Z * list top) :=
  match o with
  | CInit full => Some (r, (if full then t_power_up else []) ++ t_clear ++ t_home)
  | CClear => Some (r, t_clear)
  | CHome => Some (r, t_home)
  | CBlink v => bindo (put8 iw r 0 v) t_control
  | CCursor v => bindo (put8 iw r 1 v) t_control
  | CDisplay v => bindo (put8 iw r 2 v) t_control
  | CControl d c b => bindo (put8 iw r 0 b) (fun r => bindo (put8 iw r 1 c) (fun r => bindo (put8 iw r 2 d) t_control))
  | CDirection lf => bindo (put8 iw r 4 lf) t_entry
  | CShift v => bindo (put8 iw r 3 v) t_entry
  | CEntry lf v => bindo (put8 iw r 4 lf) (fun r => bindo (put8 iw r 3 v) t_entry)
  (* 210-237 *)
  | CAddress a => Some (r, [TOp (DCmd (Z.lor a 128)); TWait (p_command p)])
  | CCharAddress a => Some (r, [TOp (DCmd (Z.lor (Z.land a 63) 64)); TWait (p_command p)])
  | CMove d rt => Some (r, [TOp (DCmd (Z.lor (Z.lor 16 (if d then 8 else 0)) (if rt then 4 else 0))); TWait (p_command p)])
  end.
End Ctl.

(** ** HD44780_View.h: calls of the view and of the controller under it.  State: the controller's
    register and the view's position.  A character is written without a delay (line 78). *)
Section View.
Variables (iw rows : Z).
Definition t_goto (v : view) : option (list top) :=                               (* 195-198 *)
  match calc_address rows (row v) (col v) with
  | Some a => Some [TOp (DCmd (Z.lor a 128)); TWait (p_command p)]
  | None => None
  end.
Inductive call := OnView (o : vop) | OnCtl (o : cop).
Definition t_call (s : Z * view) (o : call) : option (Z * view * list top) :=
  let (r, v) := s in
  match o with
  | OnCtl o => bindo (t_ctl_op iw r o) (fun a => Some (fst a, v, snd a))
  | OnView (VChar ch) =>                                                          (* 61-80 *)
      if ch =? 10 then let v := inc_row rows v in bindo (t_goto v) (fun d => Some (r, v, d))
      else if ch =? 13 then let v := {| row := row v; col := 0 |} in bindo (t_goto v) (fun d => Some (r, v, d))
      else Some (r, inc_col rows v, [TOp (DData ch)])
  | OnView (VCursor a b) => let v := {| row := a; col := b |} in bindo (t_goto v) (fun d => Some (r, v, d))
  | OnView VHome => Some (r, {| row := 0; col := 0 |}, t_home)
  | OnView (VInit full) =>                                                        (* 46-54 *)
      bindo (t_ctl_op iw r (CInit full)) (fun a =>
      if full then bindo (t_ctl_op iw (fst a) (CEntry true false)) (fun b => Some (fst b, v, snd a ++ snd b))
      else Some (fst a, v, snd a))
  end.
Fixpoint t_calls (s : Z * view) (os : list call) : option (Z * view * list top) :=
  match os with
  | [] => Some (s, [])
  | o :: rest => bindo (t_call s o) (fun a => bindo (t_calls (fst a) rest) (fun b => Some (fst b, snd a ++ snd b)))
  end.
End View.
End P.
