(** HD44780_DriverSerial3Wire.h and TB6612FNG_DriverSerial3Wire.h (under TB6612FNG_Controller.h), any
    number of each, over one BitArray of [w] bits: translated code.  Their base class is taken to be
    one whose Write is Serial3WireOutput::WriteReverse (44-55); the class's own Write never ends. *)
Require Import ZArith List Bool.
Import ListNotations.
From Verif Require Import Base BitModel ShiftModel MotorModel HdModel.
Open Scope Z_scope.

(** The template arguments: six bit indices, or two and a PWM pin of its own. *)
Inductive device := Display (ix : indices) | Motor (i1 i2 : Z).
(** setDataRegister with the shared BitArray; a call of the display's driver; a call of the motor's
    controller. *)
Inductive chop := Attach | Disp (o : dop) | Run (c : command).
(** Pin writes: to the shift registers, to the PWM pin of device [k]. *)
Inductive cev := CPin (e : event) | CPwm (k : nat) (v : Z).
(** The shared BitArray, and which _dataReg are not NULL. *)
Record chain := mkChain { ch_reg : Z; ch_att : nat -> bool }.

Section C.
Variables (iw w : Z).
(** WriteDataRegister with the BitArray at [r]. *)
Definition ch_write (r : Z) : option (list cev) := bindo (write_reverse iw w r) (fun es => Some (map CPin es)).
Fixpoint ch_writes (rs : list Z) : option (list cev) :=
  match rs with
  | [] => Some []
  | r :: rest => bindo (ch_write r) (fun a => bindo (ch_writes rest) (fun b => Some (a ++ b)))
  end.
Definition attached (s : chain) (k : nat) (r : Z) : chain :=
  mkChain r (fun j => if (j =? k)%nat then true else ch_att s j).
(** TB6612FNG_DriverSerial3Wire.h 83-85 (and 62-65). *)
Definition mo_lines (i1 i2 r : Z) (a b : bool) : option (Z * list cev) :=
  bindo (put iw w r i1 a) (fun r => bindo (put iw w r i2 b) (fun r => bindo (ch_write r) (fun es => Some (r, es)))).
(** TB6612FNG_Controller.h 40-66: the arguments of Send. *)
Definition send_args (c : command) : bool * bool * Z :=
  match c with
  | Stop => (false, false, 0)
  | Break => (true, true, 0)
  | Clockwise v => (true, false, v)
  | CounterClockwise v => (false, true, v)
  end.
(** One call on device [k].  [Send] reads through _dataReg without looking whether it is NULL. *)
Definition ch_step (devs : list device) (s : chain) (k : nat) (o : chop) : option (chain * list cev) :=
  match nth_error devs k, o with
  | Some (Display ix), Attach =>
      bindo (w3_attach iw w ix (ch_reg s)) (fun a => bindo (ch_writes (snd a)) (fun es =>
      Some (attached s k (fst a), es)))
  | Some (Display ix), Disp o =>
      if ch_att s k
      then bindo (w3_op iw w ix (ch_reg s) o) (fun a => bindo (ch_writes (snd a)) (fun es =>
           Some (mkChain (fst a) (ch_att s), es)))
      else Some (s, [])
  | Some (Motor i1 i2), Attach =>
      bindo (mo_lines i1 i2 (ch_reg s) false false) (fun a => Some (attached s k (fst a), snd a))
  | Some (Motor i1 i2), Run c =>
      if ch_att s k
      then let '(a, b, p) := send_args c in
           bindo (mo_lines i1 i2 (ch_reg s) a b) (fun x =>
           Some (mkChain (fst x) (ch_att s), snd x ++ [CPwm k (pwm_value p)]))
      else None
  | _, _ => None (* not a call of that class *)
  end.
Fixpoint ch_run (devs : list device) (s : chain) (h : list (nat * chop)) : option (chain * list cev) :=
  match h with
  | [] => Some (s, [])
  | (k, o) :: rest => bindo (ch_step devs s k o) (fun a =>
      bindo (ch_run devs (fst a) rest) (fun b => Some (fst b, snd a ++ snd b)))
  end.
End C.
(** The constructors: every _dataReg is NULL. *)
Definition ch_new (r : Z) : chain := mkChain r (fun _ => false).
