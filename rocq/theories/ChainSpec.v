(** What the devices on the outputs of the shift registers see. *)
Require Import ZArith List Bool.
Import ListNotations.
From Verif Require Import Base BitModel ShiftModel ShiftSpec MotorModel MotorSpec HdModel HdSpec ChainModel.
Open Scope Z_scope.

(** The board: the 74HC595 chain and the value of each PWM pin. *)
Record wires := mkWires { w_chip : chip; w_pwm : nat -> Z }.
Definition wires_step (b : wires) (e : cev) : wires :=
  match e with
  | CPin e => mkWires (chip_step (w_chip b) e) (w_pwm b)
  | CPwm k v => mkWires (w_chip b) (fun j => if (j =? k)%nat then v else w_pwm b j)
  end.
Definition wires_run (b : wires) (es : list cev) : wires := fold_left wires_step es b.
(** After each pin write. *)
Fixpoint moments (b : wires) (es : list cev) : list wires :=
  match es with [] => [] | e :: rest => let b := wires_step b e in b :: moments b rest end.

(** Bit [i] is output [w - 1 - i] of the chain, counted from the data pin. *)
Definition out_bit (w : Z) (b : wires) (i : Z) : bool := nth (Z.to_nat (w - 1 - i)) (outs (w_chip b)) false.
Definition lines_at (w : Z) (ix : indices) (b : wires) : lines :=
  {| rs := out_bit w b (irs ix); en := out_bit w b (ien ix); d4 := out_bit w b (i4 ix); d5 := out_bit w b (i5 ix);
     d6 := out_bit w b (i6 ix); d7 := out_bit w b (i7 ix) |}.
Definition pins_at (w : Z) (i1 i2 : Z) (k : nat) (b : wires) : pins :=
  {| in1 := out_bit w b i1; in2 := out_bit w b i2; pwm := w_pwm b k |}.

(** Which bits belong to a device; every bit to at most one, and all of them in the array. *)
Definition bits_of (d : device) : list Z :=
  match d with Display ix => index_list ix | Motor i1 i2 => [i1; i2] end.
Definition layout_ok (w : Z) (devs : list device) : Prop :=
  NoDup (concat (map bits_of devs)) /\ Forall (fun i => 0 <= i < w) (concat (map bits_of devs)).

(** The calls each class has, with arguments of their types; the controllers of the motors are used
    after setDataRegister only. *)
Definition call_ok (devs : list device) (at_ : nat -> bool) (k : nat) (o : chop) : Prop :=
  match nth_error devs k, o with
  | Some _, Attach => True
  | Some (Display _), Disp o => dop_ok o
  | Some (Motor _ _), Run c => speed_ok c /\ at_ k = true
  | _, _ => False
  end.
Definition note (at_ : nat -> bool) (k : nat) (o : chop) : nat -> bool :=
  match o with Attach => fun j => if (j =? k)%nat then true else at_ j | _ => at_ end.
Fixpoint calls_ok (devs : list device) (at_ : nat -> bool) (h : list (nat * chop)) : Prop :=
  match h with [] => True | (k, o) :: rest => call_ok devs at_ k o /\ calls_ok devs (note at_ k o) rest end.

(** The calls made on device [k]. *)
Fixpoint own (k : nat) (h : list (nat * chop)) : list chop :=
  match h with [] => [] | (j, o) :: rest => if (j =? k)%nat then o :: own k rest else own k rest end.
(** The nibbles an attached display is sent; attaching again lowers RS. *)
Fixpoint sent (r : bool) (os : list chop) : list (bool * Z) :=
  match os with
  | [] => []
  | Disp o :: rest => nibs r o ++ sent (rs_after r o) rest
  | Attach :: rest => sent false rest
  | Run _ :: rest => sent r rest
  end.
(** What the pins of a motor become. *)
Definition duty (c : command) : Z := match c with Clockwise v | CounterClockwise v => Z.max 1 v | _ => 1 end.
Definition in1_of (c : command) : bool := match c with Break | Clockwise _ => true | _ => false end.
Definition in2_of (c : command) : bool := match c with Break | CounterClockwise _ => true | _ => false end.
Definition turned (p : pins) (o : chop) : pins :=
  match o with
  | Attach => {| in1 := false; in2 := false; pwm := pwm p |}
  | Run c => {| in1 := in1_of c; in2 := in2_of c; pwm := duty c |}
  | Disp _ => p
  end.
(** On the way: the two lines have changed, the PWM has not. *)
Definition halfway (p : pins) (o : chop) : pins := {| in1 := in1 (turned p o); in2 := in2 (turned p o); pwm := pwm p |}.
(** The clock and latch pins are low and the chain is long enough for the array. *)
Definition wires_ok (w : Z) (b : wires) : Prop :=
  clock (w_chip b) = false /\ latch (w_chip b) = false /\ (Z.to_nat w <= length (reg (w_chip b)))%nat.
