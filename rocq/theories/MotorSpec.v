(** The chip's truth table (standby high). *)
Require Import ZArith List Bool.
From Verif Require Import MotorModel.
Open Scope Z_scope.

Inductive drive := Brake | Off | CW (duty : Z) | CCW (duty : Z).
Definition drive_of (s : pins) : drive :=
  match in1 s, in2 s with
  | true, true => Brake
  | false, false => Off
  | true, false => CW (pwm s)
  | false, true => CCW (pwm s)
  end.
(** What a command asks for. *)
Definition asked (c : command) : drive :=
  match c with
  | Stop => Off
  | Break => Brake
  | Clockwise v => CW (Z.max 1 v)
  | CounterClockwise v => CCW (Z.max 1 v)
  end.
Definition speed_ok (c : command) : Prop :=
  match c with Clockwise v | CounterClockwise v => 0 <= v < 256 | _ => True end.
(** The direction, if the motor is driven. *)
Definition direction (d : drive) : option bool :=
  match d with CW _ => Some true | CCW _ => Some false | _ => None end.
