(** TB6612FNG_Controller.h, TB6612FNG_Driver.h, TB6612FNG_DriverSerial3Wire.h: translated code. *)
Require Import ZArith List Bool.
Import ListNotations.
From Verif Require Import Base BitModel ShiftModel.
Open Scope Z_scope.

Record pins := { in1 : bool; in2 : bool; pwm : Z }.
Inductive command := Stop | Break | Clockwise (speed : Z) | CounterClockwise (speed : Z).

(** AnalogOutputPin::Write(uint8_t) hides DigitalOutputPin::Write(bool), so [_pwm.Write(true)]
    writes the PWM value 1. *)
Definition pwm_value (p : Z) : Z := if p >? 0 then p else 1.
(** TB6612FNG_Driver.h 46-59: the pin states after each of the three writes. *)
Definition send (s : pins) (a b : bool) (p : Z) : list pins :=
  [ {| in1 := a; in2 := in2 s; pwm := pwm s |};
    {| in1 := a; in2 := b; pwm := pwm s |};
    {| in1 := a; in2 := b; pwm := pwm_value p |} ].
(** TB6612FNG_Controller.h 40-66. *)
Definition command_trace (s : pins) (c : command) : list pins :=
  match c with
  | Stop => send s false false 0
  | Break => send s true true 0
  | Clockwise v => send s true false v
  | CounterClockwise v => send s false true v
  end.
Definition command_run (s : pins) (c : command) : pins := last (command_trace s c) s.
Fixpoint motor_run (s : pins) (cs : list command) : pins :=
  match cs with [] => s | c :: rest => motor_run (command_run s c) rest end.

(** TB6612FNG_DriverSerial3Wire.h 81-95 with Serial3WireOutput::Write (ShiftModel.write_forward):
    the register after the two Set calls, the pin events of the first [n] loop steps, and the PWM
    value if the call gets that far. *)
Definition send_serial (iw w i1 i2 b : Z) (a1 a2 : bool) (p : Z) (n : nat)
  : option (Z * list event * option Z) :=
  match ba_put iw w b i1 a1 with
  | Some (b1, _) =>
      match ba_put iw w b1 i2 a2 with
      | Some (b2, _) =>
          match write_forward iw w b2 n with
          | Some (es, true) => Some (b2, es, Some (pwm_value p))
          | Some (es, false) => Some (b2, es, None)
          | None => None
          end
      | None => None
      end
  | None => None
  end.
