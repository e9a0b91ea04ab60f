(** TB6612FNG_Controller.h over TB6612FNG_Driver.h over Arduino/DigitalOutputPin.h and AnalogOutputPin.h: motors at
    the pins of a board.  Pins are those of ArduinoModel.v. *)
Require Import ZArith List Bool.
Import ListNotations.
From Verif Require Import Base ArduinoModel MotorModel.
Open Scope Z_scope.

Record motor_pins := mkMotor { m_in1 : Z; m_in2 : Z; m_pwm : Z }.
(** TB6612FNG_Driver.h 61-64: the constructors of the members. *)
Definition motor_new (x : motor_pins) : list pop := [POut (m_in1 x); POut (m_in2 x); POut (m_pwm x)].
(** TB6612FNG_Driver.h 46-59. *)
Definition motor_send (x : motor_pins) (a b : bool) (p : Z) : list pop :=
  [PWrite (m_in1 x) a; PWrite (m_in2 x) b; if p >? 0 then PAnalog (m_pwm x) p else PAnalog (m_pwm x) 1].
(** TB6612FNG_Controller.h 40-66. *)
Definition motor_call (x : motor_pins) (c : command) : list pop :=
  match c with
  | Stop => motor_send x false false 0
  | Break => motor_send x true true 0
  | Clockwise v => motor_send x true false v
  | CounterClockwise v => motor_send x false true v
  end.
(** A program with the motors [xs]. *)
Inductive mop := MCommand (k : nat) (c : command) | MOther (o : pop).
Definition mop_calls (xs : list motor_pins) (o : mop) : list pop :=
  match o with
  | MCommand k c => match nth_error xs k with Some x => motor_call x c | None => [] end
  | MOther o => [o]
  end.
Section Motors.
Variable timer : Z -> bool.
Variable outside : Z -> bool -> bool.
Definition motors_new (b : board) (xs : list motor_pins) : board := fst (p_run timer outside b (flat_map motor_new xs)).
Definition motors_run (b : board) (xs : list motor_pins) (ops : list mop) : board :=
  fst (p_run timer outside b (flat_map (mop_calls xs) ops)).
End Motors.
