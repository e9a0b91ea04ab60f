(** What a channel of the chip does with the signals at three pins. *)
Require Import ZArith List Bool.
Import ListNotations.
From Verif Require Import ArduinoModel ArduinoSpec MotorModel MotorSpec MotorPinModel.
Open Scope Z_scope.

(** An input of the chip: pulled down inside, weaker than the pull-up of a pin. *)
Definition high (p : pin) : bool := match signal_of p with SLevel v => v | SInput up => up | SPwm _ => true end.
(** The share of time the PWM input is high, of 255. *)
Definition duty (p : pin) : Z :=
  match signal_of p with SPwm d => d | SLevel v => if v then 255 else 0 | SInput up => if up then 255 else 0 end.
(** The truth table of the chip: with the PWM input low a motor is braked. *)
Definition channel (x : motor_pins) (b : board) : drive :=
  let d := duty (b (m_pwm x)) in
  match high (b (m_in1 x)), high (b (m_in2 x)) with
  | true, true => Brake
  | false, false => Off
  | true, false => if d =? 0 then Brake else CW d
  | false, true => if d =? 0 then Brake else CCW d
  end.
Definition motor_list (x : motor_pins) : list Z := [m_in1 x; m_in2 x; m_pwm x].
(** Motors at different pins, with PWM at pins on a timer; the program does nothing else with these pins. *)
Definition wired (timer : Z -> bool) (xs : list motor_pins) : Prop :=
  NoDup (flat_map motor_list xs) /\ Forall (fun x => timer (m_pwm x) = true) xs.
Definition mop_ok (xs : list motor_pins) (o : mop) : Prop :=
  match o with MCommand _ c => speed_ok c | MOther o => ~ In (pin_of o) (flat_map motor_list xs) end.
Definition commands (k : nat) (ops : list mop) : list command :=
  flat_map (fun o => match o with MCommand j c => if Nat.eqb j k then [c] else [] | MOther _ => [] end) ops.
(** What the last command asked for. *)
Definition wanted (d : drive) (cs : list command) : drive := last (map asked cs) d.
(** A board after reset. *)
Definition reset : board := fun _ => mkPin false false None.
