(** C42: the TB6612FNG motor driver. *)
Require Import ZArith List Bool Lia.
Import ListNotations.
From Verif Require Import Base BitModel ShiftModel ShiftSpec MotorModel MotorSpec MotorProofs.
Open Scope Z_scope.

(** C42: after any history the chip does what the last command asks; speed 0 drives with duty 1. *)
Theorem motor_last_command : forall s cs c, speed_ok c -> drive_of (motor_run s (cs ++ [c])) = asked c.
Proof. exact motor_last_l. Qed.
(** C42: and nothing else about the history matters. *)
Theorem motor_forgets : forall s s' cs cs' c, motor_run s (cs ++ [c]) = motor_run s' (cs' ++ [c]).
Proof. exact motor_forgets_l. Qed.

(** C42: while the pins change one by one the motor is never driven in a direction that neither the
    old nor the new command asks for, except between Stop and Break. *)
Theorem motor_no_glitch : forall s c d, drive_of s = d ->
  (d = Off -> c <> Break) -> (d = Brake -> c <> Stop) ->
  Forall (fun t => direction (drive_of t) = direction d \/ direction (drive_of t) = direction (asked c) \/
                   direction (drive_of t) = None) (command_trace s c).
Proof. exact motor_no_glitch_l. Qed.
(** C42, finding: Break after Stop passes through clockwise, Stop after Break through
    counter-clockwise, with the PWM of the last command. *)
Theorem motor_glitch_refuted : forall s,
  map drive_of (command_trace (command_run s Stop) Break) = [CW 1; Brake; Brake] /\
  map drive_of (command_trace (command_run s Break) Stop) = [CCW 1; Off; Off].
Proof. intros s. split; reflexivity. Qed.

(** C42, finding: speed 0 cannot be told from speed 1. *)
Theorem motor_speed_zero_refuted : forall s,
  command_run s (Clockwise 0) = command_run s (Clockwise 1) /\
  drive_of (command_run s (Clockwise 0)) = CW 1.
Proof. intros s. split; reflexivity. Qed.

(** C42, finding: over Serial3WireOutput Send sets the two bits in the shared register but then never
    returns: the outputs do not change and the PWM is never written. *)
Theorem motor_serial_refuted : forall iw w i1 i2 b a1 a2 p n c, 1 <= w <= iw -> w <= 255 -> 0 <= b < 2 ^ w ->
  0 <= i1 < w -> 0 <= i2 < w -> i1 <> i2 ->
  exists b' es, send_serial iw w i1 i2 b a1 a2 p n = Some (b', es, None) /\ outs (chip_run c es) = outs c /\
    forall j, 0 <= j < w -> Z.testbit b' j = if j =? i1 then a1 else if j =? i2 then a2 else Z.testbit b j.
Proof. exact send_serial_l. Qed.

Example motor_ex : forall s,
  motor_run s [Clockwise 200; CounterClockwise 30] = {| in1 := false; in2 := true; pwm := 30 |} /\
  map drive_of (command_trace (command_run s (Clockwise 200)) (CounterClockwise 30)) = [Off; CCW 200; CCW 30].
Proof. intros s. split; reflexivity. Qed.

Print Assumptions motor_last_command.
Print Assumptions motor_forgets.
Print Assumptions motor_no_glitch.
Print Assumptions motor_glitch_refuted.
Print Assumptions motor_speed_zero_refuted.
Print Assumptions motor_serial_refuted.
