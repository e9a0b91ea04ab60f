(** C83: motors at the pins of a board. *)
Require Import ZArith List Bool Lia.
Import ListNotations.
From Verif Require Import Base ArduinoModel ArduinoSpec ArduinoProofs MotorModel MotorSpec MotorPinModel MotorPinSpec MotorPinProofs.
Open Scope Z_scope.

(** Any number of motors at different pins, and any program that does nothing else with these pins: each motor does
    what the last command to it asks. *)
Theorem motor_pins_command : forall timer outside xs k x b ops, wired timer xs -> nth_error xs k = Some x -> sane timer b ->
  (forall n, In n (flat_map motor_list xs) -> p_pwm (b n) = None) -> Forall (mop_ok xs) ops ->
  let b1 := motors_new timer outside b xs in
  channel x (motors_run timer outside b1 xs ops) = wanted (channel x b1) (commands k ops).
Proof.
  intros timer outside xs k x b ops W K S P F b1. destruct (new_l timer outside xs k x b K S P) as (S1 & R1 & _).
  apply (run_l timer outside xs k x ops b1 W K S1 R1 F).
Qed.
Print Assumptions motor_pins_command.

(** And goes on doing so during every single pin call that is not for it. *)
Theorem motor_pins_steady : forall timer outside xs k x b before ops, wired timer xs -> nth_error xs k = Some x -> sane timer b ->
  (forall n, In n (flat_map motor_list xs) -> p_pwm (b n) = None) -> Forall (mop_ok xs) (before ++ ops) -> commands k ops = [] ->
  let b1 := motors_new timer outside b xs in
  Forall (fun b' => channel x b' = wanted (channel x b1) (commands k before))
    (p_trace timer outside (motors_run timer outside b1 xs before) (flat_map (mop_calls xs) ops)).
Proof.
  intros timer outside xs k x b before ops W K S P F C b1. destruct (new_l timer outside xs k x b K S P) as (S1 & R1 & _).
  apply Forall_app in F as [F1 F2]. destruct (run_l timer outside xs k x before b1 W K S1 R1 F1) as (S2 & _ & C2).
  rewrite <- C2. apply (steady_l timer outside xs k x ops _ W K S2 F2 C).
Qed.
Print Assumptions motor_pins_steady.

(** After a reset a motor is off through all constructors, up to its first command. *)
Theorem motor_pins_off : forall timer outside xs k x ops, wired timer xs -> nth_error xs k = Some x -> Forall (mop_ok xs) ops -> commands k ops = [] ->
  channel x reset = Off /\ Forall (fun b' => channel x b' = Off) (p_trace timer outside reset (flat_map motor_new xs)) /\
  Forall (fun b' => channel x b' = Off) (p_trace timer outside (motors_new timer outside reset xs) (flat_map (mop_calls xs) ops)).
Proof.
  intros timer outside xs k x ops W K F C.
  assert (Z0 : forall n, p_latch (reset n) = false /\ p_pwm (reset n) = None) by (intro n; split; reflexivity).
  assert (S : sane timer reset) by (intros n _; reflexivity).
  split; [apply low_off; exact Z0|]. split.
  - pose proof (trace_out timer outside (flat_map motor_new xs) reset (new_out xs) Z0) as T. eapply Forall_impl; [|exact T]. intros b' H. apply low_off. exact H.
  - pose proof (new_l timer outside xs k x reset K S (fun n _ => eq_refl)) as (S1 & R1 & V1 & V2).
    pose proof (motor_pins_steady timer outside xs k x reset [] ops W K S (fun n _ => eq_refl) F C) as T. cbv zeta in T. eapply Forall_impl; [|exact T].
    intros b' ->. unfold wanted. cbn [commands flat_map map last]. apply low_off. intro n.
    destruct (in_dec Z.eq_dec n (flat_map motor_list xs)) as [I|I]; [rewrite (V1 n I)|rewrite (V2 n I)]; split; reflexivity.
Qed.
Print Assumptions motor_pins_off.

(** While the three pins change, a motor never turns in a direction neither the old nor the new command asks for,
    except between Stop and Break. *)
Theorem motor_pins_no_glitch : forall timer outside xs k x b ops c, wired timer xs -> nth_error xs k = Some x -> sane timer b ->
  (forall n, In n (flat_map motor_list xs) -> p_pwm (b n) = None) -> Forall (mop_ok xs) ops -> speed_ok c ->
  let b1 := motors_new timer outside b xs in let d := wanted (channel x b1) (commands k ops) in
  (d = Off -> c <> Break) -> (d = Brake -> c <> Stop) ->
  Forall (fun b' => direction (channel x b') = direction d \/ direction (channel x b') = direction (asked c) \/ direction (channel x b') = None)
    (p_trace timer outside (motors_run timer outside b1 xs ops) (mop_calls xs (MCommand k c))).
Proof.
  intros timer outside xs k x b ops c W K S P F C b1 d G1 G2. destruct (new_l timer outside xs k x b K S P) as (S1 & R1 & _).
  destruct (run_l timer outside xs k x ops b1 W K S1 R1 F) as (S2 & R2 & C2). fold d in C2. cbn [mop_calls]. rewrite K. rewrite <- C2 in *.
  destruct W as [N T]. rewrite Forall_forall in T. apply glitch_l; try assumption.
  - apply (own_nodup xs k x N K).
  - apply T, (nth_error_In _ _ K).
  - intros H1 H2. apply G2. unfold channel. rewrite H1, H2. reflexivity.
Qed.
Print Assumptions motor_pins_no_glitch.

(** The PWM pin must be on a timer: at another pin speeds below 128 brake and the others are full speed. *)
Theorem motor_pins_untimed : forall timer outside x b v, NoDup (motor_list x) -> timer (m_pwm x) = false -> sane timer b ->
  (forall n, In n (motor_list x) -> p_pwm (b n) = None) -> 0 <= v < 256 ->
  let b1 := motors_new timer outside b [x] in
  channel x (motors_run timer outside b1 [x] [MCommand 0 (Clockwise v)]) = (if v <? 128 then Brake else CW 255) /\
  channel x (motors_run timer outside b1 [x] [MCommand 0 (CounterClockwise v)]) = (if v <? 128 then Brake else CCW 255).
Proof.
  intros timer outside x b v N T S P V b1.
  assert (P' : forall n, In n (flat_map motor_list [x]) -> p_pwm (b n) = None) by (intros n I; apply P; cbn [flat_map] in I; rewrite app_nil_r in I; exact I).
  destruct (new_l timer outside [x] 0 x b eq_refl S P') as (S1 & R1 & _). unfold motors_run. cbn [flat_map mop_calls nth_error]. rewrite !app_nil_r.
  apply untimed_l; assumption.
Qed.
Print Assumptions motor_pins_untimed.

(** Finding, as C42: from Stop to Break the motor turns for a moment, and back. *)
Theorem motor_pins_glitch_refuted : exists timer x, wired timer [x] /\ forall outside,
  let b1 := motors_new timer outside reset [x] in
  map (channel x) (p_trace timer outside b1 (flat_map (mop_calls [x]) (map (MCommand 0) [Stop; Break; Stop]))) =
    [Off; Off; Off; CW 1; Brake; Brake; CCW 1; Off; Off].
Proof.
  exists (fun n => n =? 3), (mkMotor 7 8 3). split; [|intro outside; reflexivity]. split; [|repeat constructor].
  repeat constructor; cbn [In flat_map motor_list app m_in1 m_in2 m_pwm]; lia.
Qed.
Print Assumptions motor_pins_glitch_refuted.
(** Both channels of a chip. *)
Example motor_pins_example : let timer n := (n =? 3) || (n =? 5) in let xs := [mkMotor 7 8 3; mkMotor 12 13 5] in let outside (n : Z) (up : bool) := up in
  let b1 := motors_new timer outside reset xs in
  let b2 := motors_run timer outside b1 xs [MCommand 0 (Clockwise 200); MOther (PToggle 2); MCommand 1 (CounterClockwise 0); MCommand 0 Break] in
  wired timer xs /\ map (fun x => channel x b2) xs = [Brake; CCW 1].
Proof.
  cbv zeta. split; [|reflexivity]. split; [|repeat constructor]. repeat constructor; cbn [In flat_map motor_list app m_in1 m_in2 m_pwm]; lia.
Qed.
