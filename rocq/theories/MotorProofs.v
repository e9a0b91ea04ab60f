Require Import ZArith List Bool Lia ZifyBool.
Import ListNotations.
From Verif Require Import Base BaseFacts BitModel BitSpec BitProofs ShiftModel ShiftSpec ShiftProofs MotorModel MotorSpec.
Open Scope Z_scope.

Lemma pwm_value_l : forall v, 0 <= v -> pwm_value v = Z.max 1 v.
Proof. intros v H. unfold pwm_value. destruct (v >? 0) eqn:E; lia. Qed.

Lemma command_run_l : forall s c, speed_ok c -> drive_of (command_run s c) = asked c /\
  pwm (command_run s c) = match c with Clockwise v | CounterClockwise v => Z.max 1 v | _ => 1 end.
Proof. intros s [| |v|v] H; cbn in *; rewrite ?pwm_value_l by lia; split; reflexivity. Qed.

Lemma motor_run_app : forall cs s c, motor_run s (cs ++ [c]) = command_run (motor_run s cs) c.
Proof. induction cs as [|a cs IH]; intros s c; [reflexivity|]. apply IH. Qed.

Lemma motor_last_l : forall s cs c, speed_ok c -> drive_of (motor_run s (cs ++ [c])) = asked c.
Proof. intros s cs c H. rewrite motor_run_app. apply command_run_l; assumption. Qed.

Lemma motor_forgets_l : forall s s' cs cs' c, motor_run s (cs ++ [c]) = motor_run s' (cs' ++ [c]).
Proof. intros s s' cs cs' c. rewrite !motor_run_app. destruct c; reflexivity. Qed.

Lemma motor_no_glitch_l : forall s c d, drive_of s = d -> 
  (d = Off -> c <> Break) -> (d = Brake -> c <> Stop) ->
  Forall (fun t => direction (drive_of t) = direction d \/ direction (drive_of t) = direction (asked c) \/
                   direction (drive_of t) = None) (command_trace s c).
Proof.
  intros [a b p] c d <- H1 H2. unfold drive_of in *.
  destruct a, b, c; cbn in *; try (exfalso; apply H1; reflexivity); try (exfalso; apply H2; reflexivity);
    repeat (apply Forall_cons || apply Forall_nil); cbn; auto.
Qed.

Lemma ba_put_ok : forall iw w b i v, 1 <= w <= iw -> 0 <= b < 2 ^ w -> 0 <= i < w ->
  exists b', ba_put iw w b i v = Some (b', true) /\ 0 <= b' < 2 ^ w /\
    forall j, 0 <= j < w -> Z.testbit b' j = if j =? i then v else Z.testbit b j.
Proof.
  intros iw w b i v Hw Hb Hi. unfold ba_put, ba_valid. replace (i + 1 <=? w) with true by lia. cbn [negb].
  destruct (one_bits iw w i) as (s & E & Hs); [unfold mask_ok; lia|]. rewrite E.
  eexists. split; [reflexivity|]. split; [destruct v; apply un_range; lia|].
  intros j Hj. assert (J : j <? w = true) by lia.
  destruct v; rewrite testbit_un, ?Z.lor_spec, ?testbit_un, ?Z.land_spec, ?Z.lnot_spec, ?testbit_un by lia;
      rewrite J, Hs by lia; destruct (j =? i), (Z.testbit b j); reflexivity.
Qed.

Lemma send_serial_l : forall iw w i1 i2 b a1 a2 p n c, 1 <= w <= iw -> w <= 255 -> 0 <= b < 2 ^ w ->
  0 <= i1 < w -> 0 <= i2 < w -> i1 <> i2 ->
  exists b' es, send_serial iw w i1 i2 b a1 a2 p n = Some (b', es, None) /\ outs (chip_run c es) = outs c /\
    forall j, 0 <= j < w -> Z.testbit b' j = if j =? i1 then a1 else if j =? i2 then a2 else Z.testbit b j.
Proof.
  intros iw w i1 i2 b a1 a2 p n c Hw Hw2 Hb H1 H2 N. unfold send_serial.
  destruct (ba_put_ok iw w b i1 a1 Hw Hb H1) as (b1 & E1 & R1 & T1). rewrite E1.
  destruct (ba_put_ok iw w b1 i2 a2 Hw R1 H2) as (b2 & E2 & R2 & T2). rewrite E2.
  destruct (write_forward_l iw w b2 n c Hw Hw2 R2) as (es & E & O). rewrite E.
  exists b2, es. split; [reflexivity|]. split; [exact O|].
  intros j Hj. rewrite T2, T1 by lia. destruct (Z.eqb_spec j i1), (Z.eqb_spec j i2); try reflexivity. lia.
Qed.
