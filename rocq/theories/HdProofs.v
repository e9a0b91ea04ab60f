(** Proofs about the HD44780 protocol, controller, view, viewport and display writer. *)
Require Import ZArith List Bool Lia ZifyBool.
Import ListNotations.
From Verif Require Import Base BaseFacts BitModel BitSpec BitProofs ShiftProofs MotorProofs MidiProofs HdModel HdSpec HdIfProofs.
Open Scope Z_scope.

(** ** Function set *)
Lemma testbit4 : forall b k, 16 * k <= b < 16 * k + 16 -> Z.testbit b 4 = Z.odd k.
Proof.
  intros b k H. rewrite Z.testbit_odd, Z.shiftr_div_pow2 by lia. change (2 ^ 4) with 16. f_equal. lia.
Qed.
Lemma mode3 : forall x m, 0 <= x < 16 -> mode_after (false, 48 + x) m = M8.
Proof.
  intros x m H. unfold mode_after. replace (32 <=? 48 + x) with true by lia. replace (48 + x <? 64) with true by lia.
  cbn [negb andb]. rewrite (testbit4 _ 3) by lia. reflexivity.
Qed.
Lemma mode2 : forall x m, 0 <= x < 16 -> mode_after (false, 32 + x) m = M4.
Proof.
  intros x m H. unfold mode_after. replace (32 <=? 32 + x) with true by lia. replace (32 + x <? 64) with true by lia.
  cbn [negb andb]. rewrite (testbit4 _ 2) by lia. reflexivity.
Qed.
Lemma mode_other : forall b m, ~ (32 <= b < 64) -> mode_after (false, b) m = m.
Proof.
  intros b m H. unfold mode_after. cbn [negb andb]. replace ((32 <=? b) && (b <? 64)) with false by lia. reflexivity.
Qed.

Section P.
Variable lo : Z.
Hypothesis Hlo : 0 <= lo < 16.

Lemma whole_edges : forall os r, Forall whole os -> edges lo M4 (all_nibs r os) = (M4, map byte_of os).
Proof.
  induction os as [|o os IH]; intros r F; [reflexivity|]. inversion F; subst. cbn [all_nibs map].
  destruct o as [b|b|n]; cbn [whole] in *; [| |contradiction]; cbn [nibs rs_after app edges edge byte_of].
  - replace (16 * (b / 16) + b mod 16) with b by (clear - H1; lia).
    assert (E : mode_after (false, b) M4 = M4).
    { destruct (Z_le_gt_dec 32 b) as [G|G]; [|apply mode_other; lia].
      destruct (Z_lt_ge_dec b 64) as [G2|G2]; [|apply mode_other; lia].
      replace b with (32 + (b - 32)) by lia. apply mode2. lia. }
    rewrite E, IH by assumption. reflexivity.
  - replace (16 * (b / 16) + b mod 16) with b by (clear - H1; lia). cbn [mode_after negb andb]. rewrite IH by assumption. reflexivity.
Qed.


(** Three nibbles 3 and a nibble 2 with RS low bring any display into 4-bit mode. *)
Lemma edges_step : forall m r n rest m1 t m2 ts, edge lo m r n = (m1, t) -> edges lo m1 rest = (m2, ts) ->
  edges lo m ((r, n) :: rest) = (m2, t ++ ts).
Proof. intros m r n rest m1 t m2 ts E F. cbn [edges]. rewrite E, F. reflexivity. Qed.
Lemma step8_3 : edge lo M8 false 3 = (M8, [(false, 48 + lo)]).
Proof. unfold edge. change (16 * 3 + lo) with (48 + lo). rewrite (mode3 lo _ Hlo). reflexivity. Qed.
Lemma step8_2 : edge lo M8 false 2 = (M4, [(false, 32 + lo)]).
Proof. unfold edge. change (16 * 2 + lo) with (32 + lo). rewrite (mode2 lo _ Hlo). reflexivity. Qed.
Lemma init_edges : forall m, mode_ok m ->
  exists ts, edges lo m [(false, 3); (false, 3); (false, 3); (false, 2)] = (M4, ts).
Proof.
  intros m Hm. destruct m as [| |h].
  - eexists. repeat (eapply edges_step; [first [apply step8_3|apply step8_2]|]). reflexivity.
  - eexists. do 2 (eapply edges_step; [reflexivity|]).
    repeat (eapply edges_step; [first [apply step8_3|apply step8_2]|]). reflexivity.
  - cbn [mode_ok] in Hm. destruct (Z.eq_dec h 3) as [->|N].
    + eexists. eapply edges_step; [reflexivity|].
      repeat (eapply edges_step; [first [apply step8_3|apply step8_2]|]). reflexivity.
    + assert (K : mode_after (false, 16 * h + 3) M4 = M4).
      { destruct (Z.eq_dec h 2) as [->|N2]; [reflexivity|]. apply mode_other. lia. }
      eexists. eapply edges_step; [cbn [edge]; rewrite K; reflexivity|].
      do 2 (eapply edges_step; [reflexivity|]). eapply edges_step; [apply step8_2|]. reflexivity.
Qed.

Lemma init_then : forall m os, mode_ok m -> Forall whole os ->
  exists ts, edges lo m (all_nibs false (init_ops ++ os)) = (M4, ts ++ map byte_of os).
Proof.
  intros m os Hm F. destruct (init_edges m Hm) as [ts E]. exists ts.
  change (all_nibs false (init_ops ++ os)) with ([(false, 3); (false, 3); (false, 3); (false, 2)] ++ all_nibs false os).
  rewrite edges_app, E. rewrite whole_edges by exact F. reflexivity.
Qed.

(** With RS high they are data: a display out of step stays out of step. *)
Lemma init_rs_high : forall h, 0 <= h < 16 ->
  fst (edges lo (M4half h) (all_nibs true (init_ops ++ [DCmd 40; DCmd 1; DCmd 2]))) = M4half 2.
Proof. intros h Hh. reflexivity. Qed.
End P.

(** ** Controller *)
Definition ctl_rel (s : settings) (r : Z) : Prop :=
  0 <= r < 256 /\ Z.testbit r 0 = s_blink s /\ Z.testbit r 1 = s_curs s /\ Z.testbit r 2 = s_disp s /\
  Z.testbit r 3 = s_shift s /\ Z.testbit r 4 = s_left s.
Definition dev_rel (s : settings) (d : lcd) : Prop :=
  disp d = s_disp s /\ curs d = s_curs s /\ blink d = s_blink s /\ shift d = s_shift s.

Lemma dc_bits : forall r, 0 <= r < 256 -> 8 <= display_control r < 16 /\
  Z.testbit (display_control r) 0 = Z.testbit r 0 /\ Z.testbit (display_control r) 1 = Z.testbit r 1 /\
  Z.testbit (display_control r) 2 = Z.testbit r 2.
Proof.
  intros r H.
  pose proof (zseq_all (fun r => (8 <=? display_control r) && (display_control r <? 16) &&
    Bool.eqb (Z.testbit (display_control r) 0) (Z.testbit r 0) && Bool.eqb (Z.testbit (display_control r) 1) (Z.testbit r 1) &&
    Bool.eqb (Z.testbit (display_control r) 2) (Z.testbit r 2)) 256 0 eq_refl r ltac:(lia)) as A.
  cbv beta in A. rewrite !andb_true_iff, !eqb_true_iff in A. destruct A as ((((A1 & A2) & A3) & A4) & A5). repeat split; auto; lia.
Qed.
Lemma em_bits : forall r, 0 <= r < 256 -> 4 <= entry_mode r < 8 /\
  Z.testbit (entry_mode r) 0 = Z.testbit r 3 /\ Z.testbit (entry_mode r) 1 = Z.testbit r 4.
Proof.
  intros r H.
  pose proof (zseq_all (fun r => (4 <=? entry_mode r) && (entry_mode r <? 8) &&
    Bool.eqb (Z.testbit (entry_mode r) 0) (Z.testbit r 3) && Bool.eqb (Z.testbit (entry_mode r) 1) (Z.testbit r 4)) 256 0 eq_refl r ltac:(lia)) as A.
  cbv beta in A. rewrite !andb_true_iff, !eqb_true_iff in A. destruct A as (((A1 & A2) & A3) & A4). repeat split; auto; lia.
Qed.
Lemma lor128 : forall a, 0 <= a < 256 -> Z.lor a 128 = 128 + a mod 128.
Proof.
  intros a H. pose proof (zseq_all (fun a => Z.lor a 128 =? 128 + a mod 128) 256 0 eq_refl a ltac:(lia)) as A. cbv beta in A. lia.
Qed.
Lemma lor64 : forall a, 0 <= a < 256 -> Z.lor (Z.land a 63) 64 = 64 + a mod 64.
Proof.
  intros a H. pose proof (zseq_all (fun a => Z.lor (Z.land a 63) 64 =? 64 + a mod 64) 256 0 eq_refl a ltac:(lia)) as A. cbv beta in A. lia.
Qed.

Lemma exec_addr : forall d b, 128 <= b < 256 -> exec d (false, b) =
  {| mem := mem d; ac := b - 128; cg := false; inc := inc d; shift := shift d; disp := disp d; curs := curs d; blink := blink d; off := off d |}.
Proof. intros d b H. unfold exec. replace (b >=? 128) with true by lia. reflexivity. Qed.
Lemma exec_cg : forall d b, 64 <= b < 128 -> exec d (false, b) =
  {| mem := mem d; ac := b - 64; cg := true; inc := inc d; shift := shift d; disp := disp d; curs := curs d; blink := blink d; off := off d |}.
Proof. intros d b H. unfold exec. replace (b >=? 128) with false by lia. replace (b >=? 64) with true by lia. reflexivity. Qed.
Lemma exec_ctrl : forall d b, 8 <= b < 16 -> exec d (false, b) =
  {| mem := mem d; ac := ac d; cg := cg d; inc := inc d; shift := shift d;
     disp := Z.testbit b 2; curs := Z.testbit b 1; blink := Z.testbit b 0; off := off d |}.
Proof.
  intros d b H. unfold exec. replace (b >=? 128) with false by lia. replace (b >=? 64) with false by lia.
  replace (b >=? 32) with false by lia. replace (b >=? 16) with false by lia. replace (b >=? 8) with true by lia. reflexivity.
Qed.
Lemma exec_entry : forall d b, 4 <= b < 8 -> exec d (false, b) =
  {| mem := mem d; ac := ac d; cg := cg d; inc := Z.testbit b 1; shift := Z.testbit b 0; disp := disp d; curs := curs d; blink := blink d; off := off d |}.
Proof.
  intros d b H. unfold exec. replace (b >=? 128) with false by lia. replace (b >=? 64) with false by lia.
  replace (b >=? 32) with false by lia. replace (b >=? 16) with false by lia. replace (b >=? 8) with false by lia.
  replace (b >=? 4) with true by lia. reflexivity.
Qed.
Lemma exec_data : forall d b, cg d = false -> exec d (true, b) =
  {| mem := upd (mem d) (ac d) b; ac := ac_next (inc d) (ac d); cg := false; inc := inc d; shift := shift d;
     disp := disp d; curs := curs d; blink := blink d;
     off := if shift d then (if inc d then off d + 1 else off d - 1) else off d |}.
Proof. intros d b H. unfold exec. rewrite H. reflexivity. Qed.

Section C.
Variable iw : Z.
Hypothesis iw8 : 8 <= iw.

Lemma put8_l : forall r i v, 0 <= r < 256 -> 0 <= i < 8 ->
  exists r', put8 iw r i v = Some r' /\ 0 <= r' < 256 /\ forall j, 0 <= j < 8 -> Z.testbit r' j = if j =? i then v else Z.testbit r j.
Proof.
  intros r i v Hr Hi. unfold put8. destruct (ba_put_ok iw 8 r i v ltac:(lia) ltac:(lia) Hi) as (r' & E & R & T).
  rewrite E. cbn [bindo fst]. exists r'. split; [reflexivity|]. split; [lia|exact T].
Qed.

Lemma whole_dc : forall r, 0 <= r < 256 -> Forall whole [DCmd (display_control r)].
Proof. intros r H. destruct (dc_bits r H). constructor; [|constructor]. cbn. lia. Qed.
Lemma whole_em : forall r, 0 <= r < 256 -> Forall whole [DCmd (entry_mode r)].
Proof. intros r H. destruct (em_bits r H). constructor; [|constructor]. cbn. lia. Qed.

Lemma dev_dc : forall s r d, ctl_rel s r -> shift d = s_shift s -> dev_rel s (exec_all d (map byte_of [DCmd (display_control r)])).
Proof.
  intros s r d (R & B0 & B1 & B2 & B3 & B4) Hs. destruct (dc_bits r R) as (D & D0 & D1 & D2).
  cbn [map byte_of exec_all fold_left]. rewrite exec_ctrl by lia. unfold dev_rel. cbn [disp curs blink shift inc]. rewrite D0, D1, D2. auto.
Qed.
Lemma dev_em : forall s r d, ctl_rel s r -> disp d = s_disp s -> curs d = s_curs s -> blink d = s_blink s ->
  dev_rel s (exec_all d (map byte_of [DCmd (entry_mode r)])) /\ inc (exec_all d (map byte_of [DCmd (entry_mode r)])) = s_left s.
Proof.
  intros s r d (R & B0 & B1 & B2 & B3 & B4) H1 H2 H3. destruct (em_bits r R) as (D & D0 & D1).
  cbn [map byte_of exec_all fold_left]. rewrite exec_entry by lia. unfold dev_rel. cbn [disp curs blink shift inc]. rewrite D0, D1. auto.
Qed.

Ltac rel_tac T := unfold ctl_rel in *; cbn [s_disp s_curs s_blink s_left s_shift] in *; split; [lia|]; rewrite ?T by lia; cbn; tauto.

Lemma ctl_op_l : forall s r d o, ctl_rel s r -> dev_rel s d -> no_init o -> cop_ok o ->
  exists r' ds, ctl_op iw r o = Some (r', ds) /\ ctl_rel (set_op s o) r' /\ Forall whole ds /\
    dev_rel (set_op s o) (exec_all d (map byte_of ds)) /\
    (entry_call o -> inc (exec_all d (map byte_of ds)) = s_left (set_op s o)) /\
    (~ entry_call o -> no_clear o -> inc (exec_all d (map byte_of ds)) = inc d /\ s_left (set_op s o) = s_left s).
Proof.
  intros s r d o K V N O. pose proof K as (R & B0 & B1 & B2 & B3 & B4). pose proof V as (V1 & V2 & V3 & V4).
  destruct o as [full| | |v|v|v|dd cc bb|lf|v|lf v|a|a|dd rt]; cbn [ctl_op set_op entry_call no_clear no_init cop_ok] in *.
  - destruct full; [contradiction|]. cbn [app]. exists r, [DCmd 1; DCmd 2]. repeat split; auto; try lia; try tauto.
    repeat constructor; cbn; lia.
  - exists r, [DCmd 1]. repeat split; auto; try lia; try tauto. repeat constructor; cbn; lia.
  - exists r, [DCmd 2]. repeat split; auto; try lia; try tauto. repeat constructor; cbn; lia.
  - destruct (put8_l r 0 v R ltac:(lia)) as (r1 & E1 & R1 & T1). rewrite E1. cbn [bindo].
    match goal with |- exists r' ds, _ /\ ctl_rel ?s' _ /\ _ => assert (K1 : ctl_rel s' r1) by (rel_tac T1) end.
    exists r1, [DCmd (display_control r1)]. split; [reflexivity|]. split; [exact K1|]. split; [apply whole_dc; exact R1|].
    split; [apply (dev_dc _ _ d K1 V4)|]. split; [tauto|]. intros _ _. split; [|reflexivity].
    cbn [map byte_of exec_all fold_left]. rewrite exec_ctrl by (apply dc_bits; exact R1). reflexivity.
  - destruct (put8_l r 1 v R ltac:(lia)) as (r1 & E1 & R1 & T1). rewrite E1. cbn [bindo].
    match goal with |- exists r' ds, _ /\ ctl_rel ?s' _ /\ _ => assert (K1 : ctl_rel s' r1) by (rel_tac T1) end.
    exists r1, [DCmd (display_control r1)]. split; [reflexivity|]. split; [exact K1|]. split; [apply whole_dc; exact R1|].
    split; [apply (dev_dc _ _ d K1 V4)|]. split; [tauto|]. intros _ _. split; [|reflexivity].
    cbn [map byte_of exec_all fold_left]. rewrite exec_ctrl by (apply dc_bits; exact R1). reflexivity.
  - destruct (put8_l r 2 v R ltac:(lia)) as (r1 & E1 & R1 & T1). rewrite E1. cbn [bindo].
    match goal with |- exists r' ds, _ /\ ctl_rel ?s' _ /\ _ => assert (K1 : ctl_rel s' r1) by (rel_tac T1) end.
    exists r1, [DCmd (display_control r1)]. split; [reflexivity|]. split; [exact K1|]. split; [apply whole_dc; exact R1|].
    split; [apply (dev_dc _ _ d K1 V4)|]. split; [tauto|]. intros _ _. split; [|reflexivity].
    cbn [map byte_of exec_all fold_left]. rewrite exec_ctrl by (apply dc_bits; exact R1). reflexivity.
  - destruct (put8_l r 0 bb R ltac:(lia)) as (r1 & E1 & R1 & T1). rewrite E1. cbn [bindo].
    destruct (put8_l r1 1 cc R1 ltac:(lia)) as (r2 & E2 & R2 & T2). rewrite E2. cbn [bindo].
    destruct (put8_l r2 2 dd R2 ltac:(lia)) as (r3 & E3 & R3 & T3). rewrite E3. cbn [bindo].
    match goal with |- exists r' ds, _ /\ ctl_rel ?s' _ /\ _ => assert (K1 : ctl_rel s' r3) end.
    { unfold ctl_rel; cbn [s_disp s_curs s_blink s_left s_shift]. split; [lia|]. rewrite !T3, !T2, !T1 by lia. cbn. tauto. }
    exists r3, [DCmd (display_control r3)]. split; [reflexivity|]. split; [exact K1|]. split; [apply whole_dc; exact R3|].
    split; [apply (dev_dc _ _ d K1 V4)|]. split; [tauto|]. intros _ _. split; [|reflexivity].
    cbn [map byte_of exec_all fold_left]. rewrite exec_ctrl by (apply dc_bits; exact R3). reflexivity.
  - destruct (put8_l r 4 lf R ltac:(lia)) as (r1 & E1 & R1 & T1). rewrite E1. cbn [bindo].
    match goal with |- exists r' ds, _ /\ ctl_rel ?s' _ /\ _ => assert (K1 : ctl_rel s' r1) by (rel_tac T1) end.
    exists r1, [DCmd (entry_mode r1)]. split; [reflexivity|]. split; [exact K1|]. split; [apply whole_em; exact R1|].
    destruct (dev_em _ _ d K1 V1 V2 V3). split; [assumption|]. split; [auto|tauto].
  - destruct (put8_l r 3 v R ltac:(lia)) as (r1 & E1 & R1 & T1). rewrite E1. cbn [bindo].
    match goal with |- exists r' ds, _ /\ ctl_rel ?s' _ /\ _ => assert (K1 : ctl_rel s' r1) by (rel_tac T1) end.
    exists r1, [DCmd (entry_mode r1)]. split; [reflexivity|]. split; [exact K1|]. split; [apply whole_em; exact R1|].
    destruct (dev_em _ _ d K1 V1 V2 V3). split; [assumption|]. split; [auto|tauto].
  - destruct (put8_l r 4 lf R ltac:(lia)) as (r1 & E1 & R1 & T1). rewrite E1. cbn [bindo].
    destruct (put8_l r1 3 v R1 ltac:(lia)) as (r2 & E2 & R2 & T2). rewrite E2. cbn [bindo].
    match goal with |- exists r' ds, _ /\ ctl_rel ?s' _ /\ _ => assert (K1 : ctl_rel s' r2) end.
    { unfold ctl_rel; cbn [s_disp s_curs s_blink s_left s_shift]. split; [lia|]. rewrite !T2, !T1 by lia. cbn. tauto. }
    exists r2, [DCmd (entry_mode r2)]. split; [reflexivity|]. split; [exact K1|]. split; [apply whole_em; exact R2|].
    destruct (dev_em _ _ d K1 V1 V2 V3). split; [assumption|]. split; [auto|tauto].
  - exists r, [DCmd (Z.lor a 128)]. rewrite lor128 by lia. assert (0 <= a mod 128 < 128) by (apply Z.mod_pos_bound; lia).
    split; [reflexivity|]. split; [exact K|]. split; [constructor; [cbn [whole]; lia|constructor]|].
    cbn [map byte_of exec_all fold_left]. rewrite exec_addr by (clear - H; lia). repeat split; auto; try tauto.
  - exists r, [DCmd (Z.lor (Z.land a 63) 64)]. rewrite lor64 by lia. assert (0 <= a mod 64 < 64) by (apply Z.mod_pos_bound; lia).
    split; [reflexivity|]. split; [exact K|]. split; [constructor; [cbn [whole]; lia|constructor]|].
    cbn [map byte_of exec_all fold_left]. rewrite exec_cg by (clear - H; lia). repeat split; auto; try tauto.
  - exists r. destruct dd, rt; (eexists; split; [reflexivity|]; split; [exact K|]; split; [constructor; [cbn; lia|constructor]|];
      split; [exact V|]; split; [tauto|]; intros _ _; split; reflexivity).
Qed.

Lemma exec_all_app : forall a b d, exec_all d (a ++ b) = exec_all (exec_all d a) b.
Proof. intros a b d. apply fold_left_app. Qed.

Lemma ctl_run_l : forall os s r d, ctl_rel s r -> dev_rel s d -> Forall no_init os -> Forall cop_ok os ->
  exists r' ds, ctl_run iw r os = Some (r', ds) /\ ctl_rel (set_all s os) r' /\ Forall whole ds /\
    dev_rel (set_all s os) (exec_all d (map byte_of ds)) /\
    (inc d = s_left s -> Forall no_clear os -> inc (exec_all d (map byte_of ds)) = s_left (set_all s os)).
Proof.
  induction os as [|o os IH]; intros s r d K V N O; cbn [ctl_run].
  - exists r, []. split; [reflexivity|]. split; [exact K|]. split; [constructor|]. split; [exact V|]. auto.
  - inversion N; subst. inversion O; subst.
    destruct (ctl_op_l s r d o K V H1 H3) as (r1 & d1 & E1 & K1 & W1 & V1 & I1 & J1). rewrite E1. cbn [bindo fst snd].
    destruct (IH (set_op s o) r1 (exec_all d (map byte_of d1)) K1 V1 H2 H4) as (r2 & d2 & E2 & K2 & W2 & V2 & I2).
    rewrite E2. cbn [bindo fst snd].
    exists r2, (d1 ++ d2). split; [reflexivity|]. split; [exact K2|]. split; [apply Forall_app; auto|].
    rewrite map_app, exec_all_app. split; [exact V2|].
    intros Hi F. inversion F; subst. apply I2; [|assumption].
    assert (D : entry_call o \/ ~ entry_call o) by (destruct o; cbn; tauto).
    destruct D as [D|D]; [exact (I1 D)|]. destruct (J1 D ltac:(assumption)). congruence.
Qed.

Lemma ctl_run_app : forall a b r r1 d1, ctl_run iw r a = Some (r1, d1) ->
  ctl_run iw r (a ++ b) = bindo (ctl_run iw r1 b) (fun x => Some (fst x, d1 ++ snd x)).
Proof.
  induction a as [|o a IH]; intros b r r1 d1 E.
  - injection E as <- <-. cbn [app]. destruct (ctl_run iw r b) as [[? ?]|]; reflexivity.
  - cbn [app ctl_run] in *. destruct (ctl_op iw r o) as [[r2 d2]|]; [|discriminate]. cbn [bindo fst snd] in *.
    destruct (ctl_run iw r2 a) as [[r3 d3]|] eqn:F; [|discriminate]. cbn [bindo fst snd] in E. injection E as <- <-.
    rewrite (IH b r2 r3 d3 F). destruct (ctl_run iw r3 b) as [[? ?]|]; [|reflexivity]. cbn [bindo fst snd]. rewrite app_assoc. reflexivity.
Qed.

Lemma ctl_settings_l : forall os, Forall no_init os -> Forall cop_ok os ->
  exists r ds, ctl_run iw 0 os = Some (r, ds) /\ Forall whole ds /\
    let s := set_all settings_new os in let d := exec_all lcd_new (map byte_of ds) in
    ctl_get iw r 0 = Some (s_blink s) /\ ctl_get iw r 1 = Some (s_curs s) /\ ctl_get iw r 2 = Some (s_disp s) /\
    ctl_get iw r 3 = Some (s_shift s) /\ ctl_get iw r 4 = Some (s_left s) /\
    disp d = s_disp s /\ curs d = s_curs s /\ blink d = s_blink s /\ shift d = s_shift s.
Proof.
  intros os N O.
  assert (K0 : ctl_rel settings_new 0) by (repeat split; lia).
  assert (V0 : dev_rel settings_new lcd_new) by (repeat split).
  destruct (ctl_run_l os settings_new 0 lcd_new K0 V0 N O) as (r & ds & E & (R & B0 & B1 & B2 & B3 & B4) & W & (V1 & V2 & V3 & V4) & _).
  exists r, ds. split; [exact E|]. split; [exact W|]. cbv zeta. unfold ctl_get.
  rewrite !ba_true_ok by lia. rewrite B0, B1, B2, B3, B4. auto 12.
Qed.

Lemma ctl_entry_l : forall os o os2, Forall no_init (os ++ o :: os2) -> Forall cop_ok (os ++ o :: os2) -> entry_call o -> Forall no_clear os2 ->
  exists r ds, ctl_run iw 0 (os ++ o :: os2) = Some (r, ds) /\
    inc (exec_all lcd_new (map byte_of ds)) = s_left (set_all settings_new (os ++ o :: os2)).
Proof.
  intros os o os2 N O Eo C.
  assert (K0 : ctl_rel settings_new 0) by (repeat split; lia).
  assert (V0 : dev_rel settings_new lcd_new) by (repeat split).
  apply Forall_app in N. destruct N as [N1 N2]. inversion N2; subst.
  apply Forall_app in O. destruct O as [O1 O2]. inversion O2; subst.
  destruct (ctl_run_l os settings_new 0 lcd_new K0 V0 N1 O1) as (r1 & d1 & E1 & K1 & _ & V1 & _).
  destruct (ctl_op_l _ r1 _ o K1 V1 H1 H3) as (r2 & d2 & E2 & K2 & _ & V2 & I2 & _).
  destruct (ctl_run_l os2 _ r2 _ K2 V2 H2 H4) as (r3 & d3 & E3 & K3 & _ & V3 & I3).
  exists r3, (d1 ++ d2 ++ d3). split.
  - rewrite (ctl_run_app os (o :: os2) 0 r1 d1 E1). cbn [ctl_run]. rewrite E2. cbn [bindo fst snd]. rewrite E3. reflexivity.
  - rewrite !map_app, !exec_all_app. unfold set_all in *. rewrite fold_left_app. cbn [fold_left]. apply I3; [apply I2; exact Eo|exact C].
Qed.
End C.

(** ** View *)
Ltac lcbn := cbn [mem ac cg inc shift disp curs blink off row col srow scol cell exec_all fold_left exec].
Lemma cell_addr : forall r c, 0 <= r < 4 ->
  cell_address r c = (if r =? 0 then 0 else if r =? 1 then 64 else if r =? 2 then 20 else 84) + c.
Proof.
  intros r c H. unfold cell_address. assert (r = 0 \/ r = 1 \/ r = 2 \/ r = 3) as [->|[->|[->| ->]]] by lia; reflexivity.
Qed.
Lemma row_offset_l : forall r c, 0 <= r < 4 -> exists o, row_offset r = Some o /\ cell_address r c = o + c /\ 0 <= o <= 84.
Proof.
  intros r c H. assert (r = 0 \/ r = 1 \/ r = 2 \/ r = 3) as [->|[->|[->| ->]]] by lia; eexists; (split; [reflexivity|]); split; (reflexivity || lia).
Qed.
Lemma cell_inj : forall rows r c r' c', rows_ok rows -> 0 <= r < rows -> 0 <= c < width rows -> 0 <= r' < rows -> 0 <= c' < width rows ->
  cell_address r c = cell_address r' c' -> r = r' /\ c = c'.
Proof.
  intros rows r c r' c' Hr H1 H2 H3 H4 E.
  rewrite !cell_addr in E by (destruct Hr as [->|[->| ->]]; lia). unfold width in *.
  destruct Hr as [->|[->| ->]]; [change (80 / 1) with 80 in *|change (80 / 2) with 40 in *|change (80 / 4) with 20 in *];
  destruct (Z.eqb_spec r 0), (Z.eqb_spec r 1), (Z.eqb_spec r 2), (Z.eqb_spec r' 0), (Z.eqb_spec r' 1), (Z.eqb_spec r' 2); lia.
Qed.
Lemma width_l : forall rows, rows_ok rows -> width rows = (if rows =? 4 then 20 else 40) /\ width rows <= total_cols rows /\ 0 < rows <= 4.
Proof. intros rows [->|[->| ->]]; vm_compute; repeat split; intro; discriminate. Qed.

Lemma addr_small : forall rows r c, rows_ok rows -> 0 <= r < rows -> 0 <= c <= width rows -> 0 <= cell_address r c < 128.
Proof.
  intros rows r c Hr H1 H2. rewrite cell_addr by (destruct Hr as [->|[->| ->]]; lia). unfold width in *.
  destruct Hr as [->|[->| ->]]; [change (80 / 1) with 80 in *|change (80 / 2) with 40 in *|change (80 / 4) with 20 in *];
  destruct (Z.eqb_spec r 0), (Z.eqb_spec r 1), (Z.eqb_spec r 2); lia.
Qed.

Lemma goto_l : forall rows r c, rows_ok rows -> 0 <= r < rows -> 0 <= c <= width rows ->
  goto_op rows {| row := r; col := c |} = Some [DCmd (128 + cell_address r c)].
Proof.
  intros rows r c Hr H1 H2. unfold goto_op, calc_address. cbn [row col]. replace (r >=? rows) with false by lia.
  assert (R4 : 0 <= r < 4) by (destruct Hr as [->|[->| ->]]; lia).
  destruct (row_offset_l r c R4) as (o & E & A & B). rewrite E, <- A.
  pose proof (addr_small rows r c Hr H1 H2) as S. rewrite u8_small by lia. rewrite lor128 by lia. rewrite Z.mod_small by lia. reflexivity.
Qed.

Definition view_rel (rows : Z) (s : screen) (v : view) (d : lcd) : Prop :=
  row v = srow s /\ col v = scol s /\ 0 <= srow s < rows /\ 0 <= scol s <= width rows /\
  cg d = false /\ inc d = true /\
  (scol s < width rows -> ac d = cell_address (srow s) (scol s)) /\
  forall r c, 0 <= r < rows -> 0 <= c < width rows -> mem d (cell_address r c) = cell s r c.

Lemma ac_step : forall rows r c, rows_ok rows -> 0 <= r < rows -> 0 <= c -> c + 1 < width rows ->
  ac_next true (cell_address r c) = cell_address r (c + 1).
Proof.
  intros rows r c Hr H1 H2 H3. rewrite !cell_addr by (destruct Hr as [->|[->| ->]]; lia). unfold width, ac_next in *.
  destruct Hr as [->|[->| ->]]; [change (80 / 1) with 80 in *|change (80 / 2) with 40 in *|change (80 / 4) with 20 in *];
  destruct (Z.eqb_spec r 0), (Z.eqb_spec r 1), (Z.eqb_spec r 2);
  match goal with |- context [if ?x =? 39 then _ else _] => replace (x =? 39) with false by lia; replace (x =? 103) with false by lia end;
  rewrite Z.mod_small by lia; lia.
Qed.

Lemma view_op_l : forall rows s v d o, rows_ok rows -> view_rel rows s v d -> scr_ok rows s o ->
  exists v' ds, view_op rows v o = Some (v', ds) /\ Forall whole ds /\
    view_rel rows (scr_op s o) v' (exec_all d (map byte_of ds)).
Proof.
  intros rows s [vr vc] d o Hr (V1 & V2 & V3 & V4 & V5 & V6 & V7 & V8) Ho. cbn [row col] in *. subst vr vc.
  destruct (width_l rows Hr) as (W1 & W2 & W3).
  assert (G : forall r c cl, 0 <= r < rows -> 0 <= c <= width rows ->
    (forall r' c', 0 <= r' < rows -> 0 <= c' < width rows -> mem d (cell_address r' c') = cl r' c') ->
    exists v' ds, bindo (goto_op rows {| row := r; col := c |}) (fun x => Some ({| row := r; col := c |}, x)) = Some (v', ds) /\ Forall whole ds /\
      view_rel rows {| srow := r; scol := c; cell := cl |} v' (exec_all d (map byte_of ds))).
  { intros r c cl Hrr Hc Hm. pose proof (addr_small rows r c Hr Hrr Hc) as S. rewrite goto_l by assumption. cbn [bindo].
    eexists. eexists. split; [reflexivity|]. split; [constructor; [cbn [whole]; lia|constructor]|].
    cbn [map byte_of exec_all fold_left]. rewrite exec_addr by lia. unfold view_rel. lcbn.
    repeat split; auto; try lia. }
  destruct o as [ch|r c| |full]; cbn [scr_ok view_op scr_op] in *.
  - destruct Ho as [Hc Ho]. destruct (Z.eqb_spec ch 10) as [E|E].
    + unfold inc_row. cbn [row col]. replace (srow s + 1 >? rows) with false by lia.
      rewrite u8_small by lia. apply G; auto; lia.
    + destruct (Z.eqb_spec ch 13) as [E2|E2].
      * cbn [row]. apply G; auto; lia.
      * unfold inc_col. cbn [row col]. replace (scol s + 1 >? total_cols rows) with false by lia.
        assert (width rows <= 40) by (rewrite W1; destruct (rows =? 4); lia).
        rewrite u8_small by lia. eexists. eexists. split; [reflexivity|]. split; [constructor; [exact Hc|constructor]|].
        cbn [map byte_of exec_all fold_left]. rewrite exec_data by exact V5. rewrite V7 by exact Ho. rewrite V6.
        unfold view_rel. lcbn. repeat split; auto; try lia.
        -- intros H1. apply (ac_step rows); auto; lia.
        -- intros r c H1 H2. destruct (Z.eqb_spec r (srow s)) as [Er|Er]; destruct (Z.eqb_spec c (scol s)) as [Ec|Ec]; cbn [andb].
           ++ subst. apply upd_same.
           ++ rewrite upd_other; [apply V8; assumption|]. intros F. apply (cell_inj rows) in F; auto; lia.
           ++ rewrite upd_other; [apply V8; assumption|]. intros F. apply (cell_inj rows) in F; auto; lia.
           ++ rewrite upd_other; [apply V8; assumption|]. intros F. apply (cell_inj rows) in F; auto; lia.
  - apply G; auto; lia.
  - eexists. eexists. split; [reflexivity|]. split; [constructor; [cbn [whole]; lia|constructor]|].
    unfold view_rel. lcbn. assert (0 < width rows) by (rewrite W1; destruct (rows =? 4); lia). repeat split; auto; lia.
  - contradiction.
Qed.

Lemma view_run_l : forall rows os s v d, rows_ok rows -> view_rel rows s v d -> scr_fits rows s os ->
  exists v' ds, view_run rows v os = Some (v', ds) /\ Forall whole ds /\
    view_rel rows (scr_final s os) v' (exec_all d (map byte_of ds)).
Proof.
  intros rows os. induction os as [|o os IH]; intros s v d Hr V F; cbn [view_run scr_fits] in *.
  - exists v, []. split; [reflexivity|]. split; [constructor|exact V].
  - destruct F as [F1 F2]. destruct (view_op_l rows s v d o Hr V F1) as (v1 & d1 & E1 & W1 & R1). rewrite E1. cbn [bindo fst snd].
    destruct (IH _ v1 _ Hr R1 F2) as (v2 & d2 & E2 & W2 & R2). rewrite E2. cbn [bindo fst snd].
    exists v2, (d1 ++ d2). split; [reflexivity|]. split; [apply Forall_app; auto|]. rewrite map_app, exec_all_app. exact R2.
Qed.

(** ** From power-on to the screen, over the parallel driver *)
Lemma whole_ok : forall os, Forall whole os -> Forall dop_ok os.
Proof. intros os F. eapply Forall_impl; [|exact F]. intros [b|b|n] H; cbn in *; [lia|lia|contradiction]. Qed.

Lemma init_screen : forall rows d ts, rows_ok rows ->
  view_rel rows blank {| row := 0; col := 0 |} (exec_all d (ts ++ [(false, 40); (false, 1); (false, 2); (false, 6)])).
Proof.
  intros rows d ts Hr. rewrite exec_all_app. destruct (width_l rows Hr) as (W1 & W2 & W3).
  generalize (exec_all d ts) as e. intros e.
  assert (E : exec_all e [(false, 40); (false, 1); (false, 2); (false, 6)] =
    {| mem := fun _ => 32; ac := 0; cg := false; inc := true; shift := false; disp := disp e; curs := curs e; blink := blink e; off := 0 |})
    by (destruct e; reflexivity).
  rewrite E. clear E. unfold blank.
  unfold view_rel. lcbn. assert (0 < width rows) by (rewrite W1; destruct (rows =? 4); lia). repeat split; auto; lia.
Qed.

Lemma view_end_to_end : forall lo rows os l m d, 0 <= lo < 16 -> rows_ok rows -> mode_ok m -> en l = true -> rs l = false ->
  scr_fits rows blank os ->
  exists v ops, view_run rows {| row := 0; col := 0 |} (VInit true :: os) = Some (v, ops) /\
    let '(l', m', ts) := watch lo l m (par_run l ops) in
    m' = M4 /\ en l' = true /\ row v = srow (scr_final blank os) /\ col v = scol (scr_final blank os) /\
    forall r c, 0 <= r < rows -> 0 <= c < width rows -> mem (exec_all d ts) (cell_address r c) = cell (scr_final blank os) r c.
Proof.
  intros lo rows os l m d Hlo Hr Hm He Hs F.
  pose proof (init_screen rows d) as IS.
  assert (W0 : Forall whole [DCmd 40; DCmd 1; DCmd 2; DCmd 6]) by (repeat constructor; cbn; lia).
  destruct (init_edges lo Hlo m Hm) as [ts0 E0].
  destruct (view_run_l rows os blank {| row := 0; col := 0 |} _ Hr (IS ts0 Hr) F) as (v & ds & E & W & R).
  exists v. cbn [view_run view_op bindo fst snd]. rewrite E. cbn [bindo fst snd].
  eexists. split; [reflexivity|]. set (ops := (_ ++ _) ++ ds).
  assert (EO : ops = init_ops ++ ([DCmd 40; DCmd 1; DCmd 2; DCmd 6] ++ ds)) by reflexivity.
  assert (WA : Forall whole ([DCmd 40; DCmd 1; DCmd 2; DCmd 6] ++ ds)) by (apply Forall_app; auto).
  assert (OK : Forall dop_ok ops).
  { rewrite EO. apply Forall_app. split; [repeat constructor; cbn; lia|]. apply whole_ok. exact WA. }
  destruct (par_run_d lo ops l He OK) as (l' & En & _ & _ & D). rewrite D, Hs, EO.
  change (all_nibs false (init_ops ++ ([DCmd 40; DCmd 1; DCmd 2; DCmd 6] ++ ds))) with
    ([(false, 3); (false, 3); (false, 3); (false, 2)] ++ all_nibs false ([DCmd 40; DCmd 1; DCmd 2; DCmd 6] ++ ds)).
  rewrite edges_app, E0. rewrite whole_edges by exact WA. cbn [fst snd]. rewrite map_app.
  destruct R as (R1 & R2 & R3 & R4 & R5 & R6 & R7 & R8).
  split; [reflexivity|]. split; [exact En|]. split; [exact R1|]. split; [exact R2|].
  intros r c Hr1 Hc1. rewrite <- R8 by assumption. f_equal. rewrite app_assoc, exec_all_app. reflexivity.
Qed.

(** ** Viewport *)
Lemma scroll_l : forall ops total, 0 <= total -> scroll_run total 0 ops = (0, map (fun _ => false) ops, []).
Proof.
  induction ops as [|b ops IH]; intros total H; [reflexivity|]. cbn [scroll_run].
  replace (if b then scroll_left total 0 else scroll_right 0) with (0, false, @nil dop).
  2:{ destruct b; [unfold scroll_left; replace (0 >? total) with false by lia; reflexivity|reflexivity]. }
  rewrite IH by exact H. reflexivity.
Qed.

(** ** Display writer *)
Lemma dw_goto_l : forall rows v l c, rows_ok rows ->
  let l' := if l =? 255 then row v else l in let c' := if c =? 255 then col v else c in
  0 <= l' < rows -> 0 <= c' <= width rows ->
  dw_goto rows v l c = Some ({| row := l'; col := c' |}, [DCmd (128 + cell_address l' c')]).
Proof.
  intros rows v l c Hr l' c' Hl Hc. unfold dw_goto. fold l' c'. cbn [view_op]. rewrite goto_l by assumption. reflexivity.
Qed.
Lemma dw_cursor_l : forall iw rows s r v d l c edit, 8 <= iw -> rows_ok rows -> ctl_rel s r -> dev_rel s d ->
  0 <= l < rows -> 0 <= c < width rows ->
  exists r' ds, dw_cursor iw rows r v l c edit = Some (r', {| row := l; col := c |}, ds) /\
    let d' := exec_all d (map byte_of ds) in
    curs d' = true /\ blink d' = edit /\ disp d' = disp d /\ inc d' = inc d /\ mem d' = mem d /\ ac d' = cell_address l c /\
    shift d' = shift d /\ off d' = off d /\
    ctl_rel (set_op (set_op s (CCursor true)) (CBlink edit)) r'.
Proof.
  intros iw rows s r v d l c edit Hiw Hr K V Hl Hc. unfold dw_cursor.
  destruct (width_l rows Hr) as (W1 & W2 & W3). assert (width rows <= 40) by (rewrite W1; destruct (rows =? 4); lia).
  replace ((l =? 255) && (c =? 255)) with false by lia.
  pose proof K as (R & B0 & B1 & B2 & B3 & B4). unfold ctl_get. rewrite ba_true_ok by lia. cbn [bindo].
  set (st1 := if Z.testbit r 1 then Some (r, []) else ctl_op iw r (CCursor true)).
  assert (A : exists r1 d1, st1 = Some (r1, d1) /\ ctl_rel (set_op s (CCursor true)) r1 /\
     dev_rel (set_op s (CCursor true)) (exec_all d (map byte_of d1)) /\
     inc (exec_all d (map byte_of d1)) = inc d /\ mem (exec_all d (map byte_of d1)) = mem d /\
     shift (exec_all d (map byte_of d1)) = shift d /\ off (exec_all d (map byte_of d1)) = off d).
  { unfold st1. destruct (Z.testbit r 1) eqn:E1.
    - exists r, []. split; [reflexivity|]. assert (Es : set_op s (CCursor true) = s) by (destruct s; cbn in *; congruence).
      rewrite Es. auto 8.
    - destruct (ctl_op_l iw Hiw s r d (CCursor true) K V I I) as (r1 & d1 & E & K1 & _ & V1 & _ & J1). rewrite E.
      exists r1, d1. split; [reflexivity|]. split; [exact K1|]. split; [exact V1|]. split; [apply J1; [exact (fun f => f)|exact I]|].
      cbn [ctl_op] in E. destruct (put8_l iw Hiw r 1 true R ltac:(lia)) as (r2 & E2 & R2 & _). rewrite E2 in E. cbn [bindo] in E. injection E as <- <-.
      cbn [map byte_of exec_all fold_left]. rewrite exec_ctrl by (apply dc_bits; exact R2). auto. }
  destruct A as (r1 & d1 & E1 & K1 & V1 & I1 & M1 & X1 & O1). fold st1. rewrite E1. cbn [bindo fst snd].
  pose proof K1 as (R1 & B10 & _). rewrite ba_true_ok by lia. cbn [bindo].
  set (dd := exec_all d (map byte_of d1)) in *.
  set (st2 := if Bool.eqb (Z.testbit r1 0) edit then Some (r1, []) else ctl_op iw r1 (CBlink edit)).
  assert (A : exists r2 d2, st2 = Some (r2, d2) /\ ctl_rel (set_op (set_op s (CCursor true)) (CBlink edit)) r2 /\
     dev_rel (set_op (set_op s (CCursor true)) (CBlink edit)) (exec_all dd (map byte_of d2)) /\
     inc (exec_all dd (map byte_of d2)) = inc d /\ mem (exec_all dd (map byte_of d2)) = mem d /\
     shift (exec_all dd (map byte_of d2)) = shift d /\ off (exec_all dd (map byte_of d2)) = off d).
  { unfold st2. destruct (Bool.eqb (Z.testbit r1 0) edit) eqn:E2.
    - apply eqb_prop in E2. exists r1, []. split; [reflexivity|].
      assert (Es : set_op (set_op s (CCursor true)) (CBlink edit) = set_op s (CCursor true)) by (destruct s; cbn in *; congruence).
      rewrite Es. auto 8.
    - destruct (ctl_op_l iw Hiw _ r1 dd (CBlink edit) K1 V1 I I) as (r2 & d2 & E & K2 & _ & V2 & _ & J2). rewrite E.
      exists r2, d2. split; [reflexivity|]. split; [exact K2|]. split; [exact V2|]. split; [rewrite <- I1; apply J2; [exact (fun f => f)|exact I]|].
      cbn [ctl_op] in E. destruct (put8_l iw Hiw r1 0 edit R1 ltac:(lia)) as (r3 & E3 & R3 & _). rewrite E3 in E. cbn [bindo] in E. injection E as <- <-.
      cbn [map byte_of exec_all fold_left]. rewrite exec_ctrl by (apply dc_bits; exact R3). auto. }
  destruct A as (r2 & d2 & E2 & K2 & V2 & I2 & M2 & X2 & O2). fold st2. rewrite E2. cbn [bindo fst snd view_op].
  rewrite goto_l by (assumption || lia). cbn [bindo fst snd].
  exists r2. eexists. split; [reflexivity|]. cbv zeta. rewrite !map_app, !exec_all_app. fold dd.
  set (d3 := exec_all dd (map byte_of d2)) in *. pose proof (addr_small rows l c Hr Hl ltac:(lia)) as S.
  cbn [map byte_of exec_all fold_left]. rewrite exec_addr by lia. lcbn.
  destruct V2 as (Y1 & Y2 & Y3 & Y4). destruct V as (Z1 & _). cbn in Y1, Y2, Y3.
  repeat split; try assumption; try congruence; try lia; apply K2.
Qed.

(** ** Drivers *)
Lemma hd_i2c_new_l : forall iw, 8 <= iw -> i2c_new iw = Some 12.
Proof.
  intros iw H. unfold i2c_new.
  destruct (ba_set_ok iw 8 0 2 ltac:(lia) ltac:(lia) ltac:(lia)) as (a & Ea & Ra & Ta). rewrite Ea. cbn [bindo fst].
  destruct (ba_set_ok iw 8 a 3 ltac:(lia) ltac:(lia) ltac:(lia)) as (b & Eb & Rb & Tb). rewrite Eb. cbn [bindo fst].
  f_equal. apply Z.bits_inj'. intros n Hn. destruct (Z_lt_ge_dec n 8) as [L|G].
  - rewrite Tb, Ta by lia. assert (n = 0 \/ n = 1 \/ n = 2 \/ n = 3 \/ n = 4 \/ n = 5 \/ n = 6 \/ n = 7) as D by lia.
    destruct D as [->|[->|[->|[->|[->|[->|[->| ->]]]]]]]; reflexivity.
  - rewrite (Z.bits_above_log2 12) by (cbn; lia). destruct (Z.eq_dec b 0) as [->|N]; [apply Z.testbit_0_l|].
    apply Z.bits_above_log2; [lia|]. apply Z.log2_lt_pow2; [lia|]. change (2 ^ 8) with 256 in *.
    apply Z.lt_le_trans with 256; [lia|]. change 256 with (2 ^ 8). apply Z.pow_le_mono_r; lia.
Qed.

Lemma last_app2 : forall (a b : list Z) d, b <> [] -> last (a ++ b) d = last b d.
Proof.
  induction a as [|x a IH]; intros b d H; [reflexivity|]. cbn [app]. rewrite <- (IH b d H).
  destruct (a ++ b) eqn:E; [|reflexivity]. apply app_eq_nil in E. tauto.
Qed.
Lemma i2c_write4_last : forall iw r n r' tr, i2c_write4 iw r n = Some (r', tr) -> tr <> [] /\ last tr 0 = r'.
Proof.
  intros iw r n r' tr. unfold i2c_write4, i2c_pulse.
  destruct (ba_set_field iw 8 r 4 n 4) as [a|]; [cbn [bindo fst snd]|discriminate].
  destruct (ba_reset iw 8 (fst a) 2) as [b|]; [cbn [bindo fst snd]|discriminate].
  destruct (ba_set iw 8 (fst b) 2) as [c|]; [cbn [bindo fst snd]|discriminate].
  intros E. injection E as <- <-. split; [discriminate|reflexivity].
Qed.
Lemma i2c_write8_last : forall iw r n r' tr, i2c_write8 iw r n = Some (r', tr) -> tr <> [] /\ last tr 0 = r'.
Proof.
  intros iw r n r' tr. unfold i2c_write8.
  destruct (i2c_write4 iw r (Z.shiftr n 4)) as [[r1 t1]|] eqn:E1; [cbn [bindo fst snd]|discriminate].
  destruct (i2c_write4 iw r1 n) as [[r2 t2]|] eqn:E2; [cbn [bindo fst snd]|discriminate].
  intros E. injection E as <- <-. apply i2c_write4_last in E2. destruct E2 as [N L].
  split; [intros F; apply app_eq_nil in F; tauto|]. rewrite last_app2 by exact N. exact L.
Qed.
Lemma i2c_op_last : forall iw r o r' tr, i2c_op iw r o = Some (r', tr) -> tr <> [] /\ last tr 0 = r'.
Proof.
  intros iw r o r' tr. destruct o as [[b|b|n]|v]; cbn [i2c_op].
  - destruct (ba_reset iw 8 r 0) as [a|]; [cbn [bindo fst snd]|discriminate].
    destruct (i2c_clear iw (fst a)) as [c|]; [cbn [bindo fst snd]|discriminate].
    destruct (i2c_write8 iw c b) as [[r1 t1]|] eqn:E1; [cbn [bindo fst snd]|discriminate].
    intros E. injection E as <- <-. apply i2c_write8_last in E1. destruct E1 as [N L]. split; [discriminate|].
    change (c :: t1) with ([c] ++ t1). rewrite last_app2 by exact N. exact L.
  - destruct (ba_set iw 8 r 0) as [a|]; [cbn [bindo fst snd]|discriminate].
    destruct (i2c_clear iw (fst a)) as [c|]; [cbn [bindo fst snd]|discriminate].
    destruct (i2c_write8 iw c b) as [[r1 t1]|] eqn:E1; [cbn [bindo fst snd]|discriminate].
    intros E. injection E as <- <-. apply i2c_write8_last in E1. destruct E1 as [N L]. split; [discriminate|].
    change (c :: t1) with ([c] ++ t1). rewrite last_app2 by exact N. exact L.
  - apply i2c_write4_last.
  - destruct (ba_put iw 8 r 3 v) as [a|]; [cbn [bindo fst snd]|discriminate].
    destruct (i2c_clear iw (fst a)) as [c|]; [cbn [bindo fst snd]|discriminate].
    intros E. injection E as <- <-. split; [discriminate|reflexivity].
Qed.
Lemma i2c_run_last : forall iw os r r' tr, i2c_run iw r os = Some (r', tr) -> os <> [] -> tr <> [] /\ last tr 0 = r'.
Proof.
  intros iw os. induction os as [|o os IH]; intros r r' tr E Hn; [congruence|]. cbn [i2c_run] in E.
  destruct (i2c_op iw r o) as [[r1 t1]|] eqn:E1; [cbn [bindo fst snd] in E|discriminate].
  destruct (i2c_run iw r1 os) as [[r2 t2]|] eqn:E2; [cbn [bindo fst snd] in E|discriminate].
  injection E as <- <-. apply i2c_op_last in E1. destruct E1 as [N L].
  split; [intros F; apply app_eq_nil in F; tauto|].
  destruct os as [|o2 os].
  - cbn [i2c_run] in E2. injection E2 as <- <-. rewrite app_nil_r. exact L.
  - destruct (IH r1 r2 t2 E2 ltac:(discriminate)) as [N2 L2]. rewrite last_app2 by exact N2. exact L2.
Qed.

Lemma hd_i2c_l : forall lo iw os, 8 <= iw -> Forall iop_ok os -> os <> [] ->
  exists r0 r tr, i2c_new iw = Some r0 /\ i2c_run iw r0 os = Some (r, tr) /\
    Forall (fun b => 0 <= b < 256 /\ Z.testbit b 1 = false) tr /\
    Z.testbit (last tr 0) 3 = final_light true os /\
    forall l, delivers lo l (map i2c_lines tr) (all_inibs false os) (i2c_lines r).
Proof.
  intros lo iw os H F Hn. exists 12.
  destruct (i2c_run_d lo iw H os true 12) as (r & tr & E & (K1 & K2 & K3) & T & B & D).
  - split; [lia|]. split; reflexivity.
  - reflexivity.
  - exact F.
  - exists r, tr. split; [apply hd_i2c_new_l; exact H|]. split; [exact E|]. split; [exact T|]. split.
    + destruct (i2c_run_last iw os 12 r tr E Hn) as [_ L]. rewrite L. exact K3.
    + intros l. apply (D Hn).
Qed.

Lemma hd_w3_l : forall lo iw w ix os r, 1 <= w <= iw -> Forall (fun i => 0 <= i < w) (index_list ix) -> NoDup (index_list ix) ->
  0 <= r < 2 ^ w -> Forall dop_ok os ->
  exists r0 r1 tr, w3_attach iw w ix r = Some (r0, [r0]) /\ w3_run iw w ix r0 os = Some (r1, tr) /\
    others w ix r r0 /\ Forall (others w ix r) tr /\
    delivers lo (w3_lines ix r0) (map (w3_lines ix) tr) (all_nibs false os) (w3_lines ix r1).
Proof.
  intros lo iw w ix os r Hw Hin Hdup Hr F.
  destruct (w3_attach_l iw w ix Hw Hin Hdup r Hr) as (r0 & E0 & R0 & O0 & L0).
  destruct (w3_run_d lo iw w ix Hw Hin Hdup os r0 R0) as (r1 & tr & E1 & R1 & O1 & F1 & D1).
  - rewrite L0. reflexivity.
  - exact F.
  - exists r0, r1, tr. split; [exact E0|]. split; [exact E1|]. split.
    + exact O0.
    + split; [eapply Forall_impl; [|exact F1]; intros z Hz; eapply others_trans; eassumption|]. rewrite L0 in D1 at 2. exact D1.
Qed.
Lemma dw_cursor_history : forall iw rows os v l c edit, 8 <= iw -> rows_ok rows ->
  Forall no_init os -> Forall cop_ok os -> 0 <= l < rows -> 0 <= c < width rows ->
  exists r ds r' ds', ctl_run iw 0 os = Some (r, ds) /\
    dw_cursor iw rows r v l c edit = Some (r', {| row := l; col := c |}, ds') /\
    let d := exec_all lcd_new (map byte_of ds) in let d' := exec_all d (map byte_of ds') in
    curs d' = true /\ blink d' = edit /\ disp d' = disp d /\ inc d' = inc d /\ mem d' = mem d /\ ac d' = cell_address l c /\
    shift d' = shift d /\ off d' = off d.
Proof.
  intros iw rows os v l c edit Hiw Hr N O Hl Hc.
  assert (K0 : ctl_rel settings_new 0) by (repeat split; lia).
  assert (V0 : dev_rel settings_new lcd_new) by (repeat split).
  destruct (ctl_run_l iw Hiw os settings_new 0 lcd_new K0 V0 N O) as (r & ds & E & K & W & V & _).
  destruct (dw_cursor_l iw rows _ r v (exec_all lcd_new (map byte_of ds)) l c edit Hiw Hr K V Hl Hc) as (r' & ds' & E' & H1 & H2 & H3 & H4 & H5 & H6 & H7 & H8 & _).
  exists r, ds, r', ds'. cbv zeta. auto 12.
Qed.
