(** The button sketch, the counter and the input that a lamp follows. *)
Require Import ZArith List Bool Lia ZifyBool.
Import ListNotations.
From Verif Require Import Base BaseFacts TimeModel TimeSpec TimeProofs TaskModel TaskSpec ButtonModel ButtonSpec ButtonProofs
  ArduinoModel ArduinoSpec ArduinoProofs SketchModel SketchSpec SketchTaskProofs.
Open Scope Z_scope.
Ltac Zify.zify_post_hook ::= idtac.

Section B.
Variables (id debounce hold : Z).
Hypothesis Hid : 0 < id < 65536.
Hypothesis Hdb : 0 <= debounce < 4294967296.
Hypothesis Hho : 0 <= hold < 4294967296.

(** ** Only this button waits, so there is always room *)
Lemma own_wait : forall d T, dinv d -> room [id] d -> 0 <= T < 4294967296 ->
  exists l r, dl_wait (d_slots d) (d_delta d) id T = Some (l, r) /\ dinv (mkDelays l (d_delta d)) /\ room [id] (mkDelays l (d_delta d)).
Proof.
  intros d T [V D] R HT. pose proof (wait_spec (d_slots d) (d_delta d) id T V ltac:(lia) Hid HT) as W.
  destruct (lookup_id (d_slots d) id) as [r|] eqn:El.
  - destruct W as (l' & W2 & W3 & W4 & W5 & W6). rewrite W2. eexists. eexists. split; [reflexivity|]. split; [split; assumption|].
    eapply room_keep; eauto. left; reflexivity.
  - destruct W as [[W1 W2]|(W1 & l' & W2 & W3 & W4 & W5 & W6)].
    + exfalso. pose proof (room_free [id] d id R V ltac:(left; reflexivity)) as F.
      assert (N : ~ In id (occ (d_slots d))) by (rewrite occ_lookup by lia; intros Q; congruence). specialize (F N). lia.
    + rewrite W2. eexists. eexists. split; [reflexivity|]. split; [split; assumption|]. eapply room_keep; eauto. left; reflexivity.
Qed.
Lemma own_clear : forall d, dinv d -> room [id] d ->
  dinv (mkDelays (dl_clear (d_slots d) id) (d_delta d)) /\ room [id] (mkDelays (dl_clear (d_slots d) id) (d_delta d)).
Proof.
  intros d [V D] R. destruct (clear_spec (d_slots d) id V ltac:(lia)) as (C1 & C2 & C3 & C4). split; [split; assumption|].
  eapply room_keep; eauto. left; reflexivity.
Qed.
Lemma own_hold : forall b d, dinv d -> room [id] d -> exists b' d', pb_hold id hold b d = Some (b', d') /\ room [id] d'.
Proof.
  intros b d V R. unfold pb_hold. destruct (get_state b =? stClosed).
  - destruct (own_wait d hold V R Hho) as (l & r & E & _ & R'). rewrite E. destruct r; eauto.
  - destruct (dl_waiting (d_slots d) id); [|eauto]. eexists. eexists. split; [reflexivity|]. apply own_clear; assumption.
Qed.
Lemma own_scan : forall s d v, dinv d -> room [id] d -> exists s' d' r, pb_scan id debounce hold true s d v = Some (s', d', r) /\ room [id] d'.
Proof.
  intros s d v V R. unfold pb_scan. destruct (pb_task s =? 0).
  - unfold pb_debounce. set (b := pb_sample (pb_states s) (pb_convert true v)).
    destruct (negb (get_prev b =? get_state b) && negb (get_state b =? stHold) && negb (get_prev b =? stUnknown) && negb (get_prev b =? stPending)).
    + do 3 eexists. split; [reflexivity|]. apply own_clear; assumption.
    + destruct (own_hold b d V R) as (b' & d' & E & R'). rewrite E. eauto.
  - destruct (pb_task s =? 113); [|eauto]. destruct (own_wait d debounce V R Hdb) as (l & r & E & V' & R'). rewrite E. destruct r; [|eauto].
    match goal with |- context [pb_hold id hold ?x ?y] => destruct (own_hold x y V' R') as (b' & d' & E' & R'') end. rewrite E'. eauto.
Qed.

(** ** One round *)
Variable timer : Z -> bool.
Variables (pin led : Z).
Hypothesis Hpl : pin <> led.
Definition wired (b : board) (lamp : bool) : Prop :=
  sane timer b /\ p_ddr (b pin) = false /\ p_latch (b pin) = true /\ signal_of (b led) = SLevel lamp.
Lemma read_contact : forall b lamp closed floating, wired b lamp ->
  let q := p_step timer (contact pin closed floating) b (PRead pin) in wired (fst q) lamp /\ snd q = negb closed.
Proof.
  intros b lamp closed floating (S & E1 & E2 & E3). cbn [p_step].
  destruct (read_at timer (contact pin closed floating) b pin pin S) as [R1 R2]. rewrite Z.eqb_refl in R1.
  destruct (step_frame timer (contact pin closed floating) b (PRead pin) S) as [S1 F1]. cbn [p_step pin_of] in S1, F1.
  cbv zeta. split.
  - split; [exact S1|]. rewrite R1. cbn [p_ddr p_latch]. split; [exact E1|]. split; [exact E2|]. rewrite F1 by congruence. exact E3.
  - rewrite R2, E1, E2. unfold contact. rewrite Z.eqb_refl. destruct closed; reflexivity.
Qed.
Lemma wired_lamp : forall out b lamp o, wired b lamp -> pin_of o = led -> digital_on led o -> wired (fst (p_step timer out b o)) (value_after led lamp o).
Proof.
  intros out b lamp o (S & E1 & E2 & E3) Ho Hd. destruct (step_frame timer out b o S) as [S1 F1].
  split; [exact S1|]. rewrite F1 by congruence. split; [exact E1|]. split; [exact E2|]. exact (proj1 (digital_step timer out b o led lamp S E3 Hd)).
Qed.
Lemma button_round : forall p s now dt closed floating lamp, rel id debounce hold p (bl_button s) (bl_delays s) -> room [id] (bl_delays s) ->
  wired (bl_board s) lamp -> bl_ticks s = u32 now -> 0 <= dt < 4294967296 ->
  exists s', button_loop timer id debounce hold pin led s (u32 (now + dt)) closed floating = Some s' /\
    rel id debounce hold (p_scan debounce hold p closed dt) (bl_button s') (bl_delays s') /\ room [id] (bl_delays s') /\
    wired (bl_board s') (lamp_next lamp (p_scan debounce hold p closed dt)) /\ bl_ticks s' = u32 (now + dt).
Proof.
  intros p s now dt closed floating lamp R Rm W ET Hdt. unfold button_loop, time_update. rewrite ET.
  assert (Ed : u32 (u32 (now + dt) - u32 now) = dt).
  { unfold u32. rewrite <- Zminus_mod. replace (now + dt - now) with dt by lia. apply Z.mod_small. exact Hdt. }
  rewrite Ed. cbn [dl_step].
  destruct (read_contact (bl_board s) lamp closed floating W) as [W1 E1].
  destruct (p_step timer (contact pin closed floating) (bl_board s) (PRead pin)) as [b1 v1]. cbn [fst snd] in W1, E1. subst v1.
  set (d := mkDelays (d_slots (bl_delays s)) dt).
  assert (V : dinv d) by (destruct R as [[V _] _]; split; [exact V|exact Hdt]).
  assert (R0 : rel id debounce hold p (bl_button s) d) by (eapply rel_env; [exact R|exact V|reflexivity]).
  destruct (own_scan (bl_button s) d (negb closed) V Rm) as (bt & d' & r & E2 & Rm'). rewrite E2.
  destruct (scan_ok id debounce hold true Hid Hdb Hho p _ _ _ _ _ _ R0 E2) as (R1 & _ & _).
  replace (xorb (negb closed) true) with closed in R1 by (destruct closed; reflexivity). cbn [d_delta d] in R1.
  eexists. split; [reflexivity|]. cbn [bl_button bl_delays bl_board bl_ticks]. split; [exact R1|]. split; [exact Rm'|]. split; [|reflexivity].
  pose proof (rel_report id debounce hold _ _ _ R1) as RR. apply (f_equal fst) in RR. cbn [fst] in RR. rename RR into ES. destruct (p_scan debounce hold p closed dt); cbn [p_report fst lamp_next] in *; rewrite <- ES; cbv [stOpen stClosed stHold stUnknown stPending Z.eqb Pos.eqb].
  - exact W1.
  - pose proof (wired_lamp (contact pin closed floating) b1 lamp (PWrite led false) W1 eq_refl ltac:(intros _; exact Logic.I)) as G. unfold value_after in G. cbn [pin_of] in G. rewrite Z.eqb_refl in G. exact G.
  - pose proof (wired_lamp (contact pin closed floating) b1 lamp (PWrite led true) W1 eq_refl ltac:(intros _; exact Logic.I)) as G. unfold value_after in G. cbn [pin_of] in G. rewrite Z.eqb_refl in G. exact G.
  - pose proof (wired_lamp (contact pin closed floating) b1 lamp (PToggle led) W1 eq_refl ltac:(intros _; exact Logic.I)) as G. unfold value_after in G. cbn [pin_of] in G. rewrite Z.eqb_refl in G. exact G.
  - exact W1.
  - exact W1.
Qed.
End B.

(** ** Many rounds *)
Lemma button_rounds : forall id debounce hold timer pin led, 0 < id < 65536 -> 0 <= debounce < 4294967296 -> 0 <= hold < 4294967296 -> pin <> led ->
  forall rs p s now lamp, rel id debounce hold p (bl_button s) (bl_delays s) -> room [id] (bl_delays s) ->
  wired timer pin led (bl_board s) lamp -> bl_ticks s = u32 now -> Forall (fun r => 0 <= fst (fst r) < 4294967296) rs ->
  exists bs, button_run timer id debounce hold pin led s (rounds_at now rs) = Some bs /\
    map (fun b => signal_of (b led)) bs =
    map SLevel (lamp_run lamp (ButtonSpec.p_run debounce hold p (map (fun r => (snd (fst r), fst (fst r))) rs))).
Proof.
  intros id debounce hold timer pin led Hid Hdb Hho Hpl. induction rs as [|[[dt c] f] rs IH]; intros p s now lamp R Rm W ET F; cbn [rounds_at button_run map ButtonSpec.p_run lamp_run fst snd].
  - exists []. split; reflexivity.
  - inversion F as [|? ? F1 F2]; subst. cbn [fst] in F1.
    destruct (button_round id debounce hold Hid Hdb Hho timer pin led Hpl p s now dt c f lamp R Rm W ET F1) as (s' & E & R' & Rm' & W' & ET').
    rewrite E. destruct (IH _ s' (now + dt) _ R' Rm' W' ET' F2) as (bs & E2 & M2). rewrite E2. eexists. split; [reflexivity|].
    cbn [map]. destruct W' as (_ & _ & _ & W'). rewrite W'. f_equal. exact M2.
Qed.
Lemma button_new_wired : forall timer pin led b ticks, sane timer b -> pin <> led -> p_pwm (b led) = None ->
  wired timer pin led (bl_board (button_new timer pin led ticks b)) (p_latch (b led)).
Proof.
  intros timer pin led b ticks S N P. unfold button_new. cbn [bl_board]. set (o := fun _ _ => false). cbn [p_run].
  pose proof (step_frame timer o b (PIn pin) S) as [S1 F1]. destruct (p_step timer o b (PIn pin)) as [b1 v1] eqn:E1. cbn [fst] in S1, F1.
  pose proof (step_frame timer o b1 (POut led) S1) as [S2 F2].
  pose proof (pins_new_l timer o b1 led S1) as (_ & Q & _). cbn [pin_of] in *. rewrite (F1 led) in Q by congruence. specialize (Q P).
  destruct (p_step timer o b1 (POut led)) as [b2 v2] eqn:E2. cbn [fst] in S2, F2, Q.
  pose proof (step_frame timer o b2 (PPullup pin true) S2) as [S3 F3]. cbn [pin_of] in *.
  destruct (p_step timer o b2 (PPullup pin true)) as [b3 v3] eqn:E3. cbn [fst] in *.
  assert (X1 : p_ddr (b1 pin) = false).
  { cbn [p_step] in E1. injection E1 as <- <-. rewrite mode_at, Z.eqb_refl. reflexivity. }
  assert (X3 : b3 pin = mkPin (p_ddr (b2 pin)) true None).
  { cbn [p_step] in E3. injection E3 as <- <-. rewrite write_at by exact S2. rewrite Z.eqb_refl. reflexivity. }
  split; [exact S3|]. rewrite X3. cbn [p_ddr p_latch]. rewrite (F2 pin) by exact N. split; [exact X1|]. split; [reflexivity|].
  rewrite (F3 led) by congruence. exact Q.
Qed.
Lemma button_l : forall id debounce hold timer pin led b now rs, 0 < id < 65536 -> 0 <= debounce < 4294967296 -> 0 <= hold < 4294967296 -> pin <> led ->
  sane timer b -> p_pwm (b led) = None -> Forall (fun r => 0 <= fst (fst r) < 4294967296) rs ->
  exists bs, button_run timer id debounce hold pin led (button_new timer pin led (u32 now) b) (rounds_at now rs) = Some bs /\
    map (fun b => signal_of (b led)) bs =
    map SLevel (lamp_run (p_latch (b led)) (ButtonSpec.p_run debounce hold PUnknown (map (fun r => (snd (fst r), fst (fst r))) rs))).
Proof.
  intros id debounce hold timer pin led b now rs Hid Hdb Hho Hpl S P F.
  apply button_rounds; try assumption.
  - cbn [button_new bl_button bl_delays]. split; [apply init_inv|]. cbn [pb_init pb_task pb_states]. split; [reflexivity|]. split.
    + split; [lia|]. split; vm_compute; reflexivity.
    + apply init_lookup. lia.
  - cbn [button_new bl_delays]. split; [constructor; [intros []|constructor]|]. split; [cbn; lia|]. cbn. intros x [].
  - apply button_new_wired; assumption.
  - reflexivity.
Qed.

(** ** The lamp that follows an input *)
Lemma follow_rounds : forall timer pin led outs value b lamp, pin <> led -> sane timer b -> p_ddr (b pin) = false -> p_latch (b pin) = false ->
  signal_of (b led) = SLevel lamp ->
  let vs := map (fun out : Z -> bool -> bool => out pin false) outs in
  let s := follow_run timer pin led (value, b) outs in
  fst s = last vs value /\
  signal_of (snd s led) = SLevel (if existsb (fun v => negb (Bool.eqb v value)) vs then last vs value else lamp).
Proof.
  intros timer pin led outs. induction outs as [|out outs IH]; intros value b lamp N S D L W; cbv zeta; [split; [reflexivity|exact W]|].
  unfold follow_run. cbn [fold_left map]. fold (follow_run timer pin led).
  set (s1 := follow_loop timer pin led (value, b) out).
  change (fold_left (follow_loop timer pin led) outs s1) with (follow_run timer pin led s1 outs).
  assert (G : fst s1 = out pin false /\ sane timer (snd s1) /\ p_ddr (snd s1 pin) = false /\ p_latch (snd s1 pin) = false /\
    signal_of (snd s1 led) = SLevel (if negb (Bool.eqb (out pin false) value) then out pin false else lamp)).
  { unfold s1, follow_loop. cbn [fst snd].
    destruct (step_frame timer out b (PRead pin) S) as [S1 F1]. cbn [p_step pin_of] in *.
    destruct (read_at timer out b pin pin S) as [R1 R2]. rewrite Z.eqb_refl in R1. rewrite D, L in R2.
    destruct (digital_read timer out b pin) as [b1 v1]. cbn [fst snd] in *. subst v1.
    assert (W1 : signal_of (b1 led) = SLevel lamp) by (rewrite F1 by congruence; exact W).
    unfold di_read. destruct (Bool.eqb_spec value (out pin false)) as [->|Nv]; cbn [negb fst snd].
    - rewrite Bool.eqb_reflx. cbn [negb]. split; [reflexivity|]. split; [exact S1|]. rewrite R1. cbn [p_ddr p_latch]. auto.
    - replace (Bool.eqb (out pin false) value) with false by (destruct value, (out pin false); try reflexivity; congruence). cbn [negb].
      split; [reflexivity|]. destruct (step_frame timer out b1 (PWrite led (out pin false)) S1) as [S2 F2]. cbn [p_step pin_of fst] in *.
      split; [exact S2|]. rewrite F2 by exact N. rewrite R1. cbn [p_ddr p_latch]. split; [exact D|]. split; [exact L|].
      destruct (digital_step timer out b1 (PWrite led (out pin false)) led lamp S1 W1 ltac:(intros _; exact Logic.I)) as [Q _].
      cbn [p_step fst] in Q. rewrite Q. unfold value_after. cbn [pin_of]. rewrite Z.eqb_refl. reflexivity. }
  destruct G as (G1 & G2 & G3 & G4 & G5). rewrite (surjective_pairing s1).
  destruct (IH (fst s1) (snd s1) _ N G2 G3 G4 G5) as [I1 I2]. rewrite G1 in *.
  set (v := out pin false) in *. set (vs := map (fun out : Z -> bool -> bool => out pin false) outs) in *.
  assert (EL : last (v :: vs) value = last vs v).
  { clear. destruct vs as [|w vs]; [reflexivity|]. cbn [last]. revert w. induction vs as [|u vs IH]; intros w; [reflexivity|]. cbn [last] in *. apply IH. }
  rewrite EL. split; [exact I1|]. rewrite I2. f_equal. cbn [existsb].
  assert (LC : existsb (fun x => negb (Bool.eqb x v)) vs = false -> last vs v = v).
  { clear. induction vs as [|w vs IH]; intros H; [reflexivity|]. cbn [existsb] in H. apply orb_false_iff in H. destruct H as [H1 H2].
    apply negb_false_iff, Bool.eqb_prop in H1. subst w. destruct vs as [|u vs]; [reflexivity|]. apply IH. exact H2. }
  destruct (existsb (fun x => negb (Bool.eqb x v)) vs) eqn:EX.
  - destruct (negb (Bool.eqb v value)) eqn:EV; cbn [orb]; [reflexivity|]. apply negb_false_iff, Bool.eqb_prop in EV. rewrite <- EV, EX. reflexivity.
  - specialize (LC eq_refl). destruct (negb (Bool.eqb v value)) eqn:EV; cbn [orb]; [congruence|]. apply negb_false_iff, Bool.eqb_prop in EV.
    rewrite <- EV, EX. reflexivity.
Qed.
Lemma follow_l : forall timer pin led b outs, pin <> led -> sane timer b -> p_pwm (b led) = None ->
  let vs := map (fun out : Z -> bool -> bool => out pin false) outs in
  signal_of (snd (follow_run timer pin led (follow_new timer pin led b) outs) led) =
  SLevel (if existsb (fun v => v) vs then last vs false else p_latch (b led)).
Proof.
  intros timer pin led b outs N S P. unfold follow_new. set (o := fun _ _ => false). cbn [p_run].
  pose proof (step_frame timer o b (POut led) S) as [S1 F1]. pose proof (pins_new_l timer o b led S) as (_ & Q & _). specialize (Q P).
  destruct (p_step timer o b (POut led)) as [b1 v1]. cbn [fst] in S1, F1, Q.
  pose proof (step_frame timer o b1 (PIn pin) S1) as [S2 F2]. destruct (p_step timer o b1 (PIn pin)) as [b2 v2] eqn:E2. cbn [fst pin_of] in *.
  assert (X : b2 pin = mkPin false false (p_pwm (b1 pin))) by (cbn [p_step] in E2; injection E2 as <- <-; rewrite mode_at, Z.eqb_refl; reflexivity).
  destruct (follow_rounds timer pin led outs false b2 (p_latch (b led)) N S2) as [_ R].
  - rewrite X. reflexivity.
  - rewrite X. reflexivity.
  - rewrite F2 by congruence. exact Q.
  - cbv zeta. rewrite R. f_equal.
    assert (EE : forall vs, existsb (fun v => negb (Bool.eqb v false)) vs = existsb (fun v => v) vs).
    { intros vs. induction vs as [|v vs IHv]; [reflexivity|]. cbn [existsb]. rewrite IHv. destruct v; reflexivity. }
    rewrite EE. reflexivity.
Qed.

(** ** The counter *)
Section Counter.
Variable max : Z.
Hypothesis Hmax : 0 <= max < 2147483647.
Notation run := (task_run (ct_do max) (ct_cond max)).
Notation step := (task_step (ct_do max) (ct_cond max) ct_body).
Lemma step_run : forall s t s1 m t2 s2, step s = Some (t, s1) -> run m ct_body s1 = Some (t2, s2) -> run (S m) ct_body s = Some (t ++ t2, s2).
Proof. intros s t s1 m t2 s2 H1 H2. cbn [task_run]. rewrite H1, H2. reflexivity. Qed.
Definition same_w : option counter -> option counter := fun w => w.
Lemma count_rounds : forall n c out, 0 <= c <= max ->
  exists m tr, run m ct_body (Idle 22 (Some (mkCounter c out)) (repeat same_w n)) =
    Some (tr, Idle 22 (Some (mkCounter ((c + Z.of_nat n) mod (max + 1)) (out ++ repeat max (Z.to_nat ((c + Z.of_nat n) / (max + 1)))))) []) /\
    returns tr = repeat true n.
Proof.
  induction n as [|n IH]; intros c out Hc.
  - exists O, []. cbn [repeat task_run task_step]. replace (c + Z.of_nat 0) with c by lia. rewrite Z.mod_small, Z.div_small by lia. cbn [Z.to_nat repeat]. rewrite app_nil_r. split; reflexivity.
  - cbn [repeat]. destruct (Z.eq_dec c max) as [->|N].
    + destruct (IH 0 (out ++ [max]) ltac:(lia)) as (m & tr & E & R).
      eexists. eexists. split.
      { eapply step_run.
        { cbn [task_step]. change (22 =? 0) with false. cbn [find_label ct_body]. change (22 =? 22) with true. cbn [ct_cond same_w ct_count ct_out].
          replace (max + 1 >? 2147483647) with false by lia. replace (max + 1 >? max) with true by lia. reflexivity. }
        eapply step_run; [reflexivity|]. eapply step_run; [reflexivity|]. eapply step_run; [reflexivity|].
        eapply step_run; [reflexivity|]. eapply step_run; [reflexivity|]. eapply step_run; [reflexivity|].
        cbn [ct_do ct_count ct_out]. rewrite E. do 3 f_equal.
        replace (max + Z.of_nat (S n)) with (0 + Z.of_nat n + 1 * (max + 1)) by lia. rewrite Z.mod_add, Z.div_add by lia. do 2 f_equal.
        rewrite <- app_assoc. f_equal. replace (Z.to_nat ((0 + Z.of_nat n) / (max + 1) + 1)) with (S (Z.to_nat ((0 + Z.of_nat n) / (max + 1)))); [reflexivity|].
        pose proof (Z.div_pos (0 + Z.of_nat n) (max + 1) ltac:(lia) ltac:(lia)). lia. }
      cbn [app returns]. rewrite R. reflexivity.
    + destruct (IH (c + 1) out ltac:(lia)) as (m & tr & E & R).
      eexists. eexists. split.
      { eapply step_run.
        { cbn [task_step]. change (22 =? 0) with false. cbn [find_label ct_body]. change (22 =? 22) with true. cbn [ct_cond same_w ct_count ct_out].
          replace (c + 1 >? 2147483647) with false by lia. replace (c + 1 >? max) with false by lia. reflexivity. }
        rewrite E. replace (c + 1 + Z.of_nat n) with (c + Z.of_nat (S n)) by lia. reflexivity. }
      cbn [app returns]. rewrite R. reflexivity.
Qed.
Lemma counter_l : forall n, exists m tr,
  run m ct_body (Idle 0 (Some (mkCounter 0 [])) (repeat same_w (S n))) =
    Some (tr, Idle 22 (Some (mkCounter (Z.of_nat n mod (max + 1)) (repeat max (Z.to_nat (Z.of_nat n / (max + 1)))))) []) /\
  returns tr = repeat true (S n).
Proof.
  intros n. destruct (count_rounds n 0 [] ltac:(lia)) as (m & tr & E & R). cbn [repeat].
  eexists. eexists. split.
  { eapply step_run; [reflexivity|]. eapply step_run; [reflexivity|]. eapply step_run; [reflexivity|]. eapply step_run; [reflexivity|].
    unfold same_w at 1. rewrite E. reflexivity. }
  cbn [app returns]. rewrite R. reflexivity.
Qed.
End Counter.

(** With the largest long as maximum. *)
Section Largest.
Notation M := 2147483647.
Notation run := (task_run (ct_do M) (ct_cond M)).
Lemma largest_rounds : forall n c, 0 <= c <= M -> c + Z.of_nat n <= M + 1 ->
  exists m tr, run m ct_body (Idle 22 (Some (mkCounter c [])) (repeat same_w n)) =
    Some (tr, Idle 22 (if c + Z.of_nat n <=? M then Some (mkCounter (c + Z.of_nat n) []) else None) []).
Proof.
  induction n as [|n IH]; intros c Hc Hn.
  - exists O, []. cbn [repeat task_run task_step]. replace (c + Z.of_nat 0) with c by lia. replace (c <=? M) with true by lia. reflexivity.
  - cbn [repeat]. destruct (Z.eq_dec c M) as [->|N].
    + assert (n = O) as -> by lia. eexists. eexists. cbn [repeat]. replace (M + Z.of_nat 1 <=? M) with false by reflexivity.
      eapply step_run.
      { cbn [task_step]. change (22 =? 0) with false. cbn [find_label ct_body]. change (22 =? 22) with true. cbn [ct_cond same_w ct_count ct_out].
        replace (M + 1 >? 2147483647) with true by reflexivity. reflexivity. }
      eapply step_run; [reflexivity|]. eapply step_run; [reflexivity|]. eapply step_run; [reflexivity|].
      eapply step_run; [reflexivity|]. eapply step_run; [reflexivity|]. eapply step_run; [reflexivity|].
      instantiate (2 := O). reflexivity.
    + destruct (IH (c + 1) ltac:(lia) ltac:(lia)) as (m & tr & E).
      eexists. eexists. eapply step_run.
      { cbn [task_step]. change (22 =? 0) with false. cbn [find_label ct_body]. change (22 =? 22) with true. cbn [ct_cond same_w ct_count ct_out].
        replace (c + 1 >? 2147483647) with false by lia. reflexivity. }
      rewrite E. replace (c + 1 + Z.of_nat n) with (c + Z.of_nat (S n)) by lia. reflexivity.
Qed.
Lemma counter_largest_l : forall n, Z.of_nat n <= M + 1 -> exists m tr,
  run m ct_body (Idle 0 (Some (mkCounter 0 [])) (repeat same_w (S n))) =
    Some (tr, Idle 22 (if Z.of_nat n <=? M then Some (mkCounter (Z.of_nat n) []) else None) []).
Proof.
  intros n Hn. destruct (largest_rounds n 0 ltac:(lia) ltac:(lia)) as (m & tr & E). cbn [repeat].
  eexists. eexists. eapply step_run; [reflexivity|]. eapply step_run; [reflexivity|]. eapply step_run; [reflexivity|]. eapply step_run; [reflexivity|].
  unfold same_w at 1. rewrite E. reflexivity.
Qed.
End Largest.
