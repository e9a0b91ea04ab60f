Require Import ZArith List Bool Lia ZifyBool.
Import ListNotations.
From Verif Require Import Base BaseFacts RangeModel PidModel PidSpec.
Open Scope Z_scope.

Lemma clip_limit : forall r v, r_begin r <= r_end r -> clip r v = limit r v.
Proof. intros r v H. unfold clip, limit. destruct (v >? r_end r) eqn:A; [destruct (r_end r <? r_begin r) eqn:B|destruct (v <? r_begin r) eqn:B]; lia. Qed.
Lemma limit_range : forall r v, r_begin r <= r_end r -> r_begin r <= limit r v <= r_end r.
Proof. intros. unfold limit. lia. Qed.

Lemma bind_some : forall A B (o : option A) (f : A -> option B) b, bind o f = Some b -> exists a, o = Some a /\ f a = Some b.
Proof. intros A B [a|] f b H; [exists a; auto|discriminate]. Qed.
Lemma chk_some : forall t v x, chk t v = Some x -> x = v.
Proof. intros t v x H. unfold chk in H. destruct (_ && _); congruence. Qed.

Lemma error_l : forall t largest s i s' e, 0 <= largest -> calc_error t largest s i = Some (s', e) ->
  e = err largest i /\ p_last s' = p_last s /\ p_acc s' = (if Z.abs (raw_error i) <=? largest then 0 else p_acc s).
Proof.
  intros t largest s i s' e Hl H. unfold calc_error in H.
  apply bind_some in H. destruct H as (x & Hx & H). apply chk_some in Hx. subst x. unfold err, raw_error.
  destruct (Z.abs (i_set i - i_feedback i) <=? largest) eqn:D.
  - match type of H with (if ?b then _ else _) = _ => replace b with true in H by lia end.
    injection H as <- <-. auto.
  - match type of H with (if ?b then _ else _) = _ => replace b with false in H by lia end.
    injection H as <- <-. auto.
Qed.

Lemma quot_div0 : forall a b, 0 < b -> Z.quot a b = div0 a b.
Proof.
  intros a b Hb. unfold div0. destruct (Z_lt_dec a 0) as [Ha|Ha].
  - replace a with (- - a) at 1 by lia. rewrite Z.quot_opp_l by lia. rewrite Z.quot_div_nonneg by lia.
    replace (Z.abs a) with (- a) by lia. replace (Z.sgn a) with (-1) by lia. lia.
  - rewrite Z.quot_div_nonneg by lia. replace (Z.abs a) with a by lia.
    destruct (Z.eq_dec a 0) as [->|]; [reflexivity|]. replace (Z.sgn a) with 1 by lia. lia.
Qed.

(** One step for T = long. *)
Lemma step_long : forall r largest s i s' v, 0 <= largest -> r_begin r <= r_end r -> 0 <= i_dt i ->
  process TLong r largest s i = Some (s', v) ->
  p_acc s' = integral_step r largest (p_acc s) i /\ p_last s' = filtered largest i /\
  v = pid_output r largest (p_acc s) (p_last s) [] i.
Proof.
  intros r largest s i s' v Hl Hr Hd H. unfold process in H.
  apply bind_some in H. destruct H as ([s1 e] & H1 & H).
  destruct (error_l _ _ _ _ _ _ Hl H1) as (E1 & E2 & E3).
  apply bind_some in H. destruct H as (p & H2 & H).
  apply bind_some in H. destruct H as ([s2 ii] & H3 & H).
  apply bind_some in H. destruct H as ([s3 d] & H4 & H).
  apply bind_some in H. destruct H as (pi & H5 & H).
  apply bind_some in H. destruct H as (va & H6 & H). injection H as <- <-.
  apply chk_some in H5. apply chk_some in H6. subst.
  assert (P : p = i_p i * err largest i).
  { unfold calc_p in H2. destruct (i_p i =? 0) eqn:Z0; [injection H2 as <-; assert (i_p i = 0) by lia; nia|].
    apply chk_some in H2. subst. lia. }
  assert (I1 : p_acc s2 = integral_step r largest (p_acc s) i /\ ii = p_acc s2 /\ p_last s2 = p_last s).
  { unfold calc_i in H3. unfold integral_step. destruct (i_i i =? 0) eqn:Z0.
    - injection H3 as <- <-. rewrite E3. auto.
    - apply bind_some in H3. destruct H3 as (acc & A & H3). injection H3 as <- <-. cbn [p_acc p_last].
      apply bind_some in A. destruct A as (a & A1 & A). apply chk_some in A1.
      apply bind_some in A. destruct A as (b & B1 & A). apply chk_some in B1. apply chk_some in A. subst.
      rewrite clip_limit by assumption. rewrite E3. auto. }
  destruct I1 as (I1 & I2 & I3).
  unfold calc_d in H4. apply bind_some in H4. destruct H4 as (dv & D1 & H4). injection H4 as <- <-. cbn [p_acc p_last].
  split; [exact I1|]. split; [reflexivity|].
  rewrite clip_limit by assumption. unfold pid_output. cbn [app]. unfold integral. cbn [fold_left]. unfold last_filtered. cbn [rev].
  subst ii. rewrite I1, P. f_equal. f_equal.
  destruct (i_d i =? 0) eqn:Z0; [congruence|].
  apply bind_some in D1. destruct D1 as (df & F1 & D1). apply chk_some in F1.
  apply bind_some in D1. destruct D1 as (nm & G1 & D1). apply chk_some in G1.
  destruct (i_dt i =? 0) eqn:Zd; [discriminate|]. injection D1 as <-. subst.
  rewrite quot_div0 by lia. f_equal. unfold filtered. rewrite I3. lia.
Qed.

Lemma last_filtered_snoc : forall largest last ins i, last_filtered largest last (ins ++ [i]) = filtered largest i.
Proof. intros. unfold last_filtered. rewrite rev_app_distr. reflexivity. Qed.

Lemma run_long_gen : forall r largest ins s s' vs acc last before, 0 <= largest -> r_begin r <= r_end r ->
  Forall (fun i => 0 <= i_dt i) ins -> p_acc s = integral r largest acc before -> p_last s = last_filtered largest last before ->
  pid_run TLong r largest s ins = Some (s', vs) ->
  p_acc s' = integral r largest acc (before ++ ins) /\ length vs = length ins /\
  forall n i, nth_error ins n = Some i ->
    nth_error vs n = Some (pid_output r largest acc last (before ++ firstn n ins) i).
Proof.
  intros r largest. induction ins as [|i ins IH]; intros s s' vs acc last before Hl Hr F A L H.
  - injection H as <- <-. rewrite app_nil_r. repeat split; auto. intros [|n] i E; discriminate.
  - cbn [pid_run] in H. apply bind_some in H. destruct H as ([s1 v] & H1 & H).
    apply bind_some in H. destruct H as ([s2 vr] & H2 & H). injection H as <- <-.
    inversion F; subst.
    destruct (step_long r largest s i s1 v Hl Hr H3 H1) as (B1 & B2 & B3).
    destruct (IH s1 s2 vr acc last (before ++ [i]) Hl Hr H4) as (C1 & C2 & C3); auto.
    + rewrite B1, A. unfold integral. rewrite fold_left_app. reflexivity.
    + rewrite B2, last_filtered_snoc. reflexivity.
    + rewrite <- app_assoc in C1. cbn [app] in C1. split; [exact C1|]. split; [cbn; congruence|].
      intros [|n] j E.
      * cbn in E. injection E as <-. cbn [nth_error firstn]. rewrite app_nil_r. rewrite B3.
        unfold pid_output. cbn [app]. f_equal. f_equal.
        assert (Q : integral r largest (p_acc s) [i] = integral r largest acc (before ++ [i])).
        { unfold integral. rewrite fold_left_app. cbn [fold_left]. fold (integral r largest acc before). rewrite A. reflexivity. }
        rewrite Q. unfold last_filtered at 1. cbn [rev]. rewrite L. reflexivity.
      * cbn [nth_error] in E |- *. rewrite (C3 n j E). rewrite firstn_cons. rewrite <- app_assoc. reflexivity.
Qed.

Lemma run_long : forall r largest ins s s' vs, 0 <= largest -> r_begin r <= r_end r ->
  Forall (fun i => 0 <= i_dt i) ins ->
  pid_run TLong r largest s ins = Some (s', vs) ->
  p_acc s' = integral r largest (p_acc s) ins /\ length vs = length ins /\
  forall n i, nth_error ins n = Some i ->
    nth_error vs n = Some (pid_output r largest (p_acc s) (p_last s) (firstn n ins) i).
Proof.
  intros r largest ins s s' vs Hl Hr F H.
  apply (run_long_gen r largest ins s s' vs (p_acc s) (p_last s) []); auto.
Qed.

(** Every T: outputs and integral limited. *)
Lemma clip_range : forall r v, r_begin r <= r_end r -> r_begin r <= clip r v <= r_end r.
Proof. intros. rewrite clip_limit by assumption. apply limit_range. assumption. Qed.

Lemma step_bounds : forall t r largest s i s' v, r_begin r <= r_end r ->
  process t r largest s i = Some (s', v) ->
  r_begin r <= v <= r_end r /\
  (i_i i <> 0 -> r_begin r <= p_acc s' <= r_end r) /\
  (r_begin r <= 0 <= r_end r -> r_begin r <= p_acc s <= r_end r -> r_begin r <= p_acc s' <= r_end r).
Proof.
  intros t r largest s i s' v Hr H. unfold process in H.
  apply bind_some in H. destruct H as ([s1 e] & H1 & H).
  apply bind_some in H. destruct H as (p & H2 & H).
  apply bind_some in H. destruct H as ([s2 ii] & H3 & H).
  apply bind_some in H. destruct H as ([s3 d] & H4 & H).
  apply bind_some in H. destruct H as (pi & H5 & H).
  apply bind_some in H. destruct H as (va & H6 & H). injection H as <- <-.
  split; [apply clip_range; assumption|].
  unfold calc_d in H4. apply bind_some in H4. destruct H4 as (dv & D1 & H4). injection H4 as <- <-. cbn [p_acc].
  unfold calc_i in H3. unfold calc_error in H1. apply bind_some in H1. destruct H1 as (x & _ & H1).
  destruct (i_i i =? 0) eqn:Z0.
  - injection H3 as <- <-. split; [lia|]. intros R0 R1.
    destruct (_ || _); injection H1 as <- <-; cbn [p_acc]; assumption.
  - apply bind_some in H3. destruct H3 as (acc & _ & H3). injection H3 as <- <-. cbn [p_acc].
    split; intros; apply clip_range; assumption.
Qed.

Lemma run_bounds : forall t r largest ins s s' vs, r_begin r <= r_end r ->
  pid_run t r largest s ins = Some (s', vs) ->
  Forall (fun v => r_begin r <= v <= r_end r) vs /\
  (r_begin r <= 0 <= r_end r -> r_begin r <= p_acc s <= r_end r -> r_begin r <= p_acc s' <= r_end r).
Proof.
  intros t r largest. induction ins as [|i ins IH]; intros s s' vs Hr H.
  - injection H as <- <-. split; [constructor|auto].
  - cbn [pid_run] in H. apply bind_some in H. destruct H as ([s1 v] & H1 & H).
    apply bind_some in H. destruct H as ([s2 vr] & H2 & H). injection H as <- <-.
    destruct (step_bounds _ _ _ _ _ _ _ Hr H1) as (B1 & B2 & B3).
    destruct (IH s1 s2 vr Hr H2) as (C1 & C2). split; [constructor; assumption|]. auto.
Qed.

(** ** Consequences about the integral *)
Lemma integral_sum : forall r largest ins acc, r_begin r <= r_end r ->
  Forall (fun i => ~ dead largest i /\ i_i i <> 0) ins ->
  (forall n, (n <= length ins)%nat ->
     r_begin r <= acc + fold_right Z.add 0 (map (fun i => raw_error i * i_dt i * i_i i) (firstn n ins)) <= r_end r) ->
  integral r largest acc ins = acc + fold_right Z.add 0 (map (fun i => raw_error i * i_dt i * i_i i) ins).
Proof.
  intros r largest. induction ins as [|i ins IH]; intros acc Hr F B.
  - cbn. lia.
  - inversion F as [|? ? [Fd Fi] Fr]; subst. cbn [map fold_right]. unfold integral. cbn [fold_left].
    assert (S1 : integral_step r largest acc i = acc + raw_error i * i_dt i * i_i i).
    { unfold integral_step, err. unfold dead in Fd. replace (Z.abs (raw_error i) <=? largest) with false by lia.
      replace (i_i i =? 0) with false by lia.
      pose proof (B 1%nat ltac:(cbn; lia)) as B1. cbn [firstn map fold_right] in B1. unfold limit. lia. }
    rewrite S1. fold (integral r largest (acc + raw_error i * i_dt i * i_i i) ins).
    rewrite IH; auto; [lia|].
    intros n Hn. specialize (B (S n) ltac:(cbn; lia)). rewrite firstn_cons in B. cbn [map fold_right] in B. lia.
Qed.

Lemma integral_saturates : forall r largest i n acc, r_begin r <= acc <= r_end r -> ~ dead largest i -> i_i i <> 0 ->
  integral r largest acc (repeat i n) = limit r (acc + Z.of_nat n * (raw_error i * i_dt i * i_i i)).
Proof.
  intros r largest i n. induction n as [|n IH]; intros acc Ha Hd Hi.
  - cbn [repeat]. unfold integral, limit. cbn [fold_left]. lia.
  - cbn [repeat]. unfold integral. cbn [fold_left].
    assert (S1 : integral_step r largest acc i = limit r (acc + raw_error i * i_dt i * i_i i)).
    { unfold integral_step, err. unfold dead in Hd. replace (Z.abs (raw_error i) <=? largest) with false by lia.
      replace (i_i i =? 0) with false by lia. reflexivity. }
    rewrite S1. fold (integral r largest (limit r (acc + raw_error i * i_dt i * i_i i)) (repeat i n)).
    rewrite IH; auto; [|unfold limit; lia].
    set (c := raw_error i * i_dt i * i_i i). rewrite Nat2Z.inj_succ.
    unfold limit. destruct (Z_le_dec 0 c); nia.
Qed.

Lemma dead_output : forall r largest acc last before i, r_begin r <= 0 <= r_end r -> dead largest i ->
  integral r largest acc (before ++ [i]) = 0 /\
  (i_d i = 0 -> pid_output r largest acc last before i = 0).
Proof.
  intros r largest acc last before i Hr Hd. unfold dead in Hd.
  assert (I0 : integral r largest acc (before ++ [i]) = 0).
  { unfold integral. rewrite fold_left_app. cbn [fold_left]. unfold integral_step, err.
    replace (Z.abs (raw_error i) <=? largest) with true by lia.
    destruct (i_i i =? 0); [reflexivity|]. unfold limit. lia. }
  split; [exact I0|]. intros D0. unfold pid_output. rewrite I0, D0. unfold err.
  replace (Z.abs (raw_error i) <=? largest) with true by lia. cbn [Z.eqb]. unfold limit. lia.
Qed.

(** ** No overflow on moderate inputs *)
Lemma chk_ok : forall v, -2147483648 <= v < 2147483648 -> chk TLong v = Some v.
Proof. intros v H. unfold chk, t_max. match goal with |- context [if ?b then _ else _] => replace b with true by lia end. reflexivity. Qed.

Lemma abs_mul : forall a b m n, Z.abs a <= m -> Z.abs b <= n -> Z.abs (a * b) <= m * n.
Proof. intros a b m n Ha Hb. rewrite Z.abs_mul. apply Z.mul_le_mono_nonneg; lia. Qed.

Lemma div0_bound : forall a b, 1 <= b -> Z.abs (div0 a b) <= Z.abs a.
Proof.
  intros a b Hb. unfold div0. rewrite Z.abs_mul.
  assert (H0 : 0 <= Z.abs a / b) by (apply Z.div_pos; lia).
  assert (H1 : Z.abs a / b <= Z.abs a).
  { apply Z.div_le_upper_bound; [lia|]. rewrite <- (Z.mul_1_l (Z.abs a)) at 1. apply Z.mul_le_mono_nonneg_r; lia. }
  rewrite (Z.abs_eq (Z.abs a / b)) by exact H0.
  set (q := Z.abs a / b) in *. clearbody q.
  assert (K : Z.abs (Z.sgn a) = 0 \/ Z.abs (Z.sgn a) = 1) by lia.
  destruct K as [-> | ->]; lia.
Qed.

Lemma run_defined : forall r largest ins s, 0 <= largest -> -1000000 <= r_begin r <= 0 -> 0 <= r_end r <= 1000000 ->
  Forall moderate ins -> r_begin r <= p_acc s <= r_end r -> Z.abs (p_last s) <= 4000 ->
  exists s' vs, pid_run TLong r largest s ins = Some (s', vs).
Proof.
  intros r largest. induction ins as [|i ins IH]; intros s Hl Hb He F Ha Hp.
  - exists s, []. reflexivity.
  - inversion F as [|? ? M Fr]; subst. pose proof M as M0. destruct M as (M1 & M2 & M3 & M4 & M5 & M6 & M7).
    assert (S1 : exists s1 v, process TLong r largest s i = Some (s1, v) /\ Z.abs (p_last s1) <= 4000).
    { unfold process, calc_error. rewrite chk_ok by lia. cbn [bind].
      set (b := _ || _).
      assert (E : exists s0 e, (if b then Some (mkPid 0 (p_last s), 0) else Some (s, i_set i - i_feedback i)) = Some (s0, e)
                   /\ Z.abs e <= 4000 /\ Z.abs (p_last s0) <= 4000 /\ r_begin r <= p_acc s0 <= r_end r).
      { destruct b; [exists (mkPid 0 (p_last s)), 0|exists s, (i_set i - i_feedback i)]; cbn; repeat split; lia. }
      destruct E as (s0 & e & E & Be & Bl & Ba). rewrite E. cbn [bind].
      assert (P : exists p, calc_p TLong e (i_p i) = Some p /\ Z.abs p <= 2000000).
      { unfold calc_p. destruct (i_p i =? 0); [exists 0; split; [reflexivity|lia]|].
        pose proof (abs_mul e (i_p i) 4000 500 Be M4) as B. exists (e * i_p i). rewrite chk_ok by lia. split; [reflexivity|lia]. }
      destruct P as (p & P & Bp). rewrite P. cbn [bind].
      assert (I1 : exists s2 ii, calc_i TLong r s0 e (i_dt i) (i_i i) = Some (s2, ii) /\ Z.abs ii <= 1000000 /\ p_last s2 = p_last s0).
      { unfold calc_i. destruct (i_i i =? 0); [exists s0, (p_acc s0); repeat split; lia|].
        pose proof (abs_mul e (i_dt i) 4000 1000 Be ltac:(lia)) as B1.
        pose proof (abs_mul (e * i_dt i) (i_i i) (4000 * 1000) 500 B1 M5) as B2.
        rewrite (chk_ok (e * i_dt i)) by lia. cbn [bind]. rewrite chk_ok by lia. cbn [bind]. rewrite chk_ok by lia. cbn [bind].
        eexists. eexists. split; [reflexivity|]. split; [|reflexivity].
        pose proof (clip_range r (p_acc s0 + e * i_dt i * i_i i) ltac:(lia)). lia. }
      destruct I1 as (s2 & ii & I1 & Bi & L2). rewrite I1. cbn [bind].
      assert (D : exists s3 d, calc_d TLong s2 e (i_dt i) (i_d i) (i_filter i) = Some (s3, d) /\ Z.abs d <= 4000000 /\ Z.abs (p_last s3) <= 4000).
      { unfold calc_d. pose proof (M7 e (i_dt i) Be) as Bf. set (f := i_filter i e (i_dt i)) in *.
        destruct (i_d i =? 0); [cbn [bind]; exists (mkPid (p_acc s2) f), 0; repeat split; cbn; lia|].
        assert (Bd : Z.abs (f - p_last s2) <= 8000) by lia.
        pose proof (abs_mul (f - p_last s2) (i_d i) 8000 500 Bd M6) as B1.
        rewrite (chk_ok (f - p_last s2)) by lia. cbn [bind]. rewrite chk_ok by lia. cbn [bind].
        replace (i_dt i =? 0) with false by lia. cbn [bind].
        eexists. eexists. split; [reflexivity|]. split; [|cbn; lia].
        rewrite quot_div0 by lia. pose proof (div0_bound ((f - p_last s2) * i_d i) (i_dt i) ltac:(lia)). lia. }
      destruct D as (s3 & d & D & Bd & L3). rewrite D. cbn [bind].
      rewrite (chk_ok (p + ii)) by (clear - Bp Bi; lia). cbn [bind].
      rewrite (chk_ok (p + ii + d)) by (clear - Bp Bi Bd; lia). cbn [bind]. eexists. eexists. split; [reflexivity|exact L3]. }
    destruct S1 as (s1 & v & S1 & L1). cbn [pid_run]. rewrite S1. cbn [bind].
    assert (R01 : r_begin r <= r_end r) by (clear - Hb He; lia).
    destruct (step_bounds _ _ _ _ _ _ _ R01 S1) as (_ & _ & B3).
    destruct (IH s1 Hl Hb He Fr ltac:(apply B3; [split; [apply Hb|apply He]|exact Ha]) L1) as (s' & vs & R). rewrite R. cbn [bind]. eauto.
Qed.

(** ** T = int *)
Lemma chk_int : forall v, int16 v -> chk TInt v = Some v.
Proof. intros v H. unfold chk, int16, t_max in *. replace ((- (32768) <=? v) && (v <? 32768)) with true by lia. reflexivity. Qed.
Lemma error_def : forall largest s i, int16 (raw_error i) -> exists s' e, calc_error TInt largest s i = Some (s', e).
Proof.
  intros largest s i H. unfold calc_error. fold (raw_error i). rewrite chk_int by exact H. cbn [bind].
  match goal with |- context [if ?b then _ else _] => destruct b end; eauto.
Qed.
Lemma int_acc : forall acc e dt b, int16 (acc + e * dt * b) ->
  s16 (u16 (u16 acc + u16 (u16 (u16 e * dt) * u16 b))) = acc + e * dt * b.
Proof.
  intros acc e dt b H. replace (u16 (u16 acc + u16 (u16 (u16 e * dt) * u16 b))) with (u16 (acc + e * dt * b)).
  - unfold s16, u16, int16 in *. rewrite Z.mod_mod by lia. cbv zeta.
    destruct (Z.ltb_spec ((acc + e * dt * b) mod 65536) 32768); clear -H H0; revert H H0; generalize (acc + e * dt * b); intros; lia.
  - unfold u16. rewrite <- Zplus_mod. rewrite (Z.add_mod acc (e * dt * b)) by lia.
    rewrite (Z.add_mod acc ((e mod 65536 * dt) mod 65536 * (b mod 65536))) by lia. f_equal. f_equal.
    rewrite <- Zmult_mod. rewrite (Z.mul_mod (e * dt) b) by lia. rewrite (Z.mul_mod (e mod 65536 * dt) b) by lia. f_equal. f_equal.
    rewrite Z.mul_mod_idemp_l by lia. reflexivity.
Qed.

Lemma step_int : forall r largest s i, 0 <= largest -> r_begin r <= r_end r -> 0 <= i_dt i ->
  fits_int r largest (p_acc s) (p_last s) [] i -> 
  exists s' v, process TInt r largest s i = Some (s', v) /\
  p_acc s' = integral_step r largest (p_acc s) i /\ p_last s' = filtered largest i /\
  v = pid_output r largest (p_acc s) (p_last s) [] i.
Proof.
  intros r largest s i Hl Hr Hd F. unfold fits_int in F. cbv zeta in F. cbn [app] in F.
  unfold last_filtered in F. cbn [rev] in F. unfold integral in F. cbn [fold_left] in F.
  destruct F as (F1 & F2 & F3 & F4 & F5 & F6).
  destruct (error_def largest s i F1) as (s1 & e & H1). destruct (error_l _ _ _ _ _ _ Hl H1) as (E1 & E2 & E3).
  unfold process. rewrite H1. cbn [bind]. subst e.
  assert (P : calc_p TInt (err largest i) (i_p i) = Some (i_p i * err largest i)).
  { unfold calc_p. destruct (Z.eqb_spec (i_p i) 0) as [->|]; [reflexivity|]. rewrite (Z.mul_comm (err largest i)). apply chk_int. exact F2. }
  rewrite P. cbn [bind].
  assert (I1 : exists s2, calc_i TInt r s1 (err largest i) (i_dt i) (i_i i) = Some (s2, p_acc s2) /\
    p_acc s2 = integral_step r largest (p_acc s) i /\ p_last s2 = p_last s).
  { unfold calc_i, integral_step. destruct (Z.eqb_spec (i_i i) 0) as [Z0|Z0].
    - exists s1. rewrite E3. auto.
    - specialize (F3 Z0). rewrite <- E3 in *. rewrite int_acc by exact F3. cbn [bind].
      exists (mkPid (clip r (p_acc s1 + err largest i * i_dt i * i_i i)) (p_last s1)). split; [reflexivity|].
      cbn [p_acc p_last]. rewrite clip_limit by exact Hr. split; [reflexivity|exact E2]. }
  destruct I1 as (s2 & -> & I2 & I3). cbn [bind].
  assert (D : calc_d TInt s2 (err largest i) (i_dt i) (i_d i) (i_filter i) = Some (mkPid (p_acc s2) (filtered largest i),
     if i_d i =? 0 then 0 else div0 (i_d i * (filtered largest i - p_last s)) (i_dt i))).
  { unfold calc_d. cbv zeta. fold (filtered largest i). destruct (Z.eqb_spec (i_d i) 0) as [Z0|Z0]; [reflexivity|].
    destruct (F6 Z0) as (G1 & G2 & G3). rewrite I3. rewrite chk_int by exact G2. cbn [bind].
    rewrite (Z.mul_comm (filtered largest i - p_last s)). rewrite chk_int by (unfold int16; clear -G3; lia). cbn [bind].
    destruct (Z.eqb_spec (i_dt i) 0) as [X|_]; [clear -X G1; lia|]. cbn [bind]. f_equal. f_equal.
    remember (i_d i * (filtered largest i - p_last s)) as num. clear -G1 G3.
    assert (0 <= num / i_dt i <= num).
    { split; [apply Z.div_pos; lia|]. apply Z.div_le_upper_bound; [lia|]. nia. }
    unfold u16. rewrite Z.mod_small by lia. rewrite s16_small by lia. rewrite <- quot_div0 by lia. rewrite Z.quot_div_nonneg by lia. reflexivity. }
  rewrite D. cbn [bind]. rewrite I2. rewrite chk_int by exact F4. cbn [bind]. rewrite chk_int by exact F5. cbn [bind].
  eexists. eexists. split; [reflexivity|]. cbn [p_acc p_last]. split; [reflexivity|]. split; [reflexivity|].
  rewrite clip_limit by exact Hr. reflexivity.
Qed.

Lemma run_int_gen : forall r largest ins s acc last before, 0 <= largest -> r_begin r <= r_end r ->
  Forall (fun i => 0 <= i_dt i) ins -> p_acc s = integral r largest acc before -> p_last s = last_filtered largest last before ->
  (forall n i, nth_error ins n = Some i -> fits_int r largest acc last (before ++ firstn n ins) i) ->
  exists s' vs, pid_run TInt r largest s ins = Some (s', vs) /\
  p_acc s' = integral r largest acc (before ++ ins) /\ length vs = length ins /\
  forall n i, nth_error ins n = Some i ->
    nth_error vs n = Some (pid_output r largest acc last (before ++ firstn n ins) i).
Proof.
  intros r largest. induction ins as [|i ins IH]; intros s acc last before Hl Hr F A L H.
  - exists s, []. rewrite app_nil_r. repeat split; auto. intros [|n] i E; discriminate.
  - inversion F; subst.
    assert (Q : integral r largest (p_acc s) [i] = integral r largest acc (before ++ [i])).
    { unfold integral. rewrite fold_left_app. cbn [fold_left]. fold (integral r largest acc before). rewrite A. reflexivity. }
    assert (F0 : fits_int r largest (p_acc s) (p_last s) [] i).
    { pose proof (H O i eq_refl) as X. cbn [firstn] in X. rewrite app_nil_r in X. unfold fits_int in *. cbn [app].
      rewrite Q. unfold last_filtered at 1 2. cbn [rev]. rewrite L. unfold integral at 1. cbn [fold_left]. rewrite A. exact X. }
    destruct (step_int r largest s i Hl Hr H2 F0) as (s1 & v & H1 & B1 & B2 & B3).
    destruct (IH s1 acc last (before ++ [i]) Hl Hr H3) as (s2 & vr & R2 & C1 & C2 & C3).
    + rewrite B1, A. unfold integral. rewrite fold_left_app. reflexivity.
    + rewrite B2, last_filtered_snoc. reflexivity.
    + intros n j E. rewrite <- app_assoc. apply (H (S n) j E).
    + exists s2, (v :: vr). cbn [pid_run]. rewrite H1. cbn [bind]. rewrite R2. cbn [bind]. split; [reflexivity|].
      rewrite <- app_assoc in C1. cbn [app] in C1. split; [exact C1|]. split; [cbn; congruence|].
      intros [|n] j E.
      * cbn in E. injection E as <-. cbn [nth_error firstn]. rewrite app_nil_r. rewrite B3.
        unfold pid_output. cbn [app]. f_equal. f_equal. rewrite Q. unfold last_filtered at 1. cbn [rev]. rewrite L. reflexivity.
      * cbn [nth_error] in E |- *. rewrite (C3 n j E). rewrite firstn_cons. rewrite <- app_assoc. reflexivity.
Qed.

Lemma run_int : forall r largest ins s, 0 <= largest -> r_begin r <= r_end r -> Forall (fun i => 0 <= i_dt i) ins ->
  (forall n i, nth_error ins n = Some i -> fits_int r largest (p_acc s) (p_last s) (firstn n ins) i) ->
  exists s' vs, pid_run TInt r largest s ins = Some (s', vs) /\
  p_acc s' = integral r largest (p_acc s) ins /\ length vs = length ins /\
  forall n i, nth_error ins n = Some i ->
    nth_error vs n = Some (pid_output r largest (p_acc s) (p_last s) (firstn n ins) i).
Proof. intros r largest ins s Hl Hr F H. apply (run_int_gen r largest ins s (p_acc s) (p_last s) []); auto. Qed.

(** A falling derivative. *)
Lemma int_falls : forall s e dt bias filter, 2 <= dt < 65536 -> bias <> 0 -> let num := (filter e dt - p_last s) * bias in
  int16 (filter e dt - p_last s) -> int16 num -> num < 0 ->
  exists v, calc_d TInt s e dt bias filter = Some (mkPid (p_acc s) (filter e dt), v) /\
    v = (65536 + num) / dt /\ 0 <= v /\ Z.quot num dt <= 0.
Proof.
  intros s e dt bias filter Hdt Hb num H1 H2 Hn. unfold calc_d. cbv zeta. destruct (Z.eqb_spec bias 0); [contradiction|].
  rewrite chk_int by exact H1. cbn [bind]. fold num. rewrite chk_int by exact H2. cbn [bind].
  destruct (Z.eqb_spec dt 0) as [X|_]; [clear -X Hdt; lia|]. cbn [bind]. eexists. split; [reflexivity|].
  unfold int16 in H2. clearbody num. clear -Hdt H2 Hn.
  assert (U : u16 num = 65536 + num).
  { unfold u16. replace num with (65536 + num + (-1) * 65536) at 1 by lia. rewrite Z.mod_add by lia. apply Z.mod_small. lia. }
  rewrite U. assert (0 <= (65536 + num) / dt <= 32767).
  { split; [apply Z.div_pos; lia|]. apply Z.lt_succ_r. apply Z.div_lt_upper_bound; [lia|]. nia. }
  rewrite s16_small by lia. split; [reflexivity|]. split; [lia|]. replace num with (- - num) by lia.
  rewrite Z.quot_opp_l by lia. assert (0 <= Z.quot (- num) dt) by (apply Z.quot_pos; lia). lia.
Qed.

(** *** When T = long is defined *)
Lemma chk_long : forall v, int32 v -> chk TLong v = Some v.
Proof. intros v H. unfold chk, t_max, int32 in *. destruct (_ && _) eqn:E; [reflexivity|clear -H E; lia]. Qed.
Lemma chk_long_none : forall v, ~ int32 v -> chk TLong v = None.
Proof. intros v H. unfold chk, t_max, int32 in *. destruct (_ && _) eqn:E; [clear -H E; lia|reflexivity]. Qed.
Lemma int32_dec : forall v, int32 v \/ ~ int32 v.
Proof. intros v. unfold int32. clear. lia. Qed.
Lemma quot_div0_pos : forall a b, 1 <= b -> Z.quot a b = div0 a b.
Proof. intros a b H. apply quot_div0. clear -H. lia. Qed.

Lemma step_long_iff : forall r largest s i, 0 <= largest -> r_begin r <= r_end r -> 0 <= i_dt i ->
  (process TLong r largest s i <> None <-> fits_long r largest (p_acc s) (p_last s) [] i).
Proof.
  intros r largest s i Hl Hr Hd. unfold fits_long. cbv zeta. cbn [app].
  unfold last_filtered. cbn [rev]. unfold integral. cbn [fold_left].
  unfold process. destruct (int32_dec (raw_error i)) as [F1|F1].
  2: { unfold calc_error. fold (raw_error i). rewrite chk_long_none by exact F1. cbn [bind]. tauto. }
  assert (H1 : exists s1 e, calc_error TLong largest s i = Some (s1, e)).
  { unfold calc_error. fold (raw_error i). rewrite chk_long by exact F1. cbn [bind]. destruct (_ || _); eauto. }
  destruct H1 as (s1 & e & H1). destruct (error_l _ _ _ _ _ _ Hl H1) as (E1 & E2 & E3).
  rewrite H1. cbn [bind]. subst e. unfold calc_p.
  destruct (int32_dec (i_p i * err largest i)) as [F2|F2].
  2: { destruct (Z.eqb_spec (i_p i) 0) as [Z0|_]; [exfalso; apply F2; rewrite Z0; unfold int32; clear; lia|].
       rewrite (Z.mul_comm (err largest i)), chk_long_none by exact F2. cbn [bind]. tauto. }
  assert (P : (if i_p i =? 0 then Some 0 else chk TLong (err largest i * i_p i)) = Some (i_p i * err largest i)).
  { destruct (Z.eqb_spec (i_p i) 0) as [->|]; [reflexivity|]. rewrite (Z.mul_comm (err largest i)). apply chk_long. exact F2. }
  rewrite P. cbn [bind]. clear P.
  assert (I1 : (exists s2, calc_i TLong r s1 (err largest i) (i_dt i) (i_i i) = Some (s2, p_acc s2) /\
      p_acc s2 = integral_step r largest (p_acc s) i /\ p_last s2 = p_last s /\
      (i_i i <> 0 -> int32 (err largest i * i_dt i) /\ int32 (err largest i * i_dt i * i_i i) /\ int32 (p_acc s1 + err largest i * i_dt i * i_i i))) \/
    (calc_i TLong r s1 (err largest i) (i_dt i) (i_i i) = None /\
      ~ (i_i i <> 0 -> int32 (err largest i * i_dt i) /\ int32 (err largest i * i_dt i * i_i i) /\ int32 (p_acc s1 + err largest i * i_dt i * i_i i)))).
  { unfold calc_i, integral_step. destruct (Z.eqb_spec (i_i i) 0) as [Z0|Z0].
    - left. exists s1. rewrite E3. repeat split; auto; contradiction.
    - destruct (int32_dec (err largest i * i_dt i)) as [A|A]; [|right; rewrite chk_long_none by exact A; split; [reflexivity|tauto]].
      rewrite chk_long by exact A. cbn [bind].
      destruct (int32_dec (err largest i * i_dt i * i_i i)) as [B|B]; [|right; rewrite chk_long_none by exact B; split; [reflexivity|tauto]].
      rewrite chk_long by exact B. cbn [bind].
      destruct (int32_dec (p_acc s1 + err largest i * i_dt i * i_i i)) as [C|C]; [|right; rewrite chk_long_none by exact C; split; [reflexivity|tauto]].
      rewrite chk_long by exact C. cbn [bind]. left.
      exists (mkPid (clip r (p_acc s1 + err largest i * i_dt i * i_i i)) (p_last s1)). split; [reflexivity|].
      cbn [p_acc p_last]. rewrite clip_limit by exact Hr. rewrite <- E3. split; [reflexivity|]. split; [exact E2|]. intros _. auto. }
  rewrite <- E3. destruct I1 as [(s2 & -> & I2 & I3 & I4)|(-> & I4)]; cbn [bind]; [|tauto].
  unfold calc_d. cbv zeta. fold (filtered largest i).
  assert (D : (exists d, (if i_d i =? 0 then Some 0
        else bind (chk TLong (filtered largest i - p_last s2)) (fun diff => bind (chk TLong (diff * i_d i)) (fun num =>
             if i_dt i =? 0 then None else Some (Z.quot num (i_dt i))))) = Some d /\
       d = (if i_d i =? 0 then 0 else div0 (i_d i * (filtered largest i - p_last s)) (i_dt i)) /\
      (i_d i <> 0 -> 1 <= i_dt i /\ int32 (filtered largest i - p_last s) /\ int32 (i_d i * (filtered largest i - p_last s)))) \/
      ((if i_d i =? 0 then Some 0
        else bind (chk TLong (filtered largest i - p_last s2)) (fun diff => bind (chk TLong (diff * i_d i)) (fun num =>
             if i_dt i =? 0 then None else Some (Z.quot num (i_dt i))))) = None /\
      ~ (i_d i <> 0 -> 1 <= i_dt i /\ int32 (filtered largest i - p_last s) /\ int32 (i_d i * (filtered largest i - p_last s))))).
  { rewrite I3. destruct (Z.eqb_spec (i_d i) 0) as [Z0|Z0]; [left; exists 0; repeat split; auto; contradiction|].
    destruct (int32_dec (filtered largest i - p_last s)) as [A|A]; [|right; rewrite chk_long_none by exact A; split; [reflexivity|tauto]].
    rewrite chk_long by exact A. cbn [bind]. rewrite (Z.mul_comm _ (i_d i)).
    destruct (int32_dec (i_d i * (filtered largest i - p_last s))) as [B|B]; [|right; rewrite chk_long_none by exact B; split; [reflexivity|tauto]].
    rewrite chk_long by exact B. cbn [bind].
    destruct (Z.eqb_spec (i_dt i) 0) as [X|X]; [right; split; [reflexivity|]; intros Y; destruct (Y Z0) as [Y1 _]; clear -X Y1; lia|].
    assert (Y : 1 <= i_dt i) by (clear -X Hd; lia).
    left. exists (div0 (i_d i * (filtered largest i - p_last s)) (i_dt i)). rewrite quot_div0_pos by exact Y. auto. }
  destruct D as [(d & -> & D1 & D2)|(-> & D2)]; cbn [bind]; [|tauto]. rewrite I2, <- D1. clear D1 I2.
  generalize dependent (i_p i * err largest i + integral_step r largest (p_acc s) i). intros v.
  destruct (int32_dec v) as [A|A]; [|rewrite chk_long_none by exact A; cbn [bind]; tauto].
  rewrite chk_long by exact A. cbn [bind].
  destruct (int32_dec (v + d)) as [B|B]; [|rewrite chk_long_none by exact B; cbn [bind]; tauto].
  rewrite chk_long by exact B. cbn [bind]. split; [intros _; tauto|discriminate].
Qed.

Lemma run_long_iff_gen : forall r largest ins s acc last before, 0 <= largest -> r_begin r <= r_end r ->
  Forall (fun i => 0 <= i_dt i) ins -> p_acc s = integral r largest acc before -> p_last s = last_filtered largest last before ->
  (pid_run TLong r largest s ins <> None <->
   forall n i, nth_error ins n = Some i -> fits_long r largest acc last (before ++ firstn n ins) i).
Proof.
  intros r largest. induction ins as [|i ins IH]; intros s acc last before Hl Hr F A L.
  - split; [intros _ [|n] i E; discriminate|discriminate].
  - inversion F as [|? ? D F']; subst.
    assert (Q : integral r largest (p_acc s) [i] = integral r largest acc (before ++ [i])).
    { unfold integral. rewrite fold_left_app. cbn [fold_left]. fold (integral r largest acc before). rewrite A. reflexivity. }
    assert (F0 : fits_long r largest (p_acc s) (p_last s) [] i <-> fits_long r largest acc last before i).
    { unfold fits_long. cbn [app]. rewrite Q. unfold last_filtered at 1 2 3. cbn [rev]. rewrite L. unfold integral at 1. cbn [fold_left]. rewrite A. reflexivity. }
    pose proof (step_long_iff r largest s i Hl Hr D) as St. cbn [pid_run].
    destruct (process TLong r largest s i) as [[s1 v]|] eqn:E; cbn [bind].
    + destruct (step_long r largest s i s1 v Hl Hr D E) as (B1 & B2 & _).
      assert (A1 : p_acc s1 = integral r largest acc (before ++ [i])).
      { rewrite B1, A. unfold integral. rewrite fold_left_app. reflexivity. }
      assert (L1 : p_last s1 = last_filtered largest last (before ++ [i])) by (rewrite B2, last_filtered_snoc; reflexivity).
      pose proof (IH s1 acc last (before ++ [i]) Hl Hr F' A1 L1) as R.
      assert (G : fits_long r largest acc last before i) by (apply F0, St; discriminate).
      destruct (pid_run TLong r largest s1 ins) as [[s2 vs]|]; cbn [bind].
      * split; [intros _|discriminate]. destruct R as [R _]. intros [|n] j Ej.
        -- cbn in Ej. injection Ej as <-. cbn [firstn]. rewrite app_nil_r. exact G.
        -- cbn [nth_error] in Ej. cbn [firstn]. replace (before ++ i :: firstn n ins) with ((before ++ [i]) ++ firstn n ins) by (rewrite <- app_assoc; reflexivity).
           apply R; [discriminate|exact Ej].
      * split; [intros X; contradiction|]. intros X _. destruct R as [_ R]. apply R; [|reflexivity].
        intros n j Ej. rewrite <- app_assoc. apply (X (S n) j Ej).
    + split; [intros X; contradiction|]. intros X _. specialize (X O i eq_refl). cbn [firstn] in X. rewrite app_nil_r in X.
      apply St; [apply F0; exact X|reflexivity].
Qed.
Lemma run_long_iff : forall r largest ins s, 0 <= largest -> r_begin r <= r_end r -> Forall (fun i => 0 <= i_dt i) ins ->
  (pid_run TLong r largest s ins <> None <->
   forall n i, nth_error ins n = Some i -> fits_long r largest (p_acc s) (p_last s) (firstn n ins) i).
Proof. intros r largest ins s Hl Hr F. apply (run_long_iff_gen r largest ins s (p_acc s) (p_last s) []); auto. Qed.
