(** PID in floating point. *)
Require Import ZArith List Bool Lia ZifyBool Floats.SpecFloat.
Import ListNotations.
From Verif Require Import Base BaseFacts RealModel RealSpec RealProofs FloatSpec FloatProofs PidFloatModel PidFloatSpec.
Open Scope Z_scope.
Ltac Zify.zify_post_hook ::= idtac.

Lemma nan_add_l : forall p x a, SFadd p x S754_nan a = S754_nan.
Proof. intros p x [| | |]; reflexivity. Qed.
Lemma nan_add_r : forall p x a, SFadd p x a S754_nan = S754_nan.
Proof. intros p x [| | |]; reflexivity. Qed.
Lemma nan_mul_l : forall p x a, SFmul p x S754_nan a = S754_nan.
Proof. intros p x [| | |]; reflexivity. Qed.
Lemma nan_sub_r : forall p x a, SFsub p x a S754_nan = S754_nan.
Proof. intros p x [| | |]; reflexivity. Qed.
Lemma nan_clip : forall r, fclip r S754_nan = S754_nan.
Proof. intros r. unfold fclip, f_lt, SFltb. cbn [SFcompare]. destruct (fr_end r); reflexivity. Qed.

Section Format.
Variables p x : Z.
Hypothesis Hp : 24 <= p.
Hypothesis Hx : 128 <= x.
Hypothesis Hpx : p < x.
Notation num := (number p x).
Notation val := (fval p x).
Notation vld := (valid p x).
Notation le := (le_f p x).

Lemma valid_cases : forall f, vld f -> f = S754_nan \/ (exists s, f = S754_infinity s) \/ num f.
Proof. intros [s|s| |s m e] V; eauto; right; right; split; auto; exact Logic.I. Qed.
Lemma num_not_inf : forall f, num f -> f <> S754_nan /\ forall s, f <> S754_infinity s.
Proof. intros [| | |] [F _]; try contradiction; split; intros; discriminate. Qed.
Lemma le_num : forall a b, num a -> num b -> (le a b <-> val a <= val b).
Proof. intros [| | |] [| | |] [A _] [B _]; try contradiction; reflexivity. Qed.
Lemma cmp_le : forall a b, vld a -> vld b ->
  match SFcompare a b with None => a = S754_nan \/ b = S754_nan | Some Lt => le a b /\ ~ le b a | Some Eq => le a b /\ le b a | Some Gt => ~ le a b /\ le b a end.
Proof.
  intros a b A B.
  destruct (valid_cases a A) as [->|[[s ->]|NA]]; [solve [cbn; auto]| |].
  - destruct (valid_cases b B) as [->|[[t ->]|NB]]; [solve [cbn; auto]| |].
    + destruct s, t; cbn; auto.
    + destruct b; try (destruct NB; contradiction); destruct s; cbn; auto.
  - destruct (valid_cases b B) as [->|[[t ->]|NB]].
    + destruct a; cbn; auto.
    + destruct a; try (destruct NA; contradiction); destruct t; cbn; auto.
    + rewrite (compare_l p x Hp a b NA NB).
      pose proof (le_num a b NA NB) as L1. pose proof (le_num b a NB NA) as L2.
      destruct (Z.compare_spec (val a) (val b)); split; rewrite ?L1, ?L2; lia.
Qed.
Lemma le_data : forall a b, le a b -> a <> S754_nan /\ b <> S754_nan.
Proof. intros [|[]| |] [|[]| |] H; cbn in H; try contradiction; split; discriminate. Qed.
Lemma le_total : forall a b, vld a -> vld b -> a <> S754_nan -> b <> S754_nan -> f_lt a b = false -> le b a.
Proof.
  intros a b A B NA NB H. pose proof (cmp_le a b A B) as C. unfold f_lt, SFltb in H.
  destruct (SFcompare a b) as [[]|]; try tauto. discriminate.
Qed.
Lemma lt_le : forall a b, vld a -> vld b -> f_lt a b = true -> le a b.
Proof.
  intros a b A B H. pose proof (cmp_le a b A B) as C. unfold f_lt, SFltb in H.
  destruct (SFcompare a b) as [[]|]; try discriminate. tauto.
Qed.
Lemma leb_iff : forall a b, vld a -> vld b -> (f_le a b = true <-> le a b).
Proof.
  intros a b A B. pose proof (cmp_le a b A B) as C. unfold f_le, SFleb.
  destruct (SFcompare a b) as [[]|] eqn:E; try (split; [intro; tauto|intro; tauto]); try (split; [discriminate|tauto]).
  split; [discriminate|]. intros H. apply le_data in H. tauto.
Qed.

Lemma le_refl : forall a, a <> S754_nan -> le a a.
Proof. intros [|[]| |] H; cbn; try congruence; auto; lia. Qed.
Lemma clip_in : forall r v, ok_range p x r -> vld v ->
  vld (fclip r v) /\ (v <> S754_nan -> in_frange p x r (fclip r v)) /\ (v = S754_nan -> fclip r v = S754_nan).
Proof.
  intros r v (VB & VE & BE) V. destruct (le_data _ _ BE) as [NB NE]. 
  split; [|split].
  - unfold fclip. destruct (f_lt _ v); destruct (f_lt _ (fr_begin r)); assumption.
  - intros NV. unfold fclip, in_frange. destruct (f_lt (fr_end r) v) eqn:E1.
    + destruct (f_lt (fr_end r) (fr_begin r)) eqn:E2; split; auto using le_refl.
    + destruct (f_lt v (fr_begin r)) eqn:E2; split; auto using le_refl.
      * apply le_total; assumption.
      * apply le_total; assumption.
  - intros ->. apply nan_clip.
Qed.

(** Operations give data of the type. *)
Lemma gives_valid : forall v f, gives p x v f -> vld f.
Proof. intros v f G. unfold gives in G. destruct (_ <? _); [apply G|]. subst f. reflexivity. Qed.
Lemma add_valid : forall a b, vld a -> vld b -> vld (SFadd p x a b).
Proof.
  intros a b A B. destruct (valid_cases a A) as [->|[[s ->]|NA]]; [rewrite nan_add_l; reflexivity| |].
  - destruct b as [t|t| |t m e]; cbn [SFadd]; try reflexivity. destruct (eqb s t); reflexivity.
  - destruct (valid_cases b B) as [->|[[t ->]|NB]]; [rewrite nan_add_r; reflexivity|destruct a; try (destruct NA; contradiction); reflexivity|].
    apply (gives_valid _ _ (add_l p x Hp Hpx a b NA NB)).
Qed.
Lemma sub_valid : forall a b, vld a -> vld b -> vld (SFsub p x a b).
Proof.
  intros a b A B. destruct (valid_cases a A) as [->|[[s ->]|NA]]; [destruct b; reflexivity| |].
  - destruct b as [t|t| |t m e]; cbn [SFsub]; try reflexivity. destruct (eqb s (negb t)); reflexivity.
  - destruct (valid_cases b B) as [->|[[t ->]|NB]]; [destruct a; try (destruct NA; contradiction); reflexivity|destruct a; try (destruct NA; contradiction); reflexivity|].
    apply (gives_valid _ _ (sub_l p x Hp Hpx a b NA NB)).
Qed.
Lemma mul_valid : forall a b, vld a -> vld b -> vld (SFmul p x a b).
Proof.
  intros a b A B. destruct (valid_cases a A) as [->|[[s ->]|NA]]; [destruct b; reflexivity|destruct b; reflexivity|].
  destruct (valid_cases b B) as [->|[[t ->]|NB]]; [destruct a; try (destruct NA; contradiction); reflexivity|destruct a; try (destruct NA; contradiction); reflexivity|].
  apply (gives_valid _ _ (mul_l p x Hp Hpx a b NA NB)).
Qed.
Lemma val_zero : forall a, num a -> val a = 0 -> exists s, a = S754_zero s.
Proof.
  intros [s|s| |s m e] [F V] E; try contradiction; [eauto|]. cbn [fval valid_binary] in *.
  destruct (bounded_l p x Hp m e V) as (B & _). pose proof (pos_mul m (e - emin p x) ltac:(lia)).
  destruct s; cbn [cond_Zopp] in E; lia.
Qed.
Lemma div_valid : forall a b, vld a -> vld b -> vld (SFdiv p x a b).
Proof.
  intros a b A B. destruct (valid_cases a A) as [->|[[s ->]|NA]]; [destruct b; reflexivity|destruct b; reflexivity|].
  destruct (valid_cases b B) as [->|[[t ->]|NB]]; [destruct a; try (destruct NA; contradiction); reflexivity|destruct a; try (destruct NA; contradiction); reflexivity|].
  destruct (Z.eq_dec (val b) 0) as [E|E].
  - destruct (val_zero b NB E) as [t ->]. destruct a; try (destruct NA; contradiction); reflexivity.
  - apply (gives_valid _ _ (div_l p x Hp Hpx a b NA NB E)).
Qed.
Lemma f_int_gives : forall n, gives p x (rnd p (n * U p x) 1) (f_int p x n).
Proof.
  intros n. unfold f_int, U, scale. replace (- emin p x) with (0 - emin p x) by lia.
  apply normalize_l; [lia|lia|]. unfold emin. lia.
Qed.

(** Every output and the integral are NaN or in the range. *)
Lemma process_bounds : forall r largest s i, ok_range p x r -> vld largest -> in_frange p x r f0 ->
  vld (f_acc s) -> vld (f_last s) -> (f_acc s = S754_nan \/ in_frange p x r (f_acc s)) -> fvalid_in p x i ->
  let '(s', v) := fprocess p x r largest s i in
  vld (f_acc s') /\ vld (f_last s') /\ vld v /\ (v = S754_nan \/ in_frange p x r v) /\
  (f_acc s' = S754_nan \/ in_frange p x r (f_acc s')).
Proof.
  intros r largest s i R VL R0 VA VS IA (V1 & V2 & V3 & V4 & V5 & DT & VF).
  unfold fprocess, fcalc_error. set (d := SFsub p x (f_set i) (f_feedback i)).
  assert (VD : vld d) by (apply sub_valid; assumption).
  assert (G : forall s0 e0, vld (f_acc s0) -> vld (f_last s0) -> (f_acc s0 = S754_nan \/ in_frange p x r (f_acc s0)) -> vld e0 ->
    let '(s', v) := (let pt := fcalc_p p x e0 (f_p i) in
      let '(s1, it) := fcalc_i p x r s0 e0 (f_dt i) (f_i i) in
      let '(s2, dd) := fcalc_d p x s1 e0 (f_dt i) (f_d i) (f_filter i) in (s2, fclip r (SFadd p x (SFadd p x pt it) dd))) in
    vld (f_acc s') /\ vld (f_last s') /\ vld v /\ (v = S754_nan \/ in_frange p x r v) /\
    (f_acc s' = S754_nan \/ in_frange p x r (f_acc s'))).
  { intros s0 e0 A0 L0 I0 E0. cbv zeta.
    assert (VP : vld (fcalc_p p x e0 (f_p i))). { unfold fcalc_p. destruct (f_eq _ _); [reflexivity|apply mul_valid; assumption]. }
    assert (VT : vld (f_int p x (f_dt i))) by (apply (gives_valid _ _ (f_int_gives _))).
    assert (CI : exists a, fcalc_i p x r s0 e0 (f_dt i) (f_i i) = (mkFPid a (f_last s0), a) /\ vld a /\
                           (a = S754_nan \/ in_frange p x r a)).
    { unfold fcalc_i. destruct (negb _).
      - set (w := SFadd p x _ _). assert (VW : vld w) by (apply add_valid; [assumption|]; repeat apply mul_valid; assumption).
        destruct (clip_in r w R VW) as (C1 & C2 & C3). exists (fclip r w). split; [reflexivity|]. split; [exact C1|].
        destruct w; auto; right; apply C2; discriminate.
      - exists (f_acc s0). destruct s0. auto. }
    destruct CI as (a & -> & Va & Ia). unfold fcalc_d. cbn [f_acc f_last].
    assert (VQ : vld (f_filter i e0 (f_dt i))) by (apply VF; assumption).
    set (w := SFadd p x _ _).
    assert (VW : vld w).
    { apply add_valid; [apply add_valid; assumption|]. destruct (negb _); [|reflexivity].
      apply div_valid; [|assumption]. apply mul_valid; [|assumption]. apply sub_valid; assumption. }
    destruct (clip_in r w R VW) as (C1 & C2 & C3). repeat split; auto. destruct w; auto; right; apply C2; discriminate. }
  destruct (_ || _).
  - apply (G (mkFPid f0 (f_last s)) f0); auto; reflexivity.
  - apply (G s d); auto.
Qed.
Lemma run_bounds_f : forall r largest ins s, ok_range p x r -> vld largest -> in_frange p x r f0 ->
  vld (f_acc s) -> vld (f_last s) -> (f_acc s = S754_nan \/ in_frange p x r (f_acc s)) -> Forall (fvalid_in p x) ins ->
  let '(s', vs) := fpid_run p x r largest s ins in
  length vs = length ins /\ Forall (fun v => v = S754_nan \/ in_frange p x r v) vs /\
  (f_acc s' = S754_nan \/ in_frange p x r (f_acc s')).
Proof.
  intros r largest ins. induction ins as [|i ins IH]; intros s R VL R0 VA VS IA FV; cbn [fpid_run].
  - auto.
  - inversion FV as [|? ? Fi Fr]; subst. pose proof (process_bounds r largest s i R VL R0 VA VS IA Fi) as P.
    destruct (fprocess p x r largest s i) as [s1 v]. destruct P as (P1 & P2 & P3 & P4 & P5).
    specialize (IH s1 R VL R0 P1 P2 P5 Fr). destruct (fpid_run p x r largest s1 ins) as [s2 vs].
    destruct IH as (L & F & A). cbn [length]. auto.
Qed.

(** NaN in the integral. *)
Lemma dead_iff : forall largest i, vld largest -> le f0 largest -> vld (f_set i) -> vld (f_feedback i) ->
  let error := SFsub p x (f_set i) (f_feedback i) in
  (f_le error largest && f_le f0 error) || (f_le (SFopp largest) error && f_le error f0) = true <->
  le (SFopp largest) error /\ le error largest.
Proof.
  intros largest i VL L0 V1 V2. cbv zeta. set (d := SFsub _ _ _ _). assert (VD : vld d) by (apply sub_valid; assumption).
  assert (VO : vld (SFopp largest)) by (destruct largest; exact VL). assert (V0 : vld f0) by reflexivity.
  rewrite orb_true_iff, !andb_true_iff, !leb_iff by assumption.
  destruct (le_data _ _ L0) as [_ NL].
  destruct (valid_cases d VD) as [->|[[t E]|ND]].
  - split; [intros [[H _]|[_ H]]; cbn in H; contradiction|intros [_ H]; cbn in H; contradiction].
  - rewrite E. destruct (valid_cases largest VL) as [->|[[u Eu]|NU]]; [congruence| |].
    + rewrite Eu in *. destruct t, u; cbn in *; tauto.
    + destruct largest; try (destruct NU; contradiction); destruct t; cbn; tauto.
  - assert (N0 : num f0) by (split; [exact Logic.I|reflexivity]).
    destruct (valid_cases largest VL) as [->|[[u Eu]|NU]]; [congruence| |].
    + rewrite Eu in *. destruct u; [cbn in L0; contradiction|].
      rewrite (le_num f0 d N0 ND), (le_num d f0 ND N0). destruct (num_not_inf d ND) as [X1 X2].
      assert (A1 : le d (S754_infinity false)) by (destruct d as [|[]| |]; cbn; auto).
      assert (A2 : le (SFopp (S754_infinity false)) d) by (destruct d; cbn; auto). change (val f0) with 0.
      split; [tauto|]. intros _. destruct (Z.le_ge_cases 0 (val d)); tauto.
    + destruct (opp_l p x largest NU) as [NO EO].
      rewrite (le_num f0 largest N0 NU) in L0. change (val f0) with 0 in *.
      rewrite (le_num d largest ND NU), (le_num f0 d N0 ND), (le_num _ d NO ND), (le_num d f0 ND N0), EO.
      change (val f0) with 0. lia.
Qed.

Lemma nan_process : forall r largest s i, vld largest -> le f0 largest -> vld (f_set i) -> vld (f_feedback i) ->
  f_acc s = S754_nan ->
  ~ (le (SFopp largest) (SFsub p x (f_set i) (f_feedback i)) /\ le (SFsub p x (f_set i) (f_feedback i)) largest) ->
  let '(s', v) := fprocess p x r largest s i in f_acc s' = S754_nan /\ v = S754_nan.
Proof.
  intros r largest s i VL L0 V1 V2 A D. pose proof (dead_iff largest i VL L0 V1 V2) as DI. cbv zeta in DI.
  unfold fprocess, fcalc_error. cbv zeta.
  destruct (_ || _); [destruct D; apply DI; reflexivity|].
  assert (CI : fcalc_i p x r s (SFsub p x (f_set i) (f_feedback i)) (f_dt i) (f_i i) = (mkFPid S754_nan (f_last s), S754_nan)).
  { unfold fcalc_i. rewrite A. destruct (negb _); [rewrite nan_add_l, nan_clip; reflexivity|]. rewrite <- A. destruct s; reflexivity. }
  rewrite CI. unfold fcalc_d. cbn [f_acc f_last]. split; [reflexivity|]. rewrite nan_add_r, nan_add_l. apply nan_clip.
Qed.
Lemma nan_run : forall r largest ins s, vld largest -> le f0 largest -> f_acc s = S754_nan ->
  Forall (fun i => vld (f_set i) /\ vld (f_feedback i) /\
    ~ (le (SFopp largest) (SFsub p x (f_set i) (f_feedback i)) /\ le (SFsub p x (f_set i) (f_feedback i)) largest)) ins ->
  let '(s', vs) := fpid_run p x r largest s ins in f_acc s' = S754_nan /\ vs = repeat S754_nan (length ins).
Proof.
  intros r largest ins. induction ins as [|i ins IH]; intros s VL L0 A F; cbn [fpid_run]; [auto|].
  inversion F as [|? ? (V1 & V2 & D) Fr]; subst. pose proof (nan_process r largest s i VL L0 V1 V2 A D) as P.
  destruct (fprocess p x r largest s i) as [s1 v]. destruct P as [P1 ->]. specialize (IH s1 VL L0 P1 Fr).
  destruct (fpid_run p x r largest s1 ins) as [s2 vs]. destruct IH as [I1 ->]. auto.
Qed.
Lemma nan_start : forall r largest s i, f_set i = S754_nan \/ f_feedback i = S754_nan -> f_eq (f_i i) f0 = false ->
  let '(s', v) := fprocess p x r largest s i in f_acc s' = S754_nan /\ v = S754_nan.
Proof.
  intros r largest s i N I0.
  assert (E : SFsub p x (f_set i) (f_feedback i) = S754_nan) by (destruct N as [-> | ->]; [reflexivity|apply nan_sub_r]).
  unfold fprocess, fcalc_error. rewrite E.
  assert (B : (f_le S754_nan largest && f_le f0 S754_nan) || (f_le (SFopp largest) S754_nan && f_le S754_nan f0) = false).
  { change (f_le S754_nan largest) with false. change (f_le S754_nan f0) with false. rewrite !andb_false_r. reflexivity. }
  rewrite B. unfold fcalc_i. rewrite I0. cbn [negb]. rewrite !nan_mul_l, nan_add_r, nan_clip.
  unfold fcalc_d. cbn [f_acc f_last]. split; [reflexivity|]. rewrite nan_add_r, nan_add_l. apply nan_clip.
Qed.

(** No time and a differential gain: NaN or an end of the range. *)
Lemma zero_time : forall r largest s i, ok_range p x r -> f_dt i = 0 -> f_eq (f_d i) f0 = false ->
  let v := snd (fprocess p x r largest s i) in v = S754_nan \/ v = fr_begin r \/ v = fr_end r.
Proof.
  intros r largest s i (VB & VE & BE) T D. unfold fprocess.
  destruct (fcalc_error _ _ _ _ _) as [s1 error]. destruct (fcalc_i _ _ _ _ _ _ _) as [s2 it].
  unfold fcalc_d. rewrite D, T. cbn [negb snd]. change (f_int p x 0) with (S754_zero false).
  set (a := SFmul _ _ _ (f_d i)). set (y := SFadd _ _ _ it).
  assert (Q : SFdiv p x a (S754_zero false) = S754_nan \/ exists b, SFdiv p x a (S754_zero false) = S754_infinity b).
  { destruct a; cbn; eauto. }
  destruct Q as [-> | [b ->]]; [left; rewrite nan_add_r; apply nan_clip|].
  assert (Q : SFadd p x y (S754_infinity b) = S754_nan \/ SFadd p x y (S754_infinity b) = S754_infinity b).
  { destruct y as [|c| |]; cbn; auto. destruct (Bool.eqb c b) eqn:E; auto. apply eqb_prop in E. subst. auto. }
  destruct Q as [-> | ->]; [left; apply nan_clip|right].
  destruct (le_data _ _ BE) as [NB NE].
  destruct b.
  - left. unfold fclip. destruct (f_lt (fr_end r) (S754_infinity true)) eqn:E.
    + exfalso. unfold f_lt, SFltb in E. destruct (fr_end r) as [|[]| |]; discriminate.
    + destruct (f_lt _ (fr_begin r)) eqn:E2; [reflexivity|].
      apply le_total in E2; try discriminate; auto; [|reflexivity]. destruct (fr_begin r) as [|[]| |]; cbn in E2; try contradiction; reflexivity.
  - right. unfold fclip. destruct (f_lt (fr_end r) (S754_infinity false)) eqn:E.
    + destruct (f_lt (fr_end r) (fr_begin r)) eqn:E2; [|reflexivity].
      exfalso. pose proof (cmp_le _ _ VE VB) as C. unfold f_lt, SFltb in E2. destruct (SFcompare _ _) as [[]|]; try discriminate. tauto.
    + apply le_total in E; try discriminate; auto; [|reflexivity].
      assert (EE : fr_end r = S754_infinity false) by (destruct (fr_end r) as [|[]| |]; cbn in E; try contradiction; reflexivity).
      destruct (f_lt (S754_infinity false) (fr_begin r)) eqn:E2; [|auto].
      exfalso. unfold f_lt, SFltb in E2. destruct (fr_begin r) as [|[]| |]; discriminate.
Qed.
End Format.
