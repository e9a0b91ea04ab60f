Require Import ZArith List Bool Lia ZifyBool Floats.SpecFloat.
Import ListNotations.
From Verif Require Import Base BaseFacts RealModel RealSpec RealProofs FloatSpec FloatProofs PidFloatModel PidFloatSpec PidFloatProofs
  RangeFloatModel RangeFloatSpec.
Open Scope Z_scope.
Local Ltac Zify.zify_post_hook ::= idtac.

Section Format.
Variables p x : Z.
Hypothesis Hp : 24 <= p.
Hypothesis Hx : 128 <= x.
Hypothesis Hpx : p < x.
Notation num := (number p x).
Notation val := (fval p x).
Notation vld := (valid p x).
Notation le := (le_f p x).

Lemma ltb_iff : forall a b, vld a -> vld b -> (f_lt a b = true <-> le a b /\ ~ le b a).
Proof.
  intros a b A B. pose proof (cmp_le p x Hp a b A B) as C. unfold f_lt, SFltb.
  destruct (SFcompare a b) as [[]|] eqn:E; try (split; [discriminate|tauto]); try tauto.
  split; [discriminate|]. intros [H _]. apply le_data in H. tauto.
Qed.
Lemma le_tot : forall a b, vld a -> vld b -> a <> S754_nan -> b <> S754_nan -> le a b \/ le b a.
Proof.
  intros a b A B NA NB. pose proof (cmp_le p x Hp a b A B) as C. destruct (SFcompare a b) as [[]|]; tauto.
Qed.
Lemma le_trans : forall a b c, le a b -> le b c -> le a c.
Proof. intros [|[]| |] [|[]| |] [|[]| |] H K; unfold le_f in *; try contradiction; auto; lia. Qed.

Lemma in_pair : forall b e v, vld b -> vld e -> vld v ->
  ((if f_lt e b then f_le e v && f_le v b else f_le b v && f_le v e) = true <-> fbetween p x b e v).
Proof.
  intros b e v B E V. unfold fbetween. destruct (f_lt e b) eqn:L.
  - apply ltb_iff in L; auto. rewrite andb_true_iff, !(leb_iff p x Hp) by assumption.
    split; [tauto|]. intros [[H K]|H]; [|tauto]. exfalso. apply L. exact (le_trans _ _ _ H K).
  - rewrite andb_true_iff, !(leb_iff p x Hp) by assumption. split; [tauto|]. intros [H|[H K]]; [tauto|].
    assert (Q : le e b) by exact (le_trans _ _ _ H K).
    assert (R : le b e).
    { destruct (le_data p x _ _ Q) as [NE NB]. destruct (le_tot b e B E NB NE) as [T|T]; [exact T|].
      pose proof (cmp_le p x Hp e b E B) as C. unfold f_lt, SFltb in L. destruct (SFcompare e b) as [[]|]; try tauto. discriminate. }
    split; eapply le_trans; eauto.
Qed.
Lemma frange_l : forall r, fvalid_range p x r ->
  (forall v, vld v -> (fin_range r v = true <-> fbetween p x (fr_begin r) (fr_end r) v)) /\
  (forall v, fin_range (fnormalize r) v = fin_range r v) /\
  (fis_normalized r = true <-> le (fr_begin r) (fr_end r)) /\
  (fis_normalized (fnormalize r) = true <-> fr_begin r <> S754_nan /\ fr_end r <> S754_nan) /\
  (fnormalize r = r \/ (fnormalize r = mkFRange (fr_end r) (fr_begin r) /\ gt_f p x (fr_begin r) (fr_end r))).
Proof.
  intros [b e] [B E]. unfold fin_range, fnormalize, fis_normalized. cbn [fr_begin fr_end] in *.
  split; [|split; [|split; [|split]]].
  - intros v V. apply in_pair; assumption.
  - intros v. destruct (f_lt e b) eqn:L; cbn [fr_begin fr_end]; [|now rewrite L].
    assert (f_lt b e = false) as ->; [|reflexivity].
    destruct (f_lt b e) eqn:M; [|reflexivity]. apply ltb_iff in L; auto. apply ltb_iff in M; auto. tauto.
  - apply (leb_iff p x Hp); assumption.
  - destruct (f_lt e b) eqn:L; cbn [fr_begin fr_end]; rewrite (leb_iff p x Hp) by assumption.
    + apply ltb_iff in L; auto. split; [intros H; apply le_data in H; tauto|tauto].
    + split; [intros H; apply le_data in H; tauto|]. intros [NB NE]. apply (le_total p x Hp) in L; auto.
  - destruct (f_lt e b) eqn:L; [right|left; reflexivity]. split; [reflexivity|]. apply ltb_iff in L; auto.
Qed.

Lemma fclip_l : forall r v, fvalid_range p x r -> le (fr_begin r) (fr_end r) -> vld v -> v <> S754_nan ->
  (fin_range r v = true -> fclip r v = v) /\
  (gt_f p x v (fr_end r) -> fclip r v = fr_end r) /\
  (gt_f p x (fr_begin r) v -> fclip r v = fr_begin r) /\
  fin_range r (fclip r v) = true /\
  fclip r (fclip r v) = fclip r v.
Proof.
  intros r v [B E] BE V NV.
  assert (F : forall u, vld u -> fin_range r u = true -> fclip r u = u).
  { intros u VU H. apply (proj1 (frange_l r (conj B E)) u VU) in H. unfold fclip.
    assert (I : le (fr_begin r) u /\ le u (fr_end r)) by (destruct H as [H|[H K]]; [exact H|split; eapply le_trans; eauto]).
    destruct (f_lt (fr_end r) u) eqn:L; [apply ltb_iff in L; auto; tauto|].
    destruct (f_lt u (fr_begin r)) eqn:M; [apply ltb_iff in M; auto; tauto|]. reflexivity. }
  assert (G : fin_range r (fclip r v) = true).
  { destruct (clip_in p x Hp r v (conj B (conj E BE)) V) as (V' & I & _). apply (proj1 (frange_l r (conj B E)) _ V').
    left. exact (I NV). }
  split; [apply F; exact V|]. split; [|split; [|split; [exact G|]]].
  - intros [H1 H2]. unfold fclip. assert (f_lt (fr_end r) v = true) as -> by (apply ltb_iff; auto).
    destruct (f_lt (fr_end r) (fr_begin r)) eqn:M; [|reflexivity]. apply ltb_iff in M; auto. tauto.
  - intros [H1 H2]. unfold fclip. destruct (f_lt (fr_end r) v) eqn:M.
    + exfalso. apply ltb_iff in M; auto. apply H2. eapply le_trans; [exact BE|]. tauto.
    + assert (f_lt v (fr_begin r) = true) as -> by (apply ltb_iff; auto). reflexivity.
  - apply F; [|exact G]. unfold fclip. destruct (f_lt _ v); destruct (f_lt _ (fr_begin r)); assumption.
Qed.

(** The container. *)
Definition fvc_rel (s : fvc) (d : fvset) : Prop :=
  match fvc_m s, fvc_b s, fvc_e s with
  | FMNone, _, _ => forall u, ~ d u
  | FMAny, _, _ => forall u, d u
  | FMSingle, Some b, Some e => b = e /\ forall u, d u <-> le u b /\ le b u
  | FMRange, Some b, Some e => forall u, d u <-> fbetween p x b e u
  | _, _, _ => False
  end.
Definition fvc_valid (s : fvc) : Prop :=
  (forall b, fvc_b s = Some b -> vld b) /\ (forall e, fvc_e s = Some e -> vld e).

Lemma fvc_run_rel : forall ops s d init, Forall (fvalid_op p x) ops -> fvc_valid s -> fvc_rel s d ->
  (init = true -> fvc_b s <> None /\ fvc_e s <> None) -> fnorm_ok init ops = true ->
  exists s', fvc_run s ops = Some s' /\ fvc_valid s' /\ fvc_rel s' (fold_left (fvc_sel p x) ops d).
Proof.
  intros ops. induction ops as [|o ops IH]; intros s d init HF HV Hr Hi Hn; cbn [fvc_run fold_left].
  - eauto.
  - inversion HF as [|? ? HO HF']; subst. destruct o as [v|b e| | |]; cbn [fvc_step fnorm_ok fvc_sel fvalid_op] in *.
    + apply (IH _ _ true); auto; [|unfold fvc_rel; cbn; split; [reflexivity|tauto]|intros _; split; discriminate].
      split; cbn; intros ? [= <-]; exact HO.
    + destruct HO. apply (IH _ _ true); auto; [|unfold fvc_rel; cbn; tauto|intros _; split; discriminate].
      split; cbn; intros ? [= <-]; assumption.
    + apply (IH _ _ init); auto. unfold fvc_rel. cbn. tauto.
    + apply (IH _ _ init); auto. unfold fvc_rel. cbn. tauto.
    + apply andb_prop in Hn as [Ei Hn]. destruct (Hi Ei) as [Hb He]. destruct s as [m [b|] [e|]]; cbn in *; try congruence.
      destruct HV as [VB VE]. cbn in VB, VE. specialize (VB b eq_refl). specialize (VE e eq_refl).
      apply (IH _ _ init); auto.
      * destruct (f_lt e b); split; cbn; intros ? [= <-]; assumption.
      * destruct (f_lt e b) eqn:L; [|exact Hr]. unfold fvc_rel in *. cbn in *. destruct m; auto.
        -- destruct Hr as [-> _]. apply ltb_iff in L; auto. tauto.
        -- intros u. rewrite Hr. unfold fbetween. tauto.
      * intros _. destruct (f_lt e b); cbn; split; discriminate.
Qed.

Lemma fvc_in_rel : forall s d v, vld v -> fvc_valid s -> fvc_rel s d -> exists r, fvc_in s v = Some r /\ (r = true <-> d v).
Proof.
  intros [m b e] d v V [VB VE] H. unfold fvc_rel, fvc_in in *. cbn in *. destruct m.
  - eexists. split; [reflexivity|]. split; [discriminate|]. intros K. now destruct (H v).
  - destruct b as [b|], e as [e|]; try contradiction. destruct H as [-> H]. eexists. split; [reflexivity|].
    rewrite H, in_pair by auto. unfold fbetween. tauto.
  - destruct b as [b|], e as [e|]; try contradiction. eexists. split; [reflexivity|].
    rewrite H, in_pair by auto. tauto.
  - eexists. split; [reflexivity|]. split; auto.
Qed.
Lemma fvc_l : forall ops v, Forall (fvalid_op p x) ops -> vld v -> fnorm_ok false ops = true ->
  exists s r, fvc_run fvc_new ops = Some s /\ fvc_in s v = Some r /\
    (r = true <-> fold_left (fvc_sel p x) ops (fun _ => False) v).
Proof.
  intros ops v F V H. destruct (fvc_run_rel ops fvc_new (fun _ => False) false F) as [s [E [W R]]]; auto.
  - split; cbn; discriminate.
  - unfold fvc_rel. cbn. auto.
  - discriminate.
  - destruct (fvc_in_rel s _ v V W R) as [r [E2 H2]]. exists s, r. auto.
Qed.

Lemma fabs_l : forall v,
  (num v -> num (fmath_abs v) /\ val (fmath_abs v) = Z.abs (val v)) /\
  (forall s, v = S754_infinity s -> fmath_abs v = S754_infinity false) /\
  (v = S754_nan -> fmath_abs v = S754_nan) /\
  (fin_range (mkFRange f0 (S754_infinity false)) v = true -> fmath_abs v = v).
Proof.
  intros v. split; [|split; [|split]].
  - intros N. unfold fmath_abs. assert (Z0 : vld f0) by reflexivity. assert (N0 : num f0) by (split; [exact Logic.I|reflexivity]).
    pose proof (leb_iff p x Hp f0 v Z0 (proj2 N)) as L. pose proof (le_num p x f0 v N0 N) as M. change (val f0) with 0 in M.
    destruct (f_le f0 v).
    + split; [exact N|]. assert (0 <= val v) by (apply M, L; reflexivity). lia.
    + destruct (opp_l p x v N) as [NO VO]. split; [exact NO|]. rewrite VO.
      assert (~ 0 <= val v) by (intros Q; apply M, L in Q; discriminate). lia.
  - intros s ->. destruct s; reflexivity.
  - intros ->. reflexivity.
  - unfold fin_range, fmath_abs. cbn [fr_begin fr_end]. change (f_lt (S754_infinity false) f0) with false. cbn iota.
    intros H. apply andb_prop in H as [-> _]. reflexivity.
Qed.
End Format.
