Require Import ZArith List Bool Lia ZifyBool.
Import ListNotations.
From Verif Require Import Base BitModel BitProofs RangeModel RangeSpec.
Open Scope Z_scope.

Lemma range_l : forall r,
  (forall v, in_range r v = true <-> Z.min (r_begin r) (r_end r) <= v <= Z.max (r_begin r) (r_end r)) /\
  is_normalized (normalize r) = true /\
  (forall v, in_range (normalize r) v = in_range r v) /\
  normalize (normalize r) = normalize r /\
  (is_normalized r = true -> normalize r = r).
Proof.
  intros [b e]. unfold in_range, normalize, is_normalized. cbn [r_begin r_end].
  destruct (b >? e) eqn:E; cbn [r_begin r_end].
  - assert (e >? b = false) as -> by lia. repeat split; try lia; intros; lia.
  - rewrite E. repeat split; try lia; reflexivity.
Qed.

Lemma clip_l : forall r v, is_normalized r = true ->
  r_begin r <= clip r v <= r_end r /\
  (clip r v = v <-> in_range r v = true) /\
  clip r (clip r v) = clip r v /\
  (forall u, v <= u -> clip r v <= clip r u) /\
  (forall x, r_begin r <= x <= r_end r -> Z.abs (clip r v - v) <= Z.abs (x - v)).
Proof.
  intros [b e] v H. unfold is_normalized, clip, in_range in *. cbn [r_begin r_end] in *. cbv zeta.
  assert (b >? e = false) as -> by lia.
  repeat split; intros; repeat match goal with |- context[if ?c then _ else _] => destruct c eqn:? end; try lia;
  repeat match goal with H : context[if ?c then _ else _] |- _ => destruct c eqn:? end; lia.
Qed.

Lemma clip_reversed_l : forall r v, is_normalized r = false -> clip r v = r_begin r.
Proof.
  intros [b e] v H. unfold is_normalized, clip in *. cbn [r_begin r_end] in *. cbv zeta.
  repeat match goal with |- context[if ?c then _ else _] => destruct c eqn:? end; lia.
Qed.

(** Container invariant: the mode's end points are initialised. *)
Definition vc_rel (s : vc) (d : vset) : Prop :=
  match vc_m s, vc_b s, vc_e s with
  | MNone, _, _ => forall x, ~ d x
  | MAny, _, _ => forall x, d x
  | MSingle, Some b, Some e => b = e /\ forall x, d x <-> x = b
  | MRange, Some b, Some e => forall x, d x <-> Z.min b e <= x <= Z.max b e
  | _, _, _ => False
  end.

Lemma vc_run_rel : forall ops s d init, vc_rel s d ->
  (init = true -> vc_b s <> None /\ vc_e s <> None) -> norm_ok init ops = true ->
  exists s', vc_run s ops = Some s' /\ vc_rel s' (fold_left vc_sel ops d).
Proof.
  intros ops. induction ops as [|o ops IH]; intros s d init Hr Hi Hn; cbn [vc_run fold_left].
  - eauto.
  - destruct o as [v|b e| | |]; cbn [vc_step norm_ok vc_sel] in *.
    + apply (IH _ _ true); [|intros _; split; discriminate|exact Hn].
      unfold vc_rel. cbn. split; [reflexivity|tauto].
    + apply (IH _ _ true); [|intros _; split; discriminate|exact Hn].
      unfold vc_rel. cbn. tauto.
    + apply (IH _ _ init); [|exact Hi|exact Hn]. unfold vc_rel. cbn. tauto.
    + apply (IH _ _ init); [|exact Hi|exact Hn]. unfold vc_rel. cbn. tauto.
    + apply andb_prop in Hn as [Ei Hn]. destruct (Hi Ei) as [Hb He]. destruct s as [m [b|] [e|]]; cbn in *; try congruence.
      apply (IH _ _ init); [| |exact Hn].
      * destruct (b >? e) eqn:E; [|exact Hr]. unfold vc_rel in *. cbn in *. destruct m; auto.
        -- destruct Hr as [Hr _]. lia.
        -- intros x. rewrite Hr. lia.
      * intros _. destruct (b >? e); cbn; split; discriminate.
Qed.

Lemma vc_in_rel : forall s d v, vc_rel s d -> exists r, vc_in s v = Some r /\ (r = true <-> d v).
Proof.
  intros [m b e] d v H. unfold vc_rel, vc_in in *. cbn in *. destruct m.
  - eexists. split; [reflexivity|]. split; [discriminate|]. intros K. now destruct (H v).
  - destruct b as [b|], e as [e|]; try contradiction. destruct H as [-> H]. eexists. split; [reflexivity|].
    rewrite H. destruct (e >? e) eqn:E; lia.
  - destruct b as [b|], e as [e|]; try contradiction. eexists. split; [reflexivity|].
    rewrite H. destruct (b >? e) eqn:E; lia.
  - eexists. split; [reflexivity|]. split; auto.
Qed.

Lemma value_container_l : forall ops v, norm_ok false ops = true ->
  exists s r, vc_run vc_new ops = Some s /\ vc_in s v = Some r /\
    (r = true <-> fold_left vc_sel ops (fun _ => False) v).
Proof.
  intros ops v H. destruct (vc_run_rel ops vc_new (fun _ => False) false) as [s [E R]]; auto.
  - unfold vc_rel. cbn. auto.
  - discriminate.
  - destruct (vc_in_rel s _ v R) as [r [E2 H2]]. exists s, r. auto.
Qed.

Lemma vc_getters_l : forall ops s d, (vc_b s = option_map fst d /\ vc_e s = option_map snd d) ->
  match vc_run s ops with
  | Some s' => vc_m s' = fold_left vc_mode_of ops (vc_m s) /\
               vc_b s' = option_map fst (fold_left vc_ends_of ops d) /\ vc_e s' = option_map snd (fold_left vc_ends_of ops d)
  | None => True
  end.
Proof.
  intros ops. induction ops as [|o ops IH]; intros s d [HB HE]; cbn [vc_run fold_left]; [auto|].
  destruct o as [v|b e| | |]; cbn [vc_step vc_mode_of vc_ends_of].
  - apply (IH (mkVc MSingle (Some v) (Some v)) (Some (v, v))). auto.
  - apply (IH (mkVc MRange (Some b) (Some e)) (Some (b, e))). auto.
  - apply (IH (mkVc MAny (vc_b s) (vc_e s)) d). auto.
  - apply (IH (mkVc MNone (vc_b s) (vc_e s)) d). auto.
  - destruct d as [[b e]|]; cbn [option_map fst snd] in HB, HE; rewrite HB, ?HE; [|exact Logic.I].
    destruct (b >? e) eqn:L.
    + apply (IH (mkVc (vc_m s) (Some e) (Some b)) (Some (Z.min b e, Z.max b e))). cbn. split; f_equal; lia.
    + apply (IH s (Some (Z.min b e, Z.max b e))). cbn. rewrite HB, HE. split; f_equal; lia.
Qed.

Lemma abs_l : forall iw w v, 1 <= w -> 1 <= iw -> - 2 ^ (w - 1) <= v < 2 ^ (w - 1) ->
  (- 2 ^ (w - 1) < v -> math_abs iw w v = Some (Z.abs v)) /\
  (v = - 2 ^ (w - 1) -> math_abs iw w v = if w <? iw then Some v else None).
Proof.
  intros iw w v Hw Hi Hv. unfold math_abs. pose proof (pow_pos (w - 1) ltac:(lia)).
  pose proof (pow_le (w - 1) (Z.max iw w - 1) ltac:(lia)). split; intros H1.
  - destruct (v >=? 0) eqn:E; [f_equal; lia|]. cbv zeta.
    assert (- v <? 2 ^ (Z.max iw w - 1) = true) as -> by lia. rewrite sn_small by lia. f_equal. lia.
  - assert (v >=? 0 = false) as -> by lia. cbv zeta. destruct (Z.ltb_spec w iw).
    + pose proof (pow_lt (w - 1) (iw - 1) ltac:(lia)). replace (Z.max iw w) with iw in * by lia.
      assert (- v <? 2 ^ (iw - 1) = true) as -> by lia. f_equal. subst v.
      unfold sn. cbv zeta. pose proof (pow_split w Hw). rewrite Z.opp_involutive.
      rewrite Z.mod_small by lia. rewrite Z.ltb_irrefl. lia.
    + replace (Z.max iw w) with w in * by lia. now assert (- v <? 2 ^ (w - 1) = false) as -> by lia.
Qed.
