(** Properties of Range, ValueContainer and Math. *)
Require Import ZArith List Bool.
Import ListNotations.
From Verif Require Import Base BitModel RangeModel RangeSpec RangeProofs.
Open Scope Z_scope.

(** C19. *)
Theorem range_membership : forall r,
  (forall v, in_range r v = true <-> Z.min (r_begin r) (r_end r) <= v <= Z.max (r_begin r) (r_end r)) /\
  is_normalized (normalize r) = true /\
  (forall v, in_range (normalize r) v = in_range r v) /\
  normalize (normalize r) = normalize r /\
  (is_normalized r = true -> normalize r = r).
Proof. exact range_l. Qed.
Print Assumptions range_membership.

Theorem range_clip : forall r v, is_normalized r = true ->
  r_begin r <= clip r v <= r_end r /\
  (clip r v = v <-> in_range r v = true) /\
  clip r (clip r v) = clip r v /\
  (forall u, v <= u -> clip r v <= clip r u) /\
  (forall x, r_begin r <= x <= r_end r -> Z.abs (clip r v - v) <= Z.abs (x - v)).
Proof. exact clip_l. Qed.
Print Assumptions range_clip.

(** C19, finding: on a reversed range ClipValue always yields Begin, even for values that
    IsInRange accepts. *)
Theorem range_clip_reversed : forall r v, is_normalized r = false -> clip r v = r_begin r.
Proof. exact clip_reversed_l. Qed.
Print Assumptions range_clip_reversed.

(** C20.  After any history, membership is membership in the set last selected. *)
Theorem value_container_set : forall ops v, norm_ok false ops = true ->
  exists s r, vc_run vc_new ops = Some s /\ vc_in s v = Some r /\
    (r = true <-> fold_left vc_sel ops (fun _ => False) v).
Proof. exact value_container_l. Qed.
Print Assumptions value_container_set.

(** C20.  The getters after any such history: the mode last set, the ends last set and since put in
    order by Normalize. *)
Theorem value_container_getters : forall ops, norm_ok false ops = true ->
  exists s, vc_run vc_new ops = Some s /\
    vc_get_mode s = fold_left vc_mode_of ops MNone /\
    vc_get_begin s = option_map fst (fold_left vc_ends_of ops None) /\
    vc_get_end s = option_map snd (fold_left vc_ends_of ops None) /\
    vc_get_value s = vc_get_begin s.
Proof.
  intros ops H. destruct (value_container_l ops 0 H) as (s & r & E & _). exists s.
  pose proof (vc_getters_l ops vc_new None (conj eq_refl eq_refl)) as G. rewrite E in G.
  split; [exact E|]. split; [apply G|]. split; [apply G|]. split; [apply G|]. reflexivity.
Qed.
Print Assumptions value_container_getters.

(** C20, finding: Normalize on a default-constructed container reads uninitialised members. *)
Theorem value_container_normalize_new_refuted : vc_step vc_new VNormalize = None.
Proof. reflexivity. Qed.
Print Assumptions value_container_normalize_new_refuted.

(** C57.  Math::Abs is exact for every value except the most negative one, for which it returns
    that same negative value (types narrower than int) or overflows (undefined). *)
Theorem math_abs_value : forall iw w v, 1 <= w -> 1 <= iw -> - 2 ^ (w - 1) <= v < 2 ^ (w - 1) ->
  (- 2 ^ (w - 1) < v -> math_abs iw w v = Some (Z.abs v)) /\
  (v = - 2 ^ (w - 1) -> math_abs iw w v = if w <? iw then Some v else None).
Proof. exact abs_l. Qed.
Print Assumptions math_abs_value.

(** Non-vacuity. *)
Example range_example :
  let r := mkRange 10 3 in
  in_range r 5 = true /\ in_range r 11 = false /\ clip r 5 = 10 /\
  clip (normalize r) 5 = 5 /\ clip (normalize r) 99 = 10 /\ clip (normalize r) (-4) = 3.
Proof. vm_compute. repeat split. Qed.
Example value_container_example :
  let ops := [VAny; VRange 9 2; VNormalize; VNone; VNormalize; VSingle 4; VNormalize] in
  norm_ok false ops = true /\
  match vc_run vc_new (firstn 3 ops) with Some s => vc_in s 5 = Some true /\ vc_in s 1 = Some false | None => False end /\
  match vc_run vc_new ops with Some s => vc_in s 5 = Some false /\ vc_in s 4 = Some true | None => False end.
Proof. vm_compute. auto. Qed.
Example abs_example : math_abs 16 8 (-128) = Some (-128) /\ math_abs 16 16 (-32768) = None /\
  math_abs 16 16 (-32767) = Some 32767.
Proof. vm_compute. auto. Qed.
