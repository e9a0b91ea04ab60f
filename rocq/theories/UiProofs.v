(** Proofs: control states, types, containers. *)
Require Import ZArith List Bool Lia ZifyBool.
Import ListNotations.
From Verif Require Import Base BaseFacts ArrayModel ArraySpec ArrayProofs UiModel UiSpec.
Open Scope Z_scope.

(** ** States *)
Lemma cstate_eqb_eq : forall a b, cstate_eqb a b = true <-> a = b.
Proof. intros a b. destruct a, b; cbn; split; intros H; congruence. Qed.
Lemma set_state_l : forall k s new,
  (snd (set_state k s new) = true <-> allowed k s new) /\
  fst (set_state k s new) = if snd (set_state k s new) then new else s.
Proof.
  intros k s new. split; [|unfold set_state; destruct (before k s new); reflexivity].
  unfold allowed. split.
  - intros H. destruct k, s, new; cbn in H; try discriminate H; repeat split; intros; try discriminate; intuition discriminate.
  - intros (A & B & C & D). destruct k, s, new; cbn; try reflexivity; exfalso;
      try (apply A; reflexivity); try (destruct (B eq_refl); congruence);
      try (apply D; [auto|reflexivity]); destruct (C ltac:(auto) eq_refl); congruence.
Qed.
Lemma legal_op : forall k s o, legal k s -> legal k (fst (sop1 k s o)).
Proof.
  intros k s o [A B]. unfold legal. destruct o as [n| |].
  - destruct k, s, n; cbn; repeat split; intros; try discriminate; try tauto; try (destruct (A eq_refl); congruence);
      destruct H; try discriminate; try (exfalso; apply B; auto; reflexivity).
  - destruct k, s; cbn; repeat split; intros; try discriminate; try tauto; try (destruct (A eq_refl); congruence);
      destruct H; try discriminate; try (exfalso; apply B; auto; reflexivity).
  - destruct k, s; cbn; repeat split; intros; try discriminate; try tauto; try (destruct (A eq_refl); congruence);
      destruct H; try discriminate; try (exfalso; apply B; auto; reflexivity).
Qed.
Lemma legal_run : forall k os s, legal k s -> legal k (sops k s os).
Proof.
  intros k os. induction os as [|o os IH]; intros s H; [exact H|]. unfold sops. cbn [fold_left]. apply IH. apply legal_op. exact H.
Qed.
Lemma legal_normal : forall k, legal k Normal.
Proof. intros k. split; intros; repeat split; discriminate. Qed.

(** Without setState(Selected), selection comes only from focus. *)
Lemma selected_l : forall k s o, o <> SSet Selected -> s <> Selected -> fst (sop1 k s o) = Selected ->
  s = Focused /\ o = SSelect.
Proof.
  intros k s o H1 H2 H3. destruct o as [n| |]; destruct k, s; try (destruct n); cbn in H3; try discriminate; try congruence; auto.
Qed.

(** ** Types *)
Lemma types_l : forall k t, t = 1 \/ t = 2 \/ t = 4 -> is_of_type k t = is_a k t.
Proof. intros k t [->|[->| ->]]; destruct k; reflexivity. Qed.
Lemma types_panel : forall k, is_of_type k 3 = true.
Proof. intros k. destruct k; reflexivity. Qed.

(** ** Containers *)
Lemma first_pos_range : forall l x p, first_pos Z.eqb l x = Some p -> 0 <= p < Z.of_nat (length l).
Proof.
  induction l as [|y l IH]; intros x p H; cbn [first_pos] in H; [discriminate|]. cbn [length].
  destruct (y =? x); [injection H as <-; lia|]. destruct (first_pos Z.eqb l x) eqn:E; [|discriminate].
  injection H as <-. specialize (IH x z E). lia.
Qed.
Lemma after_pos : forall l x, after l x = match first_pos Z.eqb l x with Some p => Some (skipn (Z.to_nat (p + 1)) l) | None => None end.
Proof.
  induction l as [|y l IH]; intros x; cbn [after first_pos]; [reflexivity|].
  destruct (y =? x); [reflexivity|]. rewrite IH. destruct (first_pos Z.eqb l x) as [p|] eqn:E; [|reflexivity].
  apply first_pos_range in E. replace (Z.to_nat (p + 1 + 1)) with (S (Z.to_nat (p + 1))) by lia. reflexivity.
Qed.
Lemma ahead_pos : forall l x, ahead l x = match first_pos Z.eqb l x with Some p => Some (firstn (Z.to_nat p) l) | None => None end.
Proof.
  induction l as [|y l IH]; intros x; cbn [ahead first_pos]; [reflexivity|].
  destruct (y =? x); [reflexivity|]. rewrite IH. destruct (first_pos Z.eqb l x) as [p|] eqn:E; [|reflexivity].
  apply first_pos_range in E. replace (Z.to_nat (p + 1)) with (S (Z.to_nat p)) by lia. reflexivity.
Qed.

Section K.
Variable n : Z.
Variable is : Z -> bool.
Hypothesis Hn : 0 <= n <= 127.

Lemma lookup_nth : forall (l : list Z) i, 0 <= i < Z.of_nat (length l) -> lookup 0 l i = nth (Z.to_nat i) l 0.
Proof. intros l i H. unfold lookup. replace (i <? 0) with false by lia. reflexivity. Qed.

Lemma fwd_l : forall fuel c l i, coll_rel n c l -> Forall (fun p => p <> 0) l -> 0 <= i <= Z.of_nat (length l) ->
  (Z.to_nat (Z.of_nat (length l) - i) < fuel)%nat ->
  cont_loop n is c 1 i fuel = Some (or_null (find is (skipn (Z.to_nat i) l))).
Proof.
  induction fuel as [|f IH]; intros c l i R F Hi Hf; [lia|]. cbn [cont_loop].
  pose proof R as (Hc & Hl & _). rewrite Hc.
  destruct (Z.eq_dec i (Z.of_nat (length l))) as [->|N].
  - replace ((Z.of_nat (length l) >=? 0) && (Z.of_nat (length l) <? Z.of_nat (length l))) with false by lia.
    rewrite Nat2Z.id, skipn_all. reflexivity.
  - replace ((i >=? 0) && (i <? Z.of_nat (length l))) with true by lia.
    unfold cont_get. rewrite (coll_get_rel Z.eqb 0 n c l i ltac:(lia) R). rewrite lookup_nth by lia.
    assert (L : (Z.to_nat i < length l)%nat) by lia.
    pose proof (nth_error_nth' l 0 L) as E.
    assert (S : skipn (Z.to_nat i) l = nth (Z.to_nat i) l 0 :: skipn (S (Z.to_nat i)) l).
    { clear - L. revert L. generalize (Z.to_nat i) as k. induction l as [|y l IH]; intros k L; [cbn in L; lia|].
      destruct k; [reflexivity|]. cbn [skipn nth]. rewrite IH by (cbn in L; lia). reflexivity. }
    rewrite S. cbn [find].
    assert (NZ : nth (Z.to_nat i) l 0 <> 0) by (rewrite Forall_forall in F; apply F; apply nth_In; exact L).
    replace (nth (Z.to_nat i) l 0 =? 0) with false by lia. cbn [negb andb].
    destruct (is (nth (Z.to_nat i) l 0)); [reflexivity|].
    assert (B : s8 (i + 1) = i + 1) by (apply s8_small; lia). rewrite B.
    rewrite (IH c l (i + 1) R F) by lia. replace (Z.to_nat (i + 1)) with (Datatypes.S (Z.to_nat i)) by lia. reflexivity.
Qed.
Lemma bwd_l : forall fuel c l i, coll_rel n c l -> Forall (fun p => p <> 0) l -> -1 <= i < Z.of_nat (length l) ->
  (Z.to_nat (i + 1) < fuel)%nat ->
  cont_loop n is c (-1) i fuel = Some (or_null (find is (rev (firstn (Z.to_nat (i + 1)) l)))).
Proof.
  induction fuel as [|f IH]; intros c l i R F Hi Hf; [lia|]. cbn [cont_loop].
  pose proof R as (Hc & Hl & _). rewrite Hc.
  destruct (Z.eq_dec i (-1)) as [->|N].
  - reflexivity.
  - replace ((i >=? 0) && (i <? Z.of_nat (length l))) with true by lia.
    unfold cont_get. rewrite (coll_get_rel Z.eqb 0 n c l i ltac:(lia) R). rewrite lookup_nth by lia.
    assert (L : (Z.to_nat i < length l)%nat) by lia.
    assert (S : firstn (Z.to_nat (i + 1)) l = firstn (Z.to_nat i) l ++ [nth (Z.to_nat i) l 0]).
    { replace (Z.to_nat (i + 1)) with (Datatypes.S (Z.to_nat i)) by lia.
      clear - L. revert L. generalize (Z.to_nat i) as k. induction l as [|y l IH]; intros k L; [cbn in L; lia|].
      destruct k; [reflexivity|]. cbn [firstn nth app]. f_equal. apply IH. cbn in L; lia. }
    rewrite S, rev_app_distr. cbn [rev app find].
    assert (NZ : nth (Z.to_nat i) l 0 <> 0) by (rewrite Forall_forall in F; apply F; apply nth_In; exact L).
    replace (nth (Z.to_nat i) l 0 =? 0) with false by lia. cbn [negb andb].
    destruct (is (nth (Z.to_nat i) l 0)); [reflexivity|].
    assert (B : s8 (i + -1) = i - 1) by (rewrite s8_small; lia). rewrite B.
    rewrite (IH c l (i - 1) R F) by lia. replace (i - 1 + 1) with i by lia. reflexivity.
Qed.

Lemma cont_next_l : forall c l x, coll_rel n c l -> Forall (fun p => p <> 0) l ->
  cont_next n is c x = Some (list_next is l x).
Proof.
  intros c l x R F. unfold cont_next, list_next. rewrite (coll_index_rel Z.eqb 0 n c l x ltac:(lia) R). rewrite after_pos.
  pose proof R as (Hc & Hl & _).
  destruct (first_pos Z.eqb l x) as [p|] eqn:E.
  - apply first_pos_range in E. rewrite s8_small by lia. replace (p =? -1) with false by lia. cbn [negb].
    rewrite s8_small by lia. rewrite (fwd_l 256 c l (p + 1) R F) by lia. reflexivity.
  - change (-1 =? -1) with true. cbn [negb]. rewrite Hc.
    destruct (Z.gtb_spec (Z.of_nat (length l)) 0) as [G|G].
    + rewrite (fwd_l 256 c l 0 R F) by lia. reflexivity.
    + destruct l; [|cbn in G; lia]. cbn [cont_loop]. reflexivity.
Qed.
Lemma cont_prev_l : forall c l x, coll_rel n c l -> Forall (fun p => p <> 0) l ->
  cont_prev n is c x = Some (list_prev is l x).
Proof.
  intros c l x R F. unfold cont_prev, list_prev. rewrite (coll_index_rel Z.eqb 0 n c l x ltac:(lia) R). rewrite ahead_pos.
  pose proof R as (Hc & Hl & _).
  destruct (first_pos Z.eqb l x) as [p|] eqn:E.
  - apply first_pos_range in E. rewrite (s8_small p) by lia. replace (p =? -1) with false by lia. cbn [negb].
    rewrite s8_small by lia. rewrite (bwd_l 256 c l (p - 1) R F) by lia. replace (p - 1 + 1) with p by lia. reflexivity.
  - change (-1 =? -1) with true. cbn [negb]. rewrite Hc.
    destruct (Z.gtb_spec (Z.of_nat (length l)) 0) as [G|G].
    + rewrite s8_small by lia. rewrite (bwd_l 256 c l (Z.of_nat (length l) - 1) R F) by lia.
      replace (Z.of_nat (length l) - 1 + 1) with (Z.of_nat (length l)) by lia. rewrite Nat2Z.id, firstn_all. reflexivity.
    + destruct l; [|cbn in G; lia]. reflexivity.
Qed.
End K.

Lemma cont_adds_l : forall n ps c l, 0 <= n <= 127 -> coll_rel n c l -> Forall (fun p => p <> 0) l -> Forall (fun p => p <> 0) ps ->
  exists c', cont_adds n c ps = Some c' /\ coll_rel n c' (firstn (Z.to_nat n) (l ++ ps)).
Proof.
  intros n ps. induction ps as [|p ps IH]; intros c l Hn R F G; cbn [cont_adds].
  - exists c. split; [reflexivity|]. rewrite app_nil_r. pose proof R as (_ & Hl & _). rewrite firstn_all2 by lia. exact R.
  - inversion G; subst. unfold cont_add. replace (p =? 0) with false by lia.
    destruct (coll_step_refines Z.eqb 0 n c l (CAdd p) ltac:(lia) R) as (c1 & E1 & R1). rewrite E1.
    cbn [list_step] in R1. pose proof R as (_ & Hl & _). destruct (Z.ltb_spec (Z.of_nat (length l)) n) as [L|L].
    + destruct (IH c1 (l ++ [p]) Hn R1) as (c2 & E2 & R2); [apply Forall_app; auto|assumption|].
      exists c2. split; [exact E2|]. rewrite <- app_assoc in R2. exact R2.
    + destruct (IH c1 l Hn R1 F H2) as (c2 & E2 & R2). exists c2. split; [exact E2|].
      rewrite firstn_app in *. replace (Z.to_nat n - length l)%nat with O in * by lia. exact R2.
Qed.

Lemma cont_adds_null : forall n ps c, cont_adds n c ps = cont_adds n c (filter (fun p => negb (p =? 0)) ps).
Proof.
  intros n ps. induction ps as [|p ps IH]; intros c; [reflexivity|]. cbn [cont_adds filter]. destruct (p =? 0) eqn:E; cbn [negb].
  - unfold cont_add. rewrite E. apply IH.
  - cbn [cont_adds]. destruct (cont_add n c p); [apply IH|reflexivity].
Qed.
Lemma container_l : forall n ps m is, 0 <= n <= 127 ->
  exists c, cont_adds n (mkColl m 0) ps = Some c /\
    let l := firstn (Z.to_nat n) (filter (fun p => negb (p =? 0)) ps) in
    forall x, cont_next n is c x = Some (list_next is l x) /\ cont_prev n is c x = Some (list_prev is l x).
Proof.
  intros n ps m is Hn. rewrite cont_adds_null. set (qs := filter (fun p => negb (p =? 0)) ps).
  assert (F : Forall (fun p => p <> 0) qs) by (apply Forall_forall; intros p I; apply filter_In in I; lia).
  assert (R0 : coll_rel n (mkColl m 0) ([] : list Z)) by (split; [reflexivity|split; [cbn; lia|reflexivity]]).
  destruct (cont_adds_l n qs _ [] Hn R0 (Forall_nil _) F) as (c & E & R). cbn [app] in R.
  exists c. split; [exact E|]. cbv zeta. intros x.
  assert (F' : Forall (fun p => p <> 0) (firstn (Z.to_nat n) qs)).
  { rewrite <- (firstn_skipn (Z.to_nat n) qs) in F. apply Forall_app in F. tauto. }
  split; [apply cont_next_l|apply cont_prev_l]; assumption.
Qed.

(** Enumeration. *)
Lemma after_in : forall a x b, ~ In x a -> after (a ++ x :: b) x = Some b.
Proof.
  induction a as [|y a IH]; intros x b H; cbn [app after]; [rewrite Z.eqb_refl; reflexivity|].
  replace (y =? x) with false by (cbn in H; lia). apply IH. cbn in H. tauto.
Qed.
Lemma ahead_in : forall a x b, ~ In x a -> ahead (a ++ x :: b) x = Some a.
Proof.
  induction a as [|y a IH]; intros x b H; cbn [app ahead]; [rewrite Z.eqb_refl; reflexivity|].
  replace (y =? x) with false by (cbn in H; lia). rewrite IH by (cbn in H; tauto). reflexivity.
Qed.
Lemma after_none : forall l x, ~ In x l -> after l x = None.
Proof. induction l as [|y l IH]; intros x H; [reflexivity|]. cbn [after]. cbn in H. replace (y =? x) with false by lia. apply IH. tauto. Qed.
Lemma ahead_none : forall l x, ~ In x l -> ahead l x = None.
Proof. induction l as [|y l IH]; intros x H; [reflexivity|]. cbn [ahead]. cbn in H. replace (y =? x) with false by lia. rewrite IH by tauto. reflexivity. Qed.

Lemma find_split : forall is (l : list Z), (exists a x b, l = a ++ x :: b /\ find is l = Some x /\ is x = true /\ filter is a = [] /\ filter is l = x :: filter is b) \/
  (find is l = None /\ filter is l = []).
Proof.
  intros is. induction l as [|y l IH]; [right; auto|]. cbn [find filter]. destruct (is y) eqn:E.
  - left. exists [], y, l. auto 6.
  - destruct IH as [(a & x & b & -> & F & I & A & B)|[F A]].
    + left. exists (y :: a), x, b. cbn [app filter]. rewrite E. auto 6.
    + right. auto.
Qed.

Lemma walk_next_from : forall is l fuel a x b, NoDup l -> Forall (fun p => p <> 0) l -> l = a ++ x :: b -> (length b < fuel)%nat ->
  walk (list_next is l) x fuel = filter is b.
Proof.
  intros is l fuel. induction fuel as [|f IH]; intros a x b N F E L; [lia|]. cbn [walk].
  assert (NI : ~ In x a) by (subst l; apply NoDup_remove_2 in N; intros I; apply N; apply in_or_app; auto).
  assert (S : list_next is l x = or_null (find is b)) by (unfold list_next; subst l; rewrite after_in by exact NI; reflexivity).
  rewrite S. destruct (find_split is b) as [(a2 & y & b2 & Eb & Ff & Iy & A2 & B2)|[Ff A2]].
  - rewrite Ff. cbn [or_null].
    assert (y <> 0) by (rewrite Forall_forall in F; apply F; subst l b; apply in_or_app; right; right; apply in_or_app; right; left; reflexivity).
    replace (y =? 0) with false by lia. rewrite B2. f_equal.
    apply (IH (a ++ x :: a2) y b2 N F). { subst l b. rewrite <- app_assoc. reflexivity. }
    subst b. rewrite app_length in L. cbn in L. lia.
  - rewrite Ff. cbn [or_null]. rewrite A2. reflexivity.
Qed.
Lemma walk_next_l : forall is l, NoDup l -> Forall (fun p => p <> 0) l -> walk (list_next is l) 0 (S (length l)) = filter is l.
Proof.
  intros is l N F. cbn [walk].
  assert (NI : ~ In 0 l) by (intros I; rewrite Forall_forall in F; exact (F 0 I eq_refl)).
  assert (S : list_next is l 0 = or_null (find is l)) by (unfold list_next; rewrite after_none by exact NI; reflexivity).
  rewrite S. destruct (find_split is l) as [(a2 & y & b2 & Eb & Ff & Iy & A2 & B2)|[Ff A2]].
  - rewrite Ff. cbn [or_null].
    assert (y <> 0) by (rewrite Forall_forall in F; apply F; subst l; apply in_or_app; right; left; reflexivity).
    replace (y =? 0) with false by lia. rewrite B2. f_equal.
    apply (walk_next_from is l _ a2 y b2 N F Eb). rewrite Eb, app_length. cbn. lia.
  - rewrite Ff. cbn [or_null]. rewrite A2. reflexivity.
Qed.
Lemma list_prev_rev : forall is l x, NoDup l -> list_prev is l x = list_next is (rev l) x.
Proof.
  intros is l x N. unfold list_prev, list_next. destruct (in_dec Z.eq_dec x l) as [I|I].
  - apply in_split in I. destruct I as (a & b & E). subst l.
    assert (Na : ~ In x a) by (apply NoDup_remove_2 in N; intros J; apply N; apply in_or_app; auto).
    assert (Nb : ~ In x b) by (apply NoDup_remove_2 in N; intros J; apply N; apply in_or_app; auto).
    rewrite ahead_in by exact Na. rewrite rev_app_distr. cbn [rev]. rewrite <- app_assoc. cbn [app].
    rewrite after_in by (rewrite <- in_rev; exact Nb). reflexivity.
  - rewrite ahead_none by exact I. rewrite after_none by (rewrite <- in_rev; exact I). reflexivity.
Qed.
Lemma filter_rev : forall (f : Z -> bool) l, filter f (rev l) = rev (filter f l).
Proof.
  intros f. induction l as [|y l IH]; [reflexivity|]. cbn [rev filter]. rewrite filter_app, IH. cbn [filter].
  destruct (f y); cbn [rev]; [reflexivity|apply app_nil_r].
Qed.
Lemma walk_ext : forall f g, (forall x, f x = g x) -> forall n x, walk f x n = walk g x n.
Proof. intros f g H. induction n as [|n IH]; intros x; [reflexivity|]. cbn [walk]. rewrite !H, IH. reflexivity. Qed.
Lemma walk_prev_l : forall is l, NoDup l -> Forall (fun p => p <> 0) l -> walk (list_prev is l) 0 (S (length l)) = rev (filter is l).
Proof.
  intros is l N F. rewrite (walk_ext _ (list_next is (rev l))) by (intros x; apply list_prev_rev; exact N).
  rewrite <- rev_length, <- filter_rev. apply walk_next_l; [apply NoDup_rev; exact N|apply Forall_rev; exact F].
Qed.
Lemma prev_next_l : forall is l x, NoDup l -> Forall (fun p => p <> 0) l -> In x l -> is x = true ->
  list_next is l x <> 0 -> list_prev is l (list_next is l x) = x.
Proof.
  intros is l x N F I X H. apply in_split in I. destruct I as (a & b & E).
  assert (Na : ~ In x a) by (subst l; apply NoDup_remove_2 in N; intros J; apply N; apply in_or_app; auto).
  assert (S : list_next is l x = or_null (find is b)) by (unfold list_next; subst l; rewrite after_in by exact Na; reflexivity).
  rewrite S in *. destruct (find_split is b) as [(a2 & y & b2 & Eb & Ff & Iy & A2 & B2)|[Ff A2]].
  - rewrite Ff in *. cbn [or_null] in *. unfold list_prev.
    assert (El : l = (a ++ x :: a2) ++ y :: b2) by (subst l b; rewrite <- app_assoc; reflexivity).
    assert (Ny : ~ In y (a ++ x :: a2)).
    { rewrite El in N. apply NoDup_remove_2 in N. intros J. apply N. apply in_or_app. auto. }
    rewrite El, ahead_in by exact Ny. rewrite rev_app_distr. cbn [rev]. rewrite <- app_assoc. cbn [app].
    assert (G : forall q (r : list Z), filter is q = [] -> find is (q ++ r) = find is r).
    { clear. induction q as [|z q IH]; intros r H; [reflexivity|]. cbn [filter app find] in *. destruct (is z); [discriminate|]. apply IH. exact H. }
    rewrite G by (rewrite filter_rev, A2; reflexivity). cbn [find]. rewrite X. reflexivity.
  - rewrite Ff in H. cbn in H. congruence.
Qed.
