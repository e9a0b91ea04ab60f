(** Schedules that break the other orders, and every order in a buffer across a page. *)
Require Import ZArith List Bool Lia ZifyBool Permutation.
Import ListNotations.
From Verif Require Import Base BaseFacts RingModel StreamSpec TearModel TearSpec OptModel OptSpec OptProofs.
Open Scope Z_scope.

Fixpoint ins {A} (x : A) (l : list A) : list (list A) :=
  match l with [] => [[x]] | y :: r => (x :: l) :: map (cons y) (ins x r) end.
Fixpoint perms {A} (l : list A) : list (list A) := match l with [] => [[]] | x :: r => flat_map (ins x) (perms r) end.
Lemma ins_in : forall A (x : A) a b, In (a ++ x :: b) (ins x (a ++ b)).
Proof.
  intros A x a b. induction a as [|y a IH]; cbn [app ins].
  - destruct b; left; reflexivity.
  - right. apply in_map. exact IH.
Qed.
Lemma perms_in : forall A (l p : list A), Permutation p l -> In p (perms l).
Proof.
  intros A l. induction l as [|x l IH]; intros p H.
  - apply Permutation_sym, Permutation_nil in H. subst. left. reflexivity.
  - assert (I : In x p) by (apply (Permutation_in x (Permutation_sym H)); left; reflexivity). apply in_split in I. destruct I as (a & b & ->).
    cbn [perms]. apply in_flat_map. exists (a ++ b). split; [|apply ins_in]. apply IH. apply Permutation_sym, Permutation_cons_app_inv in H || (apply (Permutation_app_inv a b [] l x); exact H). apply Permutation_sym. exact H.
Qed.
Definition beforeb (a b : wstep) (l : list wstep) : bool :=
  (fix go l := match l with [] => false | x :: r => (wstep_eqb a x && existsb (wstep_eqb b) r) || go r end) l.
Lemma beforeb_l : forall a b l, beforeb a b l = true -> before a b l.
Proof.
  intros a b l. induction l as [|x r IH]; intros H; [discriminate|]. cbn [beforeb] in H. apply orb_prop in H. destruct H as [H|H].
  - apply andb_prop in H. destruct H as [E I]. apply in_wstep in I. apply in_split in I. destruct I as (y & z & ->). exists [], y, z. cbn [app]. f_equal. destruct a, x; try discriminate; reflexivity.
  - destruct (IH H) as (y & z & t & ->). exists (x :: y), z, t. reflexivity.
Qed.
(** Steps until [a] is done. *)
Fixpoint upto (a : wstep) (l : list wstep) : nat := match l with [] => O | x :: r => if wstep_eqb a x then 1%nat else S (upto a r) end.
Definition loads (whole : bool) : nat := if whole then 1%nat else 2%nat.
Definition o_write (v : Z) : list oev := OStart v :: repeat OStep 8.
Definition is_prefix (a b : list Z) : bool := if list_eq_dec Z.eq_dec (firstn (length a) b) a then true else false.
Lemma prefix_l : forall a b rest, b = a ++ rest -> is_prefix a b = true.
Proof. intros a b rest ->. unfold is_prefix. rewrite firstn_app, Nat.sub_diag, firstn_all, firstn_O, app_nil_r. destruct (list_eq_dec Z.eq_dec a a); [reflexivity|contradiction]. Qed.
Definition o_bad (whole lf : bool) (order : list wstep) (B Size : Z) (evs : list oev) : bool :=
  match o_run whole lf order B Size (o_init (fun _ => 0)) evs with
  | Some s => negb (is_prefix (o_sent s) (accepted (o_done s) ++ o_pending whole (o_pc s)))
  | None => false
  end.
Lemma bad_l : forall whole lf order B Size evs, o_bad whole lf order B Size evs = true ->
  ~ exists s rest, o_run whole lf order B Size (o_init (fun _ => 0)) evs = Some s /\ o_fifo whole Size s rest.
Proof. intros whole lf order B Size evs H (s & rest & E & F & _). unfold o_bad in H. rewrite E, (prefix_l _ _ rest F) in H. discriminate. Qed.
(** The cursor before the item. *)
Definition early (whole : bool) (order : list wstep) : list oev :=
  o_write 10 ++ OStart 20 :: repeat OStep (loads whole + upto (wcur whole) order) ++ [OIsr; OIsr].
Lemma early_l : forall whole lf order, Permutation order (wsteps whole) -> beforeb WItem (wcur whole) order = false -> o_bad whole lf order 0 4 (early whole order) = true.
Proof.
  intros whole lf order H N. apply perms_in in H.
  assert (C : forallb (fun whole => forallb (fun lf => forallb (fun order => beforeb WItem (wcur whole) order || o_bad whole lf order 0 4 (early whole order)) (perms (wsteps whole))) [true; false]) [true; false] = true) by (lazy; reflexivity).
  rewrite forallb_forall in C. assert (I1 : In whole [true; false]) by (destruct whole; cbn; auto). specialize (C whole I1). rewrite forallb_forall in C.
  assert (I2 : In lf [true; false]) by (destruct lf; cbn; auto). specialize (C lf I2). rewrite forallb_forall in C. specialize (C order H). cbv beta in C. rewrite N in C. exact C.
Qed.
(** The interrupt before the cursor. *)
Definition asleep (whole : bool) (order : list wstep) : list oev :=
  OStart 10 :: repeat OStep (loads whole + upto WOn order) ++ OIsr :: repeat OStep 6.
Definition o_stuck (whole lf : bool) (order : list wstep) : bool :=
  match o_run whole lf order 0 4 (o_init (fun _ => 0)) (asleep whole order) with
  | Some s => match o_pc s with OIdle => true | _ => false end && negb (o_ien s) && (ring_length 4 (o_ring s) =? 1)
  | None => false
  end.
Lemma asleep_l : forall whole lf order, Permutation order (wsteps whole) -> beforeb (wcur whole) WOn order = false -> o_stuck whole lf order = true.
Proof.
  intros whole lf order H N. apply perms_in in H.
  assert (C : forallb (fun whole => forallb (fun lf => forallb (fun order => beforeb (wcur whole) WOn order || o_stuck whole lf order) (perms (wsteps whole))) [true; false]) [true; false] = true) by (lazy; reflexivity).
  rewrite forallb_forall in C. assert (I1 : In whole [true; false]) by (destruct whole; cbn; auto). specialize (C whole I1). rewrite forallb_forall in C.
  assert (I2 : In lf [true; false]) by (destruct lf; cbn; auto). specialize (C lf I2). rewrite forallb_forall in C. specialize (C order H). cbv beta in C. rewrite N in C. exact C.
Qed.
(** Two addresses on two pages. *)
Definition torn (order : list wstep) : list oev :=
  o_write 10 ++ OIsr :: OStart 20 :: repeat OStep (2 + Nat.min (upto WLo order) (upto WHi order)) ++ [OIsr; OIsr].
Lemma torn_l : forall lf order, Permutation order (wsteps false) -> o_bad false lf order 255 2 (torn order) = true.
Proof.
  intros lf order H. apply perms_in in H.
  assert (C : forallb (fun lf => forallb (fun order => o_bad false lf order 255 2 (torn order)) (perms (wsteps false))) [true; false] = true) by (lazy; reflexivity).
  rewrite forallb_forall in C. assert (I2 : In lf [true; false]) by (destruct lf; cbn; auto). specialize (C lf I2). rewrite forallb_forall in C. exact (C order H).
Qed.
Fixpoint rupto (f : rstep -> bool) (l : list rstep) : nat := match l with [] => O | x :: r => if f x then 1%nat else S (rupto f r) end.
Definition rtorn (once : bool) (order : list rstep) : list qev :=
  q_read ++ QIsr 1 true :: QStart :: repeat QStep ((if once then 2 else 4) + rupto (fun a => match a with RLo | RHi => true | _ => false end) order) ++ [QIsr 2 true; QIsr 3 true] ++ repeat QStep 4.
Definition q_bad (lf once : bool) (order : list rstep) : bool :=
  match q_run false lf once order 255 2 (q_init (fun _ => 0)) (rtorn once order) with
  | Some s => match q_pc s with QIdle => true | _ => false end && (ring_length 2 (q_ring s) =? 0) && negb (length (q_acc s) =? length (delivered (q_got s)))%nat
  | None => false
  end.
Lemma rtorn_l : forall lf once order, Permutation order (rsteps false) -> q_bad lf once order = true.
Proof.
  intros lf once order H. apply perms_in in H.
  assert (C : forallb (fun lf => forallb (fun once => forallb (q_bad lf once) (perms (rsteps false))) [true; false]) [true; false] = true) by (lazy; reflexivity).
  rewrite forallb_forall in C. assert (I1 : In lf [true; false]) by (destruct lf; cbn; auto). specialize (C lf I1). rewrite forallb_forall in C.
  assert (I2 : In once [true; false]) by (destruct once; cbn; auto). specialize (C once I2). rewrite forallb_forall in C. exact (C order H).
Qed.
