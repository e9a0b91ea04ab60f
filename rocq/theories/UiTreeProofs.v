(** Proofs: navigation in trees of controls. *)
Require Import ZArith List Bool Lia ZifyBool.
Import ListNotations.
From Verif Require Import Base BaseFacts ArrayModel UiModel UiSpec UiProofs.
Open Scope Z_scope.

(** ** Lists *)
Lemma update_length : forall A (l : list A) i f, length (update l i f) = length l.
Proof. intros A l. induction l as [|x l IH]; intros [|i] f; cbn; auto. Qed.
Lemma nth_update : forall A (l : list A) i f j,
  nth_error (update l i f) j = if Nat.eqb i j then option_map f (nth_error l j) else nth_error l j.
Proof.
  intros A l. induction l as [|x l IH]; intros [|i] f [|j]; cbn [update nth_error Nat.eqb]; try reflexivity.
  - destruct (Nat.eqb i j); reflexivity.
  - apply IH.
Qed.
Lemma map_update : forall A B (g : A -> B) (l : list A) i f, (forall x, g (f x) = g x) -> map g (update l i f) = map g l.
Proof. intros A B g l. induction l as [|x l IH]; intros [|i] f H; cbn; f_equal; auto. Qed.
Lemma flat_map_update : forall A B (g : A -> list B) (l : list A) i f, (forall x, g (f x) = g x) -> flat_map g (update l i f) = flat_map g l.
Proof. intros A B g l. induction l as [|x l IH]; intros [|i] f H; cbn; f_equal; auto. Qed.

(** ** Induction on trees *)
Lemma ctl_induct : forall P : ctl -> Prop,
  (forall st p t, P (Label st p t)) -> (forall st p i lr log, P (Field st p i lr log)) ->
  (forall k st p cur kids, Forall P kids -> P (Box k st p cur kids)) -> forall c, P c.
Proof.
  intros P HL HF HB. fix IH 1. intros [st p t|st p i lr log|k st p cur kids].
  - apply HL.
  - apply HF.
  - apply HB. induction kids as [|x r IHr]; constructor; [apply IH|exact IHr].
Qed.

(** ** nav by cases *)
Definition nav_at (m : cmd) := fix nav_at (l : list ctl) (i : nat) {struct l} : list ctl * bool :=
  match l, i with
  | [], _ => ([], false)
  | x :: r, O => let (x, h) := nav m x in (x :: r, h)
  | x :: r, S j => let (r, h) := nav_at r j in (x :: r, h)
  end.
Lemma nav_at_eq : forall m l i, nav_at m l i =
  (update l i (fun x => fst (nav m x)), match nth_error l i with Some x => snd (nav m x) | None => false end).
Proof.
  intros m l. induction l as [|x l IH]; intros [|i]; cbn [nav_at update nth_error]; try reflexivity.
  - destruct (nav m x); reflexivity.
  - rewrite IH. reflexivity.
Qed.
Definition base (m : cmd) (c : ctl) : ctl * bool :=
  match c with
  | Box k st p (Some i) kids =>
      (Box k st p (Some i) (update kids i (fun x => fst (nav m x))),
       match nth_error kids i with Some x => snd (nav m x) | None => false end)
  | _ => (c, false)
  end.
Lemma nav_box : forall m k st p cur kids, nav m (Box k st p cur kids) =
  let c := Box k st p cur kids in
  match k with
  | Horizontal =>
      let (c, h) := base m c in
      if h then (c, true) else match m with Left => set_prev c | Right => set_next c | _ => (c, false) end
  | Vertical => match m with Up => set_prev c | Down => set_next c | _ => base m c end
  | PageK =>
      let (c', h) := match m with
                     | Up => if may_leave c then set_prev c else (c, false)
                     | Down => if may_leave c then set_next c else (c, false)
                     | _ => (c, false)
                     end in
      if h then (c', true) else base m c
  | Pages =>
      let (c, h) := base m c in
      if h then (c, true) else match m with Up => set_prev c | Down => set_next c | _ => (c, false) end
  end.
Proof.
  intros m k st p cur kids.
  assert (B : match cur with
              | None => (Box k st p cur kids, false)
              | Some i => let (kids, h) := nav_at m kids i in (Box k st p cur kids, h)
              end = base m (Box k st p cur kids)).
  { destruct cur as [i|]; [rewrite nav_at_eq; reflexivity|reflexivity]. }
  cbn [nav]. cbv zeta.
  destruct k; unfold nav_at in B; rewrite <- B; reflexivity.
Qed.

(** ** Invariants of set_st *)
Lemma set_st_class : forall s c, class_of (set_st s c) = class_of c.
Proof. intros s c. destruct c; reflexivity. Qed.
Lemma set_st_input : forall s c, is_input (set_st s c) = is_input c.
Proof. intros s c. unfold is_input. rewrite set_st_class. reflexivity. Qed.
Lemma set_st_kids : forall s c, kids_of (set_st s c) = kids_of c /\ cur_of (set_st s c) = cur_of c /\ pos_of (set_st s c) = pos_of c.
Proof. intros s c. destruct c; auto. Qed.
Lemma set_st_skel : forall s c, skel (set_st s c) = skel c.
Proof. intros s c. destruct c; reflexivity. Qed.
Lemma set_st_logs : forall s c, logs (set_st s c) = logs c.
Proof. intros s c. destruct c; reflexivity. Qed.
Lemma set_st_st : forall s c, st_of (set_st s c) = fst (set_state (class_of c) (st_of c) s).
Proof. intros s c. destruct c; reflexivity. Qed.
Lemma set_st_quiet : forall s c, active s = false -> active (st_of (set_st s c)) = true -> active (st_of c) = true.
Proof.
  intros s c H. rewrite set_st_st. unfold set_state. destruct (before _ _ _); cbn [fst]; [congruence|auto].
Qed.
Lemma input_label : forall c, is_input c = true <-> class_of c <> KLabel.
Proof. intros c. destruct c as [| |k]; [| |destruct k]; cbn; split; congruence. Qed.

(** ** Searches find input controls *)
Lemma first_input_l : forall kids i j, first_input kids i = Some j ->
  exists x, (i <= j)%nat /\ nth_error kids (j - i) = Some x /\ is_input x = true.
Proof.
  induction kids as [|x r IH]; intros i j H; cbn [first_input] in H; [discriminate|].
  destruct (is_input x) eqn:E.
  - injection H as <-. exists x. rewrite Nat.sub_diag. auto.
  - destruct (IH (S i) j H) as (y & L & N & I). exists y. split; [lia|]. split; [|exact I].
    replace (j - i)%nat with (S (j - S i)) by lia. exact N.
Qed.
Lemma last_input_l : forall kids i j, last_input kids i = Some j ->
  exists x, (i <= j)%nat /\ nth_error kids (j - i) = Some x /\ is_input x = true.
Proof.
  induction kids as [|x r IH]; intros i j H; cbn [last_input] in H; [discriminate|].
  destruct (last_input r (S i)) as [j'|] eqn:E.
  - injection H as ->. destruct (IH (S i) j E) as (y & L & N & I). exists y. split; [lia|]. split; [|exact I].
    replace (j - i)%nat with (S (j - S i)) by lia. exact N.
  - destruct (is_input x) eqn:F; [|discriminate]. injection H as <-. exists x. rewrite Nat.sub_diag. auto.
Qed.
Lemma nth_skipn : forall A (l : list A) i j, nth_error (skipn i l) j = nth_error l (i + j).
Proof. intros A l. induction l as [|x l IH]; intros [|i] j; cbn; auto. destruct j; reflexivity. Qed.
Lemma nth_firstn : forall A (l : list A) i j x, nth_error (firstn i l) j = Some x -> nth_error l j = Some x /\ (j < i)%nat.
Proof.
  intros A l. induction l as [|y l IH]; intros [|i] [|j] x H; cbn in *; try discriminate.
  - split; [exact H|lia].
  - destruct (IH i j x H). split; [assumption|lia].
Qed.
Lemma next_input_l : forall kids cur j, next_input kids cur = Some j ->
  exists x, nth_error kids j = Some x /\ is_input x = true.
Proof.
  intros kids [i|] j H; cbn [next_input] in H.
  - apply first_input_l in H. destruct H as (x & L & N & I). rewrite nth_skipn in N.
    replace (S i + (j - S i))%nat with j in N by lia. eauto.
  - apply first_input_l in H. destruct H as (x & L & N & I). rewrite Nat.sub_0_r in N. eauto.
Qed.
Lemma prev_input_l : forall kids cur j, prev_input kids cur = Some j ->
  exists x, nth_error kids j = Some x /\ is_input x = true.
Proof.
  intros kids [i|] j H; cbn [prev_input] in H.
  - apply last_input_l in H. destruct H as (x & L & N & I). rewrite Nat.sub_0_r in N. apply nth_firstn in N. destruct N. eauto.
  - apply last_input_l in H. destruct H as (x & L & N & I). rewrite Nat.sub_0_r in N. eauto.
Qed.

(** ** The invariant, node by node *)
Inductive wf : ctl -> Prop :=
| wf_label : forall st p t, active st = false -> wf (Label st p t)
| wf_field : forall st p i lr log, wf (Field st p i lr log)
| wf_box : forall k st p cur kids, Forall wf kids -> focus_ok (Box k st p cur kids) -> wf (Box k st p cur kids).

Lemma wf_set_st : forall s c, wf c -> wf (set_st s c).
Proof.
  intros s c H. destruct H as [st p t A| |k st p cur kids F O].
  - cbn [set_st]. constructor. destruct s; destruct st; try discriminate A; reflexivity.
  - constructor.
  - cbn [set_st]. constructor; assumption.
Qed.

Lemma wf_set_current : forall b new, wf b -> (forall j, new = Some j -> exists x, nth_error (kids_of b) j = Some x /\ is_input x = true) ->
  wf (set_current b new).
Proof.
  intros b new H N. destruct H as [st p t A| |k st p cur kids F [O1 O2]]; [constructor; assumption|constructor|].
  cbn [kids_of cur_of] in *. cbn [set_current].
  (* after clearing the old one no child is active *)
  assert (A : exists st1 kids1, (match cur with
      | Some i => (fst (set_state (class_of (Box k st p cur kids)) st Normal), update kids i (set_st Normal))
      | None => (st, kids) end) = (st1, kids1) /\ Forall wf kids1 /\
      (forall i x, nth_error kids1 i = Some x -> active (st_of x) = false) /\
      (forall i x, nth_error kids i = Some x -> is_input x = true -> exists y, nth_error kids1 i = Some y /\ is_input y = true)).
  { destruct cur as [i|].
    - eexists. eexists. split; [reflexivity|]. split; [|split].
      + apply Forall_forall. intros y Iy. apply In_nth_error in Iy. destruct Iy as [q Q]. rewrite nth_update in Q.
        rewrite Forall_forall in F. destruct (Nat.eqb i q).
        * destruct (nth_error kids q) as [z|] eqn:Z; [|discriminate]. cbn in Q. injection Q as <-.
          apply wf_set_st. apply F. eapply nth_error_In. exact Z.
        * apply F. eapply nth_error_In. exact Q.
      + intros q y Q. rewrite nth_update in Q. destruct (Nat.eqb_spec i q) as [->|D].
        * destruct (nth_error kids q) as [z|] eqn:Z; [|discriminate]. cbn in Q. injection Q as <-.
          rewrite set_st_st. destruct z as [s| s|kk s]; cbn; destruct s; try reflexivity; destruct kk; reflexivity.
        * destruct (active (st_of y)) eqn:E; [|reflexivity]. specialize (O1 q y Q E). congruence.
      + intros q x Q I. rewrite nth_update, Q. destruct (Nat.eqb i q); cbn [option_map]; eexists; split; try reflexivity; [|exact I].
        rewrite set_st_input. exact I.
    - eexists. eexists. split; [reflexivity|]. split; [exact F|]. split.
      + intros q y Q. destruct (active (st_of y)) eqn:E; [|reflexivity]. specialize (O1 q y Q E). congruence.
      + intros q x Q I. eauto. }
  destruct A as (st1 & kids1 & E & F1 & Q1 & I1). rewrite E. destruct new as [j|].
  - destruct (N j eq_refl) as (x & X & Ix). destruct (I1 j x X Ix) as (y & Y & Iy). constructor.
    + apply Forall_forall. intros z Iz. apply In_nth_error in Iz. destruct Iz as [q Q]. rewrite nth_update in Q.
      rewrite Forall_forall in F1. destruct (Nat.eqb_spec j q) as [->|D].
      * rewrite Y in Q. cbn in Q. injection Q as <-. apply wf_set_st.
        apply F1. eapply nth_error_In. exact Y.
      * apply F1. eapply nth_error_In. exact Q.
    + split; cbn [kids_of cur_of].
      * intros q z Q Az. rewrite nth_update in Q. destruct (Nat.eqb_spec j q) as [->|D]; [reflexivity|].
        rewrite (Q1 q z Q) in Az. discriminate.
      * intros q Eq. injection Eq as <-. rewrite nth_update, Nat.eqb_refl, Y. eexists. split; [reflexivity|]. rewrite set_st_input. exact Iy.
  - constructor; [exact F1|]. split; cbn [kids_of cur_of]; [|discriminate].
    intros q z Q Az. rewrite (Q1 q z Q) in Az. discriminate.
Qed.
Lemma wf_go : forall b f cur, wf b -> (f = next_input \/ f = prev_input) -> wf (fst (go b (f (kids_of b) cur))).
Proof.
  intros b f cur H D. unfold go. destruct (f (kids_of b) cur) as [j|] eqn:E; [|exact H]. cbn [fst].
  apply wf_set_current; [exact H|]. intros j' Ej. injection Ej as <-. destruct D as [->| ->]; [apply next_input_l in E|apply prev_input_l in E]; exact E.
Qed.
Lemma wf_first : forall b, wf b -> wf (fst (set_first b)).
Proof. intros b H. apply (wf_go b next_input); auto. Qed.
Lemma wf_next : forall b, wf b -> wf (fst (set_next b)).
Proof. intros b H. apply (wf_go b next_input); auto. Qed.
Lemma wf_prev : forall b, wf b -> wf (fst (set_prev b)).
Proof. intros b H. apply (wf_go b prev_input); auto. Qed.

Lemma set_current_class : forall b j, class_of (set_current b j) = class_of b.
Proof.
  intros b j. destruct b as [| |k st p cur kids]; try reflexivity. cbn [set_current].
  destruct cur as [i|]; destruct j; destruct k; reflexivity.
Qed.
Lemma go_class : forall b j, class_of (fst (go b j)) = class_of b.
Proof. intros b [j|]; [apply set_current_class|reflexivity]. Qed.
Lemma base_class : forall m c, class_of (fst (base m c)) = class_of c.
Proof. intros m c. destruct c as [| |k st p [i|] kids]; reflexivity. Qed.
Lemma nav_class : forall m c, class_of (fst (nav m c)) = class_of c.
Proof.
  intros m c. destruct c as [| |k st p cur kids]; [reflexivity|cbn [nav]; destruct (field_nav st lr log m) as [[? ?] ?]; reflexivity|].
  rewrite nav_box. cbv zeta. pose proof (base_class m (Box k st p cur kids)) as B.
  destruct k.
  - destruct (base m _) as [c h]. cbn [fst] in B. destruct h; [exact B|]. rewrite <- B. destruct m; try reflexivity; apply go_class.
  - destruct m; try exact B; apply go_class.
  - assert (G : class_of (fst (match m with
      | Up => if may_leave (Box PageK st p cur kids) then set_prev (Box PageK st p cur kids) else (Box PageK st p cur kids, false)
      | Down => if may_leave (Box PageK st p cur kids) then set_next (Box PageK st p cur kids) else (Box PageK st p cur kids, false)
      | _ => (Box PageK st p cur kids, false) end)) = KPage).
    { destruct m; try reflexivity; destruct (may_leave _); try reflexivity; apply go_class. }
    destruct (match m with Up => _ | _ => _ end) as [c' h]. destruct h; [exact G|exact B].
  - destruct (base m _) as [c h]. cbn [fst] in B. destruct h; [exact B|]. rewrite <- B. destruct m; try reflexivity; apply go_class.
Qed.

Lemma wf_base : forall m k st p cur kids, Forall (fun x => wf x -> wf (fst (nav m x))) kids ->
  wf (Box k st p cur kids) -> wf (fst (base m (Box k st p cur kids))).
Proof.
  intros m k st p cur kids IH H. destruct cur as [i|]; [|exact H]. cbn [base fst].
  inversion H as [| |? ? ? ? ? F [O1 O2]]; subst. cbn [kids_of cur_of] in *. constructor.
  - apply Forall_forall. intros y Iy. apply In_nth_error in Iy. destruct Iy as [q Q]. rewrite nth_update in Q.
    rewrite Forall_forall in F, IH. destruct (Nat.eqb i q).
    + destruct (nth_error kids q) as [z|] eqn:Z; [|discriminate]. cbn in Q. injection Q as <-.
      apply nth_error_In in Z. apply IH; auto.
    + apply F. eapply nth_error_In. exact Q.
  - split; cbn [kids_of cur_of].
    + intros q y Q A. rewrite nth_update in Q. destruct (Nat.eqb_spec i q) as [->|D]; [reflexivity|]. apply (O1 q y Q A).
    + intros q Eq. injection Eq as <-. destruct (O2 i eq_refl) as (x & X & Ix). rewrite nth_update, Nat.eqb_refl, X.
      eexists. split; [reflexivity|]. unfold is_input in *. rewrite nav_class. exact Ix.
Qed.

Lemma wf_nav : forall m c, wf c -> wf (fst (nav m c)).
Proof.
  intros m c. induction c as [st p t|st p i lr log|k st p cur kids IH] using ctl_induct; intros H.
  - exact H.
  - cbn [nav]. destruct (field_nav st lr log m) as [[s l] h]. constructor.
  - pose proof (wf_base m k st p cur kids IH H) as B. rewrite nav_box. cbv zeta.
    destruct k.
    + destruct (base m _) as [c h]. cbn [fst] in B. destruct h; [exact B|]. destruct m; try exact B; [apply wf_prev|apply wf_next]; exact B.
    + destruct m; try exact B; [apply wf_prev|apply wf_next]; exact H.
    + assert (G : wf (fst (match m with
        | Up => if may_leave (Box PageK st p cur kids) then set_prev (Box PageK st p cur kids) else (Box PageK st p cur kids, false)
        | Down => if may_leave (Box PageK st p cur kids) then set_next (Box PageK st p cur kids) else (Box PageK st p cur kids, false)
        | _ => (Box PageK st p cur kids, false) end))).
      { destruct m; try exact H; destruct (may_leave _); try exact H; [apply wf_prev|apply wf_next]; exact H. }
      destruct (match m with Up => _ | _ => _ end) as [c' h]. destruct h; [exact G|exact B].
    + destruct (base m _) as [c h]. cbn [fst] in B. destruct h; [exact B|]. destruct m; try exact B; [apply wf_prev|apply wf_next]; exact B.
Qed.

(** A change below the root keeps the invariant if it keeps that of the control and does not make it
    active, unless the way there leads through current controls. *)
Lemma wf_at : forall f path c,
  (forall x, wf x -> wf (f x)) -> (forall x, class_of (f x) = class_of x) ->
  (current_path c path \/ forall x, active (st_of (f x)) = true -> active (st_of x) = true) ->
  wf c -> wf (at_path path f c).
Proof.
  intros f path. induction path as [|i path IH]; intros c Hf Hc Ha H; cbn [at_path]; [apply Hf; exact H|].
  destruct H as [st p t A| |k st p cur kids F [O1 O2]]; [constructor; assumption|constructor|]. cbn [kids_of cur_of current_path] in *.
  assert (Cl : forall q x, class_of (at_path q f x) = class_of x).
  { intros q x. destruct q; [apply Hc|]. destruct x as [| |kk]; [| |destruct kk]; reflexivity. }
  constructor.
  - apply Forall_forall. intros y Iy. apply In_nth_error in Iy. destruct Iy as [q Q]. rewrite nth_update in Q.
    rewrite Forall_forall in F. destruct (Nat.eqb_spec i q) as [->|D].
    + destruct (nth_error kids q) as [z|] eqn:Z; [|discriminate]. cbn in Q. injection Q as <-.
      apply IH; auto. { destruct Ha as [[_ Ha]|Ha]; auto. } apply F. eapply nth_error_In. exact Z.
    + apply F. eapply nth_error_In. exact Q.
  - split; cbn [kids_of cur_of].
    + intros q y Q A. rewrite nth_update in Q. destruct (Nat.eqb_spec i q) as [->|D].
      * destruct Ha as [[Ha _]|Ha]; [exact Ha|].
        destruct (nth_error kids q) as [z|] eqn:Z; [|discriminate]. cbn in Q. injection Q as <-. apply (O1 q z Z).
        destruct path; [apply Ha; exact A|destruct z; exact A].
      * apply (O1 q y Q A).
    + intros q Eq. destruct (O2 q Eq) as (x & X & Ix). rewrite nth_update, X. destruct (Nat.eqb i q); cbn [option_map]; eexists; (split; [reflexivity|]); [|exact Ix].
      unfold is_input in *. rewrite Cl. exact Ix.
Qed.

Lemma clear_quiet : forall b, active (st_of (set_current b None)) = true -> active (st_of b) = true.
Proof.
  intros b. destruct b as [| |k st p cur kids]; auto. cbn [set_current]. destruct cur; [|auto].
  destruct k; destruct st; auto.
Qed.
Lemma wf_act : forall c a, wf c -> act_ok c a -> wf (act1 c a).
Proof.
  intros c a H O. destruct a as [m|path s|path|path|path|path]; cbn [act1 act_ok] in *.
  - apply wf_nav. exact H.
  - apply wf_at; [intros; apply wf_set_st; assumption|apply set_st_class| |exact H].
    destruct O as [O|O]; [right; intros x; apply set_st_quiet; exact O|left; exact O].
  - apply wf_at; [apply wf_first|intros; apply go_class|left; exact O|exact H].
  - apply wf_at; [apply wf_next|intros; apply go_class|left; exact O|exact H].
  - apply wf_at; [apply wf_prev|intros; apply go_class|left; exact O|exact H].
  - apply wf_at; [|intros; apply set_current_class|right; apply clear_quiet|exact H].
    intros x Hx. apply wf_set_current; [exact Hx|discriminate].
Qed.
Lemma wf_acts : forall l c, wf c -> acts_ok c l -> wf (acts c l).
Proof.
  induction l as [|a l IH]; intros c H O; [exact H|]. destruct O as [O1 O2].
  cbn [acts fold_left]. apply IH; [apply wf_act; assumption|exact O2].
Qed.
Lemma wf_fresh : forall c, fresh c -> wf c.
Proof.
  intros c. induction c as [st p t|st p i lr log|k st p cur kids IH] using ctl_induct; intros H; cbn [fresh] in H.
  - subst. constructor. reflexivity.
  - constructor.
  - destruct H as (-> & -> & H). assert (F : Forall (fun x => fresh x) kids).
    { clear IH. induction kids as [|x r IHr]; constructor; destruct H; auto. }
    constructor.
    + rewrite Forall_forall in *. auto.
    + split; cbn [kids_of cur_of]; [|discriminate]. intros i x N A. exfalso.
      rewrite Forall_forall in F. specialize (F x (nth_error_In _ _ N)).
      destruct x; cbn [fresh] in F; cbn [st_of] in A; [subst|destruct F as [-> _]|destruct F as [-> _]]; discriminate A.
Qed.
Lemma wf_inside : forall b c, inside b c -> wf c -> wf b.
Proof.
  intros b c I. induction I as [|k st p cur kids i x N I IH]; intros H; [exact H|].
  inversion H as [| |? ? ? ? ? F O]; subst. apply IH. rewrite Forall_forall in F. apply F. eapply nth_error_In. exact N.
Qed.
Lemma focus_l : forall c l b, fresh c -> acts_ok c l -> inside b (acts c l) ->
  focus_ok b /\ (class_of b = KLabel -> active (st_of b) = false).
Proof.
  intros c l b F O I. apply wf_inside in I; [|apply wf_acts; [apply wf_fresh; exact F|exact O]].
  destruct I as [st p t A| |k st p cur kids FF OO].
  - split; [|auto]. split; [intros [|i]|]; discriminate.
  - split; [split; [intros [|q]|]; discriminate|discriminate].
  - split; [exact OO|destruct k; discriminate].
Qed.

(** ** What navigation leaves alone *)
Lemma set_current_skel : forall b j, skel (set_current b j) = skel b.
Proof.
  intros b j. destruct b as [| |k st p cur kids]; try reflexivity. cbn [set_current].
  destruct cur as [i|]; destruct j as [j|]; cbn [skel]; rewrite ?(map_update _ _ skel) by apply set_st_skel; reflexivity.
Qed.
Lemma set_current_logs : forall b j, logs (set_current b j) = logs b.
Proof.
  intros b j. destruct b as [| |k st p cur kids]; try reflexivity. cbn [set_current].
  destruct cur as [i|]; destruct j as [j|]; cbn [logs]; rewrite ?(flat_map_update _ _ logs) by apply set_st_logs; reflexivity.
Qed.
Lemma go_skel : forall b j, skel (fst (go b j)) = skel b.
Proof. intros b [j|]; [apply set_current_skel|reflexivity]. Qed.
Lemma go_logs : forall b j, logs (fst (go b j)) = logs b.
Proof. intros b [j|]; [apply set_current_logs|reflexivity]. Qed.

(** A navigation result: nothing but states and current controls changed, at most one log grew, and
    then the command was handled. *)
Definition tame (m : cmd) (c : ctl) (r : ctl * bool) : Prop :=
  skel (fst r) = skel c /\
  (logs (fst r) = logs c \/ extended (logs c) (logs (fst r)) m /\ snd r = true /\ m <> Enter /\ m <> Exit /\ m <> NNone).
Lemma tame_go : forall m c j, tame m c (go c j).
Proof. intros m c j. split; [apply go_skel|left; apply go_logs]. Qed.
Lemma tame_field : forall m st p i lr log, tame m (Field st p i lr log) (nav m (Field st p i lr log)).
Proof.
  intros m st p i lr log. cbn [nav].
  assert (H : let '(s, l, h) := field_nav st lr log m in l = log \/ l = log ++ [m] /\ h = true /\ m <> Enter /\ m <> Exit /\ m <> NNone).
  { destruct m, lr, st; cbn; auto; right; repeat split; discriminate. }
  destruct (field_nav st lr log m) as [[s l] h]. split; [reflexivity|]. cbn [fst snd logs].
  destruct H as [->|[-> H]]; [left; reflexivity|right]. split; [|exact H]. exists [], log, []. split; reflexivity.
Qed.
Lemma tame_base : forall m k st p cur kids, Forall (fun x => tame m x (nav m x)) kids ->
  tame m (Box k st p cur kids) (base m (Box k st p cur kids)).
Proof.
  intros m k st p cur kids F. destruct cur as [i|]; [|split; [reflexivity|left; reflexivity]]. cbn [base].
  revert i. induction F as [|x r [Hs Hl] F IH]; intros i.
  - destruct i; (split; [reflexivity|left; reflexivity]).
  - destruct i as [|i]; cbn [update nth_error].
    + unfold tame. cbn [fst snd skel logs map flat_map]. split; [rewrite Hs; reflexivity|].
      destruct Hl as [->|[(a & log & b & Ea & Eb) Hl]]; [left; reflexivity|right]. split; [|exact Hl].
      exists a, log, (b ++ flat_map logs r). rewrite Ea, Eb, <- !app_assoc. split; reflexivity.
    + destruct (IH i) as [Is Il]. unfold tame in *. cbn [fst snd skel logs map flat_map] in *. split.
      * injection Is as ->. reflexivity.
      * destruct Il as [->|[(a & log & b & Ea & Eb) Hl']]; [left; reflexivity|right]. split; [|exact Hl'].
        exists (logs x ++ a), log, b. rewrite Ea, Eb, <- !app_assoc. split; reflexivity.
Qed.
Lemma tame_then : forall m c c' r h, tame m c (c', h) -> h = false -> tame m c' r -> (logs (fst r) = logs c') -> tame m c r.
Proof.
  intros m c c' r h [Hs Hl] -> [Rs _] Rl. cbn [fst snd] in *. split; [congruence|].
  destruct Hl as [Hl|[_ [Hl _]]]; [left; congruence|discriminate].
Qed.
Lemma tame_nav : forall m c, tame m c (nav m c).
Proof.
  intros m c. induction c as [st p t|st p i lr log|k st p cur kids IH] using ctl_induct.
  - split; [reflexivity|left; reflexivity].
  - apply tame_field.
  - pose proof (tame_base m k st p cur kids IH) as B. rewrite nav_box. cbv zeta.
    destruct k.
    + destruct (base m _) as [c h]. destruct h; [exact B|].
      destruct m; try exact B; (eapply tame_then; [exact B|reflexivity|apply tame_go|apply go_logs]).
    + destruct m; try exact B; apply tame_go.
    + assert (G : tame m (Box PageK st p cur kids) (match m with
        | Up => if may_leave (Box PageK st p cur kids) then set_prev (Box PageK st p cur kids) else (Box PageK st p cur kids, false)
        | Down => if may_leave (Box PageK st p cur kids) then set_next (Box PageK st p cur kids) else (Box PageK st p cur kids, false)
        | _ => (Box PageK st p cur kids, false) end)).
      { destruct m; try (split; [reflexivity|left; reflexivity]); destruct (may_leave _);
          try (split; [reflexivity|left; reflexivity]); apply tame_go. }
      destruct (match m with Up => _ | _ => _ end) as [c' h]. destruct h; [exact G|exact B].
    + destruct (base m _) as [c h]. destruct h; [exact B|].
      destruct m; try exact B; (eapply tame_then; [exact B|reflexivity|apply tame_go|apply go_logs]).
Qed.

(** ** Moving in a panel *)
Lemma first_input_eq : forall l o, first_input l o = hd_error (input_positions l o).
Proof.
  induction l as [|x l IH]; intros o; [reflexivity|]. cbn [first_input input_positions]. destruct (is_input x); [reflexivity|apply IH].
Qed.
Lemma last_input_eq : forall l o, last_input l o = hd_error (rev (input_positions l o)).
Proof.
  induction l as [|x l IH]; intros o; [reflexivity|]. cbn [last_input input_positions]. rewrite IH, rev_app_distr.
  destruct (rev (input_positions l (S o))) as [|y r]; [|reflexivity]. destruct (is_input x); reflexivity.
Qed.
Lemma positions_split : forall l o k i, nth_error (input_positions l o) k = Some i ->
  (o <= i)%nat /\ input_positions (skipn (S i - o) l) (S i) = skipn (S k) (input_positions l o) /\
  input_positions (firstn (i - o) l) o = firstn k (input_positions l o).
Proof.
  induction l as [|x l IH]; intros o k i H; cbn [input_positions] in H; [destruct k; discriminate|].
  assert (C : forall kk, nth_error (input_positions l (S o)) kk = Some i ->
     (S o <= i)%nat /\ skipn (S i - o) (x :: l) = skipn (S i - S o) l /\ firstn (i - o) (x :: l) = x :: firstn (i - S o) l).
  { intros kk E. destruct (IH _ _ _ E) as (L & _ & _). split; [exact L|].
    replace (S i - o)%nat with (S (i - o)) by lia. replace (i - o)%nat with (S (i - S o)) by lia.
    replace (S i - S o)%nat with (S (i - S o)) by lia. split; reflexivity. }
  cbn [input_positions]. destruct (is_input x) eqn:I; cbn [app] in *.
  - destruct k as [|k]; cbn [nth_error] in H.
    + injection H as <-. split; [lia|]. replace (S o - o)%nat with 1%nat by lia. rewrite Nat.sub_diag. split; reflexivity.
    + destruct (C k H) as (L & E1 & E2). destruct (IH _ _ _ H) as (_ & J1 & J2). rewrite E1, E2.
      split; [lia|]. split; [exact J1|]. cbn [input_positions firstn app]. rewrite I, J2. reflexivity.
  - destruct (C k H) as (L & E1 & E2). destruct (IH _ _ _ H) as (_ & J1 & J2). rewrite E1, E2.
    split; [lia|]. split; [exact J1|]. cbn [input_positions app]. rewrite I. exact J2.
Qed.
Lemma hd_skipn : forall A (l : list A) k, hd_error (skipn k l) = nth_error l k.
Proof. intros A l. induction l as [|x l IH]; intros [|k]; cbn; auto. Qed.
Lemma hd_rev_firstn : forall A (l : list A) k, (k < length l)%nat -> hd_error (rev (firstn (S k) l)) = nth_error l k.
Proof.
  intros A l. induction l as [|x l IH]; intros k H; cbn [length] in H; [lia|].
  cbn [firstn rev]. destruct k as [|k]; [reflexivity|]. specialize (IH k ltac:(lia)).
  destruct (rev (firstn (S k) l)) as [|y r] eqn:E; cbn [app hd_error nth_error] in *; [|exact IH].
  symmetry in IH. apply nth_error_None in IH. lia.
Qed.

Lemma move_l : forall b fwd k, cur_of b = place b k -> (k <> None -> place b k <> None) ->
  let b' := fst (move b fwd) in let k' := cursor1 (length (input_positions (kids_of b) 0)) k fwd in
  snd (move b fwd) = negb (match k, k' with Some x, Some y => Nat.eqb x y | None, None => true | _, _ => false end) /\
  input_positions (kids_of b') 0 = input_positions (kids_of b) 0 /\
  cur_of b' = place b k' /\ (k' <> None -> place b k' <> None).
Proof.
  intros b fwd k Hk Hn.
  assert (P : forall j, (exists kk st p cur kids, b = Box kk st p cur kids) -> input_positions (kids_of (set_current b (Some j))) 0 = input_positions (kids_of b) 0 /\ cur_of (set_current b (Some j)) = Some j).
  { intros j (kk & st & p & cur & kids & ->). cbn [set_current]. 
    assert (G : forall s l i o, input_positions (update l i (set_st s)) o = input_positions l o).
    { intros s l. induction l as [|x l IH]; intros [|i] o; cbn [update input_positions]; try reflexivity;
        [rewrite set_st_input; reflexivity|rewrite IH; reflexivity]. }
    destruct cur as [i|]; cbn [kids_of cur_of]; rewrite !G; split; reflexivity. }
  assert (B : input_positions (kids_of b) 0 <> [] -> exists kk st p cur kids, b = Box kk st p cur kids).
  { destruct b as [| |kk st p cur kids]; cbn; try congruence. intros _. repeat eexists. }
  set (ps := input_positions (kids_of b) 0) in *.
  (* what the search finds *)
  assert (F : (if fwd then next_input (kids_of b) (cur_of b) else prev_input (kids_of b) (cur_of b)) =
              match k with
              | None => nth_error ps (if fwd then 0 else length ps - 1)
              | Some k => if fwd then nth_error ps (S k) else match k with O => None | S q => nth_error ps q end
              end%nat).
  { rewrite Hk. destruct k as [k|].
    - unfold place. fold ps. destruct (nth_error ps k) as [i|] eqn:E; [|exfalso; apply (Hn ltac:(discriminate)); unfold place; fold ps; exact E].
      destruct (positions_split _ _ _ _ E) as (_ & S1 & S2). rewrite Nat.sub_0_r in S1, S2. destruct fwd; cbn [next_input prev_input].
      + rewrite first_input_eq, S1. apply hd_skipn.
      + rewrite last_input_eq, S2. destruct k as [|q]; [reflexivity|]. apply hd_rev_firstn.
        assert (S q < length ps)%nat by (apply nth_error_Some; congruence). lia.
    - cbn [place]. destruct fwd; cbn [next_input prev_input].
      + rewrite first_input_eq. fold ps. destruct ps; reflexivity.
      + rewrite last_input_eq. fold ps. destruct ps as [|x r] eqn:E; [reflexivity|]. rewrite <- hd_rev_firstn by (cbn [length]; lia).
        f_equal. f_equal. rewrite firstn_all2; [reflexivity|cbn [length]; lia]. }
  assert (M : move b fwd = go b (if fwd then next_input (kids_of b) (cur_of b) else prev_input (kids_of b) (cur_of b))) by (destruct fwd; reflexivity).
  cbv zeta. rewrite M, F.
  destruct k as [k|]; unfold cursor1.
  - assert (K : (k < length ps)%nat) by (apply nth_error_Some; apply Hn; discriminate).
    assert (NE : ps <> []) by (intros E; rewrite E in K; cbn in K; lia).
    destruct fwd.
    + destruct (nth_error ps (S k)) as [j|] eqn:E.
      * assert (S k < length ps)%nat by (apply nth_error_Some; congruence).
        rewrite Nat.min_l by lia. cbn [go fst snd]. destruct (P j (B NE)) as [P1 P2]. unfold place. fold ps. rewrite E.
        split; [destruct (Nat.eqb_spec k (S k)); [lia|reflexivity]|]. split; [exact P1|]. split; [exact P2|discriminate].
      * apply nth_error_None in E. rewrite Nat.min_r by lia. replace (length ps - 1)%nat with k by lia. cbn [go fst snd].
        rewrite Nat.eqb_refl. repeat split; auto.
    + destruct k as [|q].
      * cbn [go fst snd Nat.sub]. repeat split; auto.
      * replace (S q - 1)%nat with q by lia. destruct (nth_error ps q) as [j|] eqn:E; [|apply nth_error_None in E; lia].
        cbn [go fst snd]. destruct (P j (B NE)) as [P1 P2]. unfold place. fold ps. rewrite E.
        split; [destruct (Nat.eqb_spec (S q) q); [lia|reflexivity]|]. split; [exact P1|]. split; [exact P2|discriminate].
  - destruct (length ps) as [|n] eqn:L.
    + replace (nth_error ps (if fwd then 0 else 0 - 1)%nat) with (@None nat) by (destruct ps; [destruct fwd; reflexivity|discriminate]).
      cbn [go fst snd]. repeat split; auto.
    + assert (NE : ps <> []) by (intros E; rewrite E in L; discriminate).
      replace (S n - 1)%nat with n by lia.
      destruct (nth_error ps (if fwd then 0 else n)%nat) as [j|] eqn:E; [|apply nth_error_None in E; destruct fwd; lia].
      cbn [go fst snd]. destruct (P j (B NE)) as [P1 P2]. unfold place. fold ps. rewrite E.
      split; [reflexivity|]. split; [exact P1|]. split; [exact P2|discriminate].
Qed.
Lemma moves_l : forall l b, cur_of b = None ->
  let ps := input_positions (kids_of b) 0 in
  input_positions (kids_of (moves b l)) 0 = ps /\
  cur_of (moves b l) = place b (cursor (length ps) l) /\ (cursor (length ps) l <> None -> cur_of (moves b l) <> None).
Proof.
  intros l b H. cbv zeta.
  assert (G : forall l b k, cur_of b = place b k -> (k <> None -> place b k <> None) ->
     let ps := input_positions (kids_of b) 0 in
     input_positions (kids_of (moves b l)) 0 = ps /\
     cur_of (moves b l) = place b (fold_left (cursor1 (length ps)) l k) /\ (fold_left (cursor1 (length ps)) l k <> None -> place b (fold_left (cursor1 (length ps)) l k) <> None)).
  { clear. induction l as [|d l IH]; intros b k Hk Hn; [auto|]. cbv zeta. cbn [moves fold_left].
    destruct (move_l b d k Hk Hn) as (_ & M1 & M2 & M3). cbv zeta in *.
    assert (PL : forall q, place (fst (move b d)) q = place b q) by (intros [q|]; unfold place; rewrite ?M1; reflexivity).
    specialize (IH (fst (move b d)) (cursor1 (length (input_positions (kids_of b) 0)) k d)). rewrite PL in IH.
    specialize (IH M2 M3). cbv zeta in IH. rewrite M1, !PL in IH. exact IH. }
  specialize (G l b None H ltac:(congruence)). cbv zeta in G. destruct G as (G1 & G2 & G3).
  split; [exact G1|]. split; [exact G2|]. rewrite G2. exact G3.
Qed.

(** ** Which commands move *)
Lemma vertical_l : forall st p cur kids fwd, nav (ud_cmd fwd) (Box Vertical st p cur kids) = move (Box Vertical st p cur kids) fwd.
Proof. intros. rewrite nav_box. destruct fwd; reflexivity. Qed.
Lemma update_same : forall A (l : list A) i f, (forall x, nth_error l i = Some x -> f x = x) -> update l i f = l.
Proof.
  intros A l. induction l as [|x l IH]; intros [|i] f H; cbn [update]; try reflexivity.
  - rewrite (H x eq_refl). reflexivity.
  - rewrite IH; [reflexivity|]. intros y Y. apply H. exact Y.
Qed.
Lemma plain_nav : forall x fwd, plain x -> nav (lr_cmd fwd) x = (x, false).
Proof.
  intros x fwd P. destruct x as [|st p i lr log|]; [reflexivity| |destruct P]. cbn [plain st_of] in P.
  destruct st; try congruence; destruct fwd, lr; reflexivity.
Qed.
Lemma horizontal_l : forall st p cur kids fwd, Forall plain kids ->
  nav (lr_cmd fwd) (Box Horizontal st p cur kids) = move (Box Horizontal st p cur kids) fwd.
Proof.
  intros st p cur kids fwd F. rewrite nav_box. cbv zeta. rewrite Forall_forall in F.
  assert (B : base (lr_cmd fwd) (Box Horizontal st p cur kids) = (Box Horizontal st p cur kids, false)).
  { destruct cur as [i|]; [|reflexivity]. cbn [base]. rewrite update_same.
    - destruct (nth_error kids i) as [x|] eqn:E; [|reflexivity]. rewrite plain_nav; [reflexivity|]. apply F. eapply nth_error_In. exact E.
    - intros x E. rewrite plain_nav; [reflexivity|]. apply F. eapply nth_error_In. exact E. }
  rewrite B. destruct fwd; reflexivity.
Qed.
Lemma plain_set : forall s x, plain x -> s <> Selected -> plain (set_st s x).
Proof.
  intros s x P S. destruct x as [st p t|st p i lr log|]; [| |destruct P]; cbn [plain set_st st_of class_of] in *;
    destruct s, st; cbn; congruence.
Qed.
Lemma plain_update : forall l i s, Forall plain l -> s <> Selected -> Forall plain (update l i (set_st s)).
Proof.
  intros l i s F S. revert i. induction F as [|x l P F IH]; intros [|i]; cbn [update]; constructor; auto. apply plain_set; assumption.
Qed.
Lemma move_horizontal : forall st p cur kids fwd, Forall plain kids ->
  exists st' cur' kids', fst (move (Box Horizontal st p cur kids) fwd) = Box Horizontal st' p cur' kids' /\ Forall plain kids'.
Proof.
  intros st p cur kids fwd F. 
  assert (G : forall j, exists st' cur' kids', fst (go (Box Horizontal st p cur kids) j) = Box Horizontal st' p cur' kids' /\ Forall plain kids').
  { intros [j|]; [|do 3 eexists; split; [reflexivity|exact F]]. cbn [go fst set_current].
    destruct cur as [i|]; do 3 eexists; (split; [reflexivity|]); repeat apply plain_update; try exact F; discriminate. }
  destruct fwd; apply G.
Qed.
Lemma horizontal_walk_l : forall l st p kids, Forall plain kids ->
  navs (Box Horizontal st p None kids) (map lr_cmd l) = moves (Box Horizontal st p None kids) l.
Proof.
  intros l st p kids. generalize (@None nat) as cur. revert st kids.
  induction l as [|d l IH]; intros st kids cur F; [reflexivity|]. cbn [map navs moves fold_left].
  rewrite horizontal_l by exact F. destruct (move_horizontal st p cur kids d F) as (st' & cur' & kids' & E & F').
  rewrite E. apply IH. exact F'.
Qed.
Lemma vertical_walk_l : forall l st p kids,
  navs (Box Vertical st p None kids) (map ud_cmd l) = moves (Box Vertical st p None kids) l.
Proof.
  intros l st p kids. generalize (@None nat) as cur. revert st kids.
  induction l as [|d l IH]; intros st kids cur; [reflexivity|]. cbn [map navs moves fold_left].
  rewrite vertical_l.
  assert (G : forall j, exists st' cur' kids', fst (go (Box Vertical st p cur kids) j) = Box Vertical st' p cur' kids').
  { intros [j|]; [|do 3 eexists; reflexivity]. cbn [go fst set_current]. destruct cur as [i|]; do 3 eexists; reflexivity. }
  assert (G' : exists st' cur' kids', fst (move (Box Vertical st p cur kids) d) = Box Vertical st' p cur' kids') by (destruct d; apply G).
  destruct G' as (st' & cur' & kids' & ->). apply IH.
Qed.

(** ** Fields on a page *)
Lemma page_base_l : forall m st p i lines lst lp j fields f, page_at st p i lines lst lp j fields f ->
  snd (nav m f) = true \/ (m <> Left /\ m <> Right) ->
  base m (Box PageK st p (Some i) lines) = (Box PageK st p (Some i) (put_field lines i j (fst (nav m f))), snd (nav m f)).
Proof.
  intros m st p i lines lst lp j fields f [Hi Hj] H. cbn [base]. rewrite Hi.
  assert (E : nav m (Box Horizontal lst lp (Some j) fields) =
     (Box Horizontal lst lp (Some j) (update fields j (fun _ => fst (nav m f))), snd (nav m f))).
  { rewrite nav_box. cbv zeta. cbn [base]. rewrite Hj.
    assert (U : update fields j (fun x => fst (nav m x)) = update fields j (fun _ => fst (nav m f))).
    { clear - Hj. revert j Hj. induction fields as [|x r IH]; intros [|j] Hj; cbn [update nth_error] in *; try discriminate.
      - injection Hj as ->. reflexivity.
      - rewrite (IH j Hj). reflexivity. }
    rewrite U. destruct (snd (nav m f)); [reflexivity|]. destruct H as [H|[H1 H2]]; [discriminate|].
    destruct m; try reflexivity; congruence. }
  rewrite E. cbn [snd]. f_equal. f_equal. unfold put_field. clear - Hi E.
  revert i Hi. induction lines as [|x r IH]; intros [|i] Hi; cbn [update nth_error] in *; try discriminate.
  - injection Hi as ->. rewrite E. reflexivity.
  - rewrite (IH i Hi). reflexivity.
Qed.
Lemma page_enter_l : forall st p i lines lst lp j fields f m, page_at st p i lines lst lp j fields f -> m = Enter \/ m = Exit ->
  nav m (Box PageK st p (Some i) lines) = (Box PageK st p (Some i) (put_field lines i j (fst (nav m f))), snd (nav m f)).
Proof.
  intros st p i lines lst lp j fields f m H M. rewrite nav_box. cbv zeta.
  rewrite <- (page_base_l m st p i lines lst lp j fields f H) by (destruct M as [->| ->]; right; split; discriminate).
  destruct M as [->| ->]; reflexivity.
Qed.
Lemma page_selected_l : forall st p i lines lst lp j fields fp id lr log m,
  page_at st p i lines lst lp j fields (Field Selected fp id lr log) -> m = Up \/ m = Down \/ (lr = true /\ (m = Left \/ m = Right)) ->
  nav m (Box PageK st p (Some i) lines) = (Box PageK st p (Some i) (put_field lines i j (Field Selected fp id lr (log ++ [m]))), true).
Proof.
  intros st p i lines lst lp j fields fp id lr log m H M.
  assert (N : nav m (Field Selected fp id lr log) = (Field Selected fp id lr (log ++ [m]), true)).
  { destruct M as [->|[->|[-> [->| ->]]]]; reflexivity. }
  pose proof (page_base_l m st p i lines lst lp j fields _ H ltac:(left; rewrite N; reflexivity)) as B.
  rewrite N in B. cbn [fst snd] in B. rewrite nav_box. cbv zeta.
  assert (L : may_leave (Box PageK st p (Some i) lines) = false).
  { destruct H as [Hi Hj]. unfold may_leave, current_input. cbn [cur_of kids_of]. rewrite Hi. cbn [cur_of kids_of]. rewrite Hj. reflexivity. }
  rewrite L. destruct M as [->|[->|[-> [->| ->]]]]; exact B.
Qed.
Lemma page_move_l : forall st p i lines lst lp j fields f fwd,
  page_at st p i lines lst lp j fields f -> st_of f <> Selected -> snd (move (Box PageK st p (Some i) lines) fwd) = true ->
  nav (ud_cmd fwd) (Box PageK st p (Some i) lines) = move (Box PageK st p (Some i) lines) fwd.
Proof.
  intros st p i lines lst lp j fields f fwd [Hi Hj] S M. rewrite nav_box. cbv zeta.
  assert (L : may_leave (Box PageK st p (Some i) lines) = true).
  { unfold may_leave, current_input. cbn [cur_of kids_of]. rewrite Hi. cbn [cur_of kids_of]. rewrite Hj.
    unfold is_selected. destruct (st_of f); try reflexivity. congruence. }
  rewrite L. destruct fwd; cbn [ud_cmd move] in *.
  - destruct (set_next _) as [c h]. cbn [snd] in M. rewrite M. reflexivity.
  - destruct (set_prev _) as [c h]. cbn [snd] in M. rewrite M. reflexivity.
Qed.

(** ** SetFirstInputControl *)
Lemma first_l : forall b,
  set_first b = match input_positions (kids_of b) 0 with
                | [] => (b, false)
                | i :: _ => (set_current b (Some i), true)
                end.
Proof. intros b. unfold set_first, go, next_input. rewrite first_input_eq. destruct (input_positions (kids_of b) 0); reflexivity. Qed.
Lemma first_cur_l : forall b,
  snd (set_first b) = negb (Nat.eqb (length (input_positions (kids_of b) 0)) 0) /\
  cur_of (fst (set_first b)) = match input_positions (kids_of b) 0 with [] => cur_of b | i :: _ => Some i end.
Proof.
  intros b. rewrite first_l. destruct (input_positions (kids_of b) 0) as [|i l] eqn:E; [split; reflexivity|]. split; [reflexivity|].
  destruct b as [| |k st p cur kids]; try discriminate. cbn [fst set_current]. destruct cur; reflexivity.
Qed.
