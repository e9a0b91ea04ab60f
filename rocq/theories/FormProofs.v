(** Proofs: forms of text controls. *)
Require Import ZArith List Bool Lia ZifyBool.
Import ListNotations.
From Verif Require Import Base BaseFacts ArrayModel IteratorModel UiModel UiSpec UiProofs UiTreeProofs EditModel EditSpec EditProofs FormModel FormSpec.
Open Scope Z_scope.

Lemma form_induct : forall P : form -> Prop,
  (forall st p t, P (FLabel st p t)) -> (forall p id M t, P (FText p id M t)) ->
  (forall k st p cur kids, Forall P kids -> P (FBox k st p cur kids)) -> forall f, P f.
Proof.
  intros P HL HT HB. fix IH 1. intros [st p t|p id M t|k st p cur kids].
  - apply HL.
  - apply HT.
  - apply HB. induction kids as [|x r IHr]; constructor; [apply IH|exact IHr].
Qed.
Lemma map_update_x : forall A B (g : A -> B) l i (f : A -> A) (h : B -> B), (forall x, nth_error l i = Some x -> g (f x) = h (g x)) ->
  map g (update l i f) = update (map g l) i h.
Proof.
  intros A B g l. induction l as [|x l IH]; intros [|i] f h H; cbn [update map]; try reflexivity.
  - f_equal. apply H. reflexivity.
  - f_equal. apply IH. intros y Hy. apply H. exact Hy.
Qed.
Lemma update_id : forall A (l : list A) i x, nth_error l i = Some x -> update l i (fun _ => x) = l.
Proof. intros A l. induction l as [|y l IH]; intros [|i] x H; try discriminate; cbn in *; [congruence|]. f_equal. auto. Qed.

(** ** Forgetting *)
Lemma forget_st : forall c, st_of (forget c) = st_of c.
Proof. intros [| |]; reflexivity. Qed.
Lemma forget_class : forall c, class_of (forget c) = class_of c.
Proof. intros [| |[]]; reflexivity. Qed.
Lemma forget_cur : forall c, cur_of (forget c) = cur_of c.
Proof. intros [| |]; reflexivity. Qed.
Lemma forget_kids : forall c, kids_of (forget c) = map forget (kids_of c).
Proof. intros [| |]; reflexivity. Qed.
Lemma forget_set_st : forall s c, forget (set_st s c) = set_st s (forget c).
Proof. intros s [| |[]]; reflexivity. Qed.
Lemma first_input_map : forall g l i, (forall x, is_input (g x) = is_input x) -> first_input (map g l) i = first_input l i.
Proof. intros g l. induction l as [|x l IH]; intros i H; cbn; [reflexivity|]. rewrite H, IH by exact H. reflexivity. Qed.
Lemma last_input_map : forall g l i, (forall x, is_input (g x) = is_input x) -> last_input (map g l) i = last_input l i.
Proof. intros g l. induction l as [|x l IH]; intros i H; cbn; [reflexivity|]. rewrite H, IH by exact H. reflexivity. Qed.
Lemma forget_is : forall x, is_input (forget x) = is_input x.
Proof. intros x. unfold is_input. rewrite forget_class. reflexivity. Qed.
Lemma next_forget : forall l cur, next_input (map forget l) cur = next_input l cur.
Proof. intros l [i|]; unfold next_input; [rewrite skipn_map|]; apply first_input_map, forget_is. Qed.
Lemma prev_forget : forall l cur, prev_input (map forget l) cur = prev_input l cur.
Proof. intros l [i|]; unfold prev_input; [rewrite firstn_map|]; apply last_input_map, forget_is. Qed.
Lemma forget_set_current : forall c j, forget (set_current c j) = set_current (forget c) j.
Proof.
  intros [| |k st p cur kids] j; try reflexivity. 
  assert (G : forall l i s, map forget (update l i (set_st s)) = update (map forget l) i (set_st s)).
  { intros l i s. apply map_update_x. intros x _. apply forget_set_st. }
  assert (CL : class_of (forget (Box k st p cur kids)) = class_of (Box k st p cur kids)) by apply forget_class.
  unfold set_current. cbn [forget] in *. rewrite CL. destruct cur as [i|], j as [j|]; cbn [forget]; rewrite ?G; reflexivity.
Qed.
Lemma forget_go : forall c j, forget (fst (go c j)) = fst (go (forget c) j) /\ snd (go c j) = snd (go (forget c) j).
Proof. intros c [j|]; cbn; auto using forget_set_current. Qed.
Lemma forget_next : forall c, forget (fst (set_next c)) = fst (set_next (forget c)) /\ snd (set_next c) = snd (set_next (forget c)).
Proof. intros c. unfold set_next. rewrite forget_kids, forget_cur, next_forget. apply forget_go. Qed.
Lemma forget_prev : forall c, forget (fst (set_prev c)) = fst (set_prev (forget c)) /\ snd (set_prev c) = snd (set_prev (forget c)).
Proof. intros c. unfold set_prev. rewrite forget_kids, forget_cur, prev_forget. apply forget_go. Qed.
Lemma forget_current : forall c, current_input (forget c) = option_map forget (current_input c).
Proof.
  intros c. unfold current_input. rewrite forget_cur, forget_kids. destruct (cur_of c) as [i|]; [|reflexivity].
  rewrite nth_error_map. destruct (nth_error (kids_of c) i) as [x|]; [|reflexivity]. cbn [option_map].
  rewrite forget_cur, forget_kids. destruct (cur_of x) as [j|]; [|reflexivity]. apply nth_error_map.
Qed.
Lemma forget_may : forall c, may_leave (forget c) = may_leave c.
Proof.
  intros c. unfold may_leave. rewrite forget_current. destruct (current_input c) as [x|]; [|reflexivity]. cbn [option_map].
  unfold is_selected. rewrite forget_st. reflexivity.
Qed.
Lemma forget_idem : forall c, forget (forget c) = forget c.
Proof.
  apply ctl_induct; try reflexivity. intros k st p cur kids H. cbn [forget]. f_equal. rewrite map_map.
  apply map_ext_in. intros x Hx. rewrite Forall_forall in H. apply H. exact Hx.
Qed.
Definition same_nav (m : cmd) (c : ctl) : Prop := forall d, forget d = forget c ->
  forget (fst (nav m d)) = forget (fst (nav m c)) /\ snd (nav m d) = snd (nav m c).
Lemma nav_forget : forall m c, forget (fst (nav m c)) = forget (fst (nav m (forget c))) /\ snd (nav m c) = snd (nav m (forget c)).
Proof.
  intros m. apply ctl_induct.
  - intros; split; reflexivity.
  - intros st p i lr log. cbn [forget nav].
    assert (G : let '(s, _, h) := field_nav st lr log m in let '(s', _, h') := field_nav st lr [] m in s = s' /\ h = h').
    { destruct m, st, lr; cbn; auto. }
    destruct (field_nav st lr log m) as [[s l] h]. destruct (field_nav st lr [] m) as [[s' l'] h']. destruct G as [-> ->]. split; reflexivity.
  - intros k st p cur kids IH. set (c := Box k st p cur kids).
    assert (B : forget (fst (base m c)) = forget (fst (base m (forget c))) /\ snd (base m c) = snd (base m (forget c))).
    { unfold c. cbn [forget base]. destruct cur as [i|]; [|cbn [fst snd forget]; rewrite map_map; split; [|reflexivity]; f_equal; apply map_ext; intros; symmetry; apply forget_idem].
      cbn [fst snd forget]. split.
      - f_equal. rewrite (map_update_x _ _ forget kids i _ (fun x => forget (fst (nav m x)))).
        + rewrite (map_update_x _ _ forget (map forget kids) i _ (fun x => forget (fst (nav m x)))).
          * rewrite map_map. f_equal. apply map_ext. intros; symmetry; apply forget_idem.
          * intros x Hx. rewrite nth_error_map in Hx. destruct (nth_error kids i); [|discriminate]. injection Hx as <-.
            rewrite forget_idem. reflexivity.
        + intros x Hx. rewrite Forall_forall in IH. apply nth_error_In in Hx. apply IH in Hx. apply Hx.
      - rewrite nth_error_map. destruct (nth_error kids i) as [x|] eqn:E; [|reflexivity]. cbn [option_map].
        rewrite Forall_forall in IH. apply nth_error_In in E. apply IH in E. apply E. }
    change (nav m (forget c)) with (nav m (Box k st p cur (map forget kids))). change (nav m c) with (nav m (Box k st p cur kids)).
    rewrite !nav_box. cbv zeta. fold c. change (Box k st p cur (map forget kids)) with (forget c).
    destruct (base m c) as [c1 h1] eqn:E1. destruct (base m (forget c)) as [c2 h2] eqn:E2. cbn [fst snd] in B. destruct B as [B1 B2].
    assert (N1 : forget (fst (set_next c1)) = forget (fst (set_next c2)) /\ snd (set_next c1) = snd (set_next c2)).
    { destruct (forget_next c1) as [-> ->]. destruct (forget_next c2) as [-> ->]. rewrite B1. split; reflexivity. }
    assert (P1 : forget (fst (set_prev c1)) = forget (fst (set_prev c2)) /\ snd (set_prev c1) = snd (set_prev c2)).
    { destruct (forget_prev c1) as [-> ->]. destruct (forget_prev c2) as [-> ->]. rewrite B1. split; reflexivity. }
    assert (N0 : forget (fst (set_next c)) = forget (fst (set_next (forget c))) /\ snd (set_next c) = snd (set_next (forget c))).
    { destruct (forget_next c) as [Q1 Q2]. split; [|exact Q2]. rewrite Q1. destruct (forget_next (forget c)) as [Q3 _]. rewrite Q3, forget_idem. reflexivity. }
    assert (P0 : forget (fst (set_prev c)) = forget (fst (set_prev (forget c))) /\ snd (set_prev c) = snd (set_prev (forget c))).
    { destruct (forget_prev c) as [Q1 Q2]. split; [|exact Q2]. rewrite Q1. destruct (forget_prev (forget c)) as [Q3 _]. rewrite Q3, forget_idem. reflexivity. }
    subst h2.
    destruct k.
    + destruct h1; [split; [exact B1|reflexivity]|]. destruct m; try (split; [exact B1|reflexivity]); assumption.
    + destruct m; try (rewrite E1, E2); try (split; [exact B1|reflexivity]); assumption.
    + assert (Q : forall (a b : ctl * bool), forget (fst a) = forget (fst b) /\ snd a = snd b ->
        forget (fst (let (c', h) := a in if h then (c', true) else (c1, h1))) = forget (fst (let (c', h) := b in if h then (c', true) else (c2, h1))) /\
        snd (let (c', h) := a in if h then (c', true) else (c1, h1)) = snd (let (c', h) := b in if h then (c', true) else (c2, h1))).
      { intros [a ha] [b hb] [Q1 Q2]. cbn [fst snd] in Q1, Q2. subst hb. destruct ha; split; auto. }
      assert (R : forget (fst (c, false)) = forget (fst (forget c, false)) /\ snd (c, false) = snd (forget c, false)).
      { cbn [fst snd]. rewrite forget_idem. split; reflexivity. }
      rewrite ?E1, ?E2. apply Q. destruct m; rewrite ?forget_may; try exact R; destruct (may_leave c); assumption || exact R.
    + destruct h1; [split; [exact B1|reflexivity]|]. destruct m; try (split; [exact B1|reflexivity]); assumption.
Qed.

(** ** Predicates on trees, by places *)
Lemma all_forall : forall (P : ctl -> Prop) l,
  (fix all (l : list ctl) : Prop := match l with [] => True | x :: r => P x /\ all r end) l <-> Forall P l.
Proof.
  intros P l. induction l as [|x l IH]; split; intros H; [constructor|exact Logic.I| |].
  - constructor; [apply H|apply IH, H].
  - inversion H; subst. split; [assumption|apply IH; assumption].
Qed.
Lemma forall_nth : forall A (P : A -> Prop) l, Forall P l <-> forall a x, nth_error l a = Some x -> P x.
Proof.
  intros A P l. rewrite Forall_forall. split; intros H.
  - intros a x Hx. apply H. eapply nth_error_In. exact Hx.
  - intros x Hx. apply In_nth_error in Hx. destruct Hx as [a Ha]. eapply H. exact Ha.
Qed.
Lemma quiet_box : forall k st p cur kids, quiet (Box k st p cur kids) <-> forall a x, nth_error kids a = Some x -> quiet x.
Proof. intros. cbn [quiet]. rewrite all_forall. apply forall_nth. Qed.
Lemma one_box : forall k st p cur kids, one_selected (Box k st p cur kids) <->
  forall a x, nth_error kids a = Some x -> (cur = Some a -> one_selected x) /\ (cur <> Some a -> quiet x).
Proof.
  intros k st p cur kids. cbn [one_selected]. revert cur. induction kids as [|y l IH]; intros cur; split; intros H.
  - intros [|a] x Hx; discriminate.
  - exact Logic.I.
  - destruct H as [H1 H2]. rewrite IH in H2. intros [|a] x Hx; cbn in Hx.
    + injection Hx as <-. destruct cur as [[|i]|]; split; intros C; auto; congruence.
    + specialize (H2 a x Hx). destruct cur as [[|i]|]; split; intros C; try (apply H2; congruence); congruence.
  - split.
    + specialize (H O y eq_refl). destruct cur as [[|i]|]; apply H; congruence.
    + apply IH. intros a x Hx. specialize (H (S a) x Hx). destruct cur as [[|i]|]; split; intros C; try (apply H; congruence); congruence.
Qed.
Lemma pages_box : forall k st p cur kids, pages_of_lines (Box k st p cur kids) ->
  forall a x, nth_error kids a = Some x -> pages_of_lines x /\ (k = PageK -> flat_line x).
Proof.
  intros k st p cur kids H a x Hx. 
  assert (L : flat_line x -> pages_of_lines x).
  { destruct x as [| |[] xs xp xc xk]; cbn [flat_line]; try contradiction. intros F. cbn [pages_of_lines]. rewrite all_forall.
    eapply Forall_impl; [|exact F]. intros [| |] Q; cbn in Q; try contradiction; exact Logic.I. }
  destruct k; cbn [pages_of_lines] in H; rewrite ?all_forall in H; try contradiction; rewrite forall_nth in H; specialize (H a x Hx).
  - split; [exact H|discriminate].
  - split; [apply L; exact H|intros _; exact H].
  - split; [exact H|discriminate].
Qed.
Lemma quiet_one : forall c, quiet c -> one_selected c.
Proof.
  apply (ctl_induct (fun c => quiet c -> one_selected c)); try (intros; exact Logic.I). intros k st p cur kids IH H. rewrite one_box. rewrite quiet_box in H.
  intros a x Hx. rewrite forall_nth in IH. split; intros _; [apply (IH a x Hx)|]; eapply H; exact Hx.
Qed.
Lemma quiet_forget : forall c, quiet (forget c) <-> quiet c.
Proof.
  apply ctl_induct; try (intros; reflexivity). intros k st p cur kids IH. cbn [forget]. rewrite !quiet_box. rewrite forall_nth in IH.
  split; intros H a x Hx.
  - apply (IH a x Hx). apply (H a). rewrite nth_error_map, Hx. reflexivity.
  - rewrite nth_error_map in Hx. destruct (nth_error kids a) as [y|] eqn:E; [|discriminate]. injection Hx as <-. apply (IH a y E). eapply H. exact E.
Qed.
Lemma one_forget : forall c, one_selected (forget c) <-> one_selected c.
Proof.
  apply ctl_induct; try (intros; reflexivity). intros k st p cur kids IH. cbn [forget]. rewrite !one_box. rewrite forall_nth in IH.
  split; intros H a x Hx.
  - specialize (H a (forget x)). rewrite nth_error_map, Hx in H. specialize (H eq_refl). rewrite quiet_forget, (IH a x Hx) in H. exact H.
  - rewrite nth_error_map in Hx. destruct (nth_error kids a) as [y|] eqn:E; [|discriminate]. injection Hx as <-.
    rewrite quiet_forget, (IH a y E). eapply H. exact E.
Qed.
(** The shape decides whether a tree has pages of lines. *)
Lemma flat_skel : forall x, flat_line (skel x) <-> flat_line x.
Proof.
  intros [| |[] st p cur kids]; cbn [skel flat_line]; try reflexivity. rewrite Forall_map. split; intros H; (eapply Forall_impl; [|exact H]);
  intros [| |]; cbn; auto.
Qed.
Lemma pages_skel : forall c, pages_of_lines (skel c) <-> pages_of_lines c.
Proof.
  apply ctl_induct; try (intros; reflexivity). intros k st p cur kids IH. destruct k; cbn [skel pages_of_lines]; rewrite ?all_forall; rewrite ?Forall_map; try reflexivity.
  - split; intros H; rewrite Forall_forall in *; intros x Hx; apply (IH x Hx); apply H; exact Hx.
  - split; intros H; rewrite Forall_forall in *; intros x Hx; apply flat_skel; apply H; exact Hx.
  - split; intros H; rewrite Forall_forall in *; intros x Hx; apply (IH x Hx); apply H; exact Hx.
Qed.
Lemma pages_nav : forall m c, pages_of_lines c -> pages_of_lines (fst (nav m c)).
Proof. intros m c H. apply pages_skel. destruct (tame_nav m c) as [-> _]. apply pages_skel. exact H. Qed.
Lemma pages_forget : forall c, pages_of_lines (forget c) <-> pages_of_lines c.
Proof.
  intros c. rewrite <- (pages_skel (forget c)), <- (pages_skel c). replace (skel (forget c)) with (skel c); [reflexivity|].
  revert c. apply ctl_induct; try reflexivity. intros k st p cur kids IH. cbn [forget skel]. f_equal. rewrite map_map.
  apply map_ext_in. rewrite Forall_forall in IH. exact IH.
Qed.

(** ** Selected fields and nav *)
Lemma nav_false : forall m c, snd (nav m c) = false -> fst (nav m c) = c.
Proof.
  intros m. apply (ctl_induct (fun c => snd (nav m c) = false -> fst (nav m c) = c)).
  - reflexivity.
  - intros st p i lr log. cbn [nav]. destruct m, st, lr; cbn; intros; try discriminate; reflexivity.
  - intros k st p cur kids IH. rewrite forall_nth in IH.
    assert (B : snd (base m (Box k st p cur kids)) = false -> fst (base m (Box k st p cur kids)) = Box k st p cur kids).
    { cbn [base]. destruct cur as [i|]; [|reflexivity]. cbn [fst snd]. intros H. f_equal. apply update_same. intros x Hx.
      rewrite Hx in H. apply (IH i x Hx H). }
    assert (G : forall b j, snd (go b j) = false -> fst (go b j) = b) by (intros b [j|]; cbn; [discriminate|reflexivity]).
    rewrite nav_box. cbv zeta. remember (Box k st p cur kids) as c. destruct (base m c) as [c1 h1]. cbn [fst snd] in B.
    assert (N1 : forall b, snd (set_next b) = false -> fst (set_next b) = b) by (intros b; apply G).
    assert (P1 : forall b, snd (set_prev b) = false -> fst (set_prev b) = b) by (intros b; apply G).
    destruct k.
    + destruct h1; [discriminate|]. specialize (B eq_refl). subst c1. destruct m; cbn [fst snd]; auto.
    + destruct m; cbn [fst snd]; auto.
    + intros H. match goal with |- fst (let (c', h) := ?a in _) = _ => destruct a as [c' h] end.
      destruct h; [discriminate|]. cbn [fst snd] in *. auto.
    + destruct h1; [discriminate|]. specialize (B eq_refl). subst c1. destruct m; cbn [fst snd]; auto.
Qed.
Lemma leave_quiet : forall st p cur kids, pages_of_lines (Box PageK st p cur kids) -> one_selected (Box PageK st p cur kids) ->
  may_leave (Box PageK st p cur kids) = true -> quiet (Box PageK st p cur kids).
Proof.
  intros st p cur kids HP HO HM. rewrite quiet_box. intros a x Hx. destruct (pages_box _ _ _ _ _ HP a x Hx) as [_ F]. specialize (F eq_refl).
  rewrite one_box in HO. specialize (HO a x Hx). destruct cur as [i|]; [|apply HO; discriminate].
  destruct (Nat.eq_dec i a) as [->|D]; [|apply HO; congruence]. destruct HO as [HO _]. specialize (HO eq_refl).
  destruct x as [| |[] xs xp xc xk]; cbn in F; try contradiction. rewrite one_box in HO. rewrite quiet_box. intros b y Hy.
  specialize (HO b y Hy). destruct xc as [j|]; [|apply HO; discriminate].
  destruct (Nat.eq_dec j b) as [->|D]; [|apply HO; congruence].
  unfold may_leave, current_input in HM. cbn [cur_of kids_of] in HM. rewrite Hx in HM. cbn [cur_of kids_of] in HM. rewrite Hy in HM.
  rewrite Forall_forall in F. specialize (F y (nth_error_In _ _ Hy)). destruct y as [| |]; cbn in F; try contradiction; [exact Logic.I|].
  cbn [quiet]. unfold is_selected in HM. cbn [st_of] in HM. intros ->. discriminate.
Qed.
Lemma quiet_set_st : forall s c, s <> Selected -> quiet c -> quiet (set_st s c).
Proof.
  intros s [| |k st p cur kids] Hs H; [exact Logic.I| |].
  - cbn [set_st quiet st_of class_of] in *. unfold set_state. destruct (before _ _ _); cbn [fst]; assumption.
  - unfold set_st. rewrite quiet_box in *. exact H.
Qed.
Lemma quiet_update : forall (l : list ctl) i s, s <> Selected -> (forall a x, nth_error l a = Some x -> quiet x) ->
  forall a x, nth_error (update l i (set_st s)) a = Some x -> quiet x.
Proof.
  intros l i s Hs H a x. rewrite nth_update. destruct (Nat.eqb i a); [|apply H].
  destruct (nth_error l a) as [y|] eqn:E; [|discriminate]. intros Q. injection Q as <-. apply quiet_set_st; [exact Hs|]. eapply H. exact E.
Qed.
Lemma quiet_current : forall c j, quiet c -> quiet (set_current c j).
Proof.
  intros [| |k st p cur kids] j H; try exact H. rewrite quiet_box in H. unfold set_current.
  destruct cur as [i|], j as [j|]; rewrite quiet_box; repeat apply quiet_update; try discriminate; exact H.
Qed.
Lemma quiet_go : forall c j, quiet c -> quiet (fst (go c j)).
Proof. intros c [j|] H; [apply quiet_current|]; exact H. Qed.

(** ** Forms *)
Lemma edited_quiet : forall m f, editing m = true -> pages_of_lines (plain_of f) -> one_selected (plain_of f) ->
  snd (nav m (plain_of f)) = false -> quiet (plain_of f).
Proof.
  intros m. apply (form_induct (fun f => editing m = true -> pages_of_lines (plain_of f) -> one_selected (plain_of f) ->
    snd (nav m (plain_of f)) = false -> quiet (plain_of f))).
  - intros; exact Logic.I.
  - intros p id M t Hm _ _. cbn [plain_of nav quiet]. destruct (tc_st t); try discriminate. destruct m; discriminate.
  - intros k st p cur kids IH Hm HP HO H. cbn [plain_of] in *. remember (map plain_of kids) as l eqn:El. 
    assert (B : snd (base m (Box k st p cur l)) = false -> quiet (Box k st p cur l)).
    { intros B. rewrite quiet_box. intros a x Hx. rewrite one_box in HO. specialize (HO a x Hx).
      destruct cur as [i|]; [|apply HO; discriminate]. destruct (Nat.eq_dec i a) as [->|D]; [|apply HO; congruence].
      cbn [base snd] in B. rewrite Hx in B. rewrite El, nth_error_map in Hx. destruct (nth_error kids a) as [y|] eqn:E; [|discriminate].
      injection Hx as <-. rewrite forall_nth in IH. apply (IH a y E Hm); [|apply HO; reflexivity|exact B].
      eapply (pages_box _ _ _ _ _ HP a). rewrite El, nth_error_map, E. reflexivity. }
    rewrite nav_box in H. cbv zeta in H. destruct k.
    + apply B. destruct (base m _) as [c1 []]; [discriminate|reflexivity].
    + contradiction.
    + destruct (may_leave (Box PageK st p cur l)) eqn:E; [apply leave_quiet; assumption|]. apply B.
      destruct m; exact H.
    + apply B. destruct (base m _) as [c1 []]; [discriminate|reflexivity].
Qed.
Lemma one_nav : forall m f, pages_of_lines (plain_of f) -> one_selected (plain_of f) -> one_selected (fst (nav m (plain_of f))).
Proof.
  intros m. apply (form_induct (fun f => pages_of_lines (plain_of f) -> one_selected (plain_of f) -> one_selected (fst (nav m (plain_of f))))).
  - intros; exact Logic.I.
  - intros p id M t _ _. cbn [plain_of nav]. destruct (field_nav _ _ _ _) as [[? ?] ?]. exact Logic.I.
  - intros k st p cur kids IH HP HO.
    assert (Q : editing m = true -> snd (nav m (plain_of (FBox k st p cur kids))) = false -> quiet (plain_of (FBox k st p cur kids)))
      by (intros; eapply edited_quiet; eassumption).
    assert (BQ : editing m = true -> snd (base m (plain_of (FBox k st p cur kids))) = false -> quiet (plain_of (FBox k st p cur kids))).
    { intros Hm B. cbn [plain_of] in *. rewrite quiet_box. intros a x Hx. rewrite one_box in HO. specialize (HO a x Hx).
      destruct cur as [i|]; [|apply HO; discriminate]. destruct (Nat.eq_dec i a) as [->|D]; [|apply HO; congruence].
      cbn [base snd] in B. rewrite Hx in B. pose proof Hx as Hx'. rewrite nth_error_map in Hx. destruct (nth_error kids a) as [y|] eqn:E; [|discriminate].
      injection Hx as <-. apply (edited_quiet m y Hm); [|apply HO; reflexivity|exact B].
      eapply (pages_box _ _ _ _ _ HP a). exact Hx'. }
    assert (BO : one_selected (fst (base m (plain_of (FBox k st p cur kids))))).
    { cbn [plain_of] in *. destruct cur as [i|]; [|exact HO]. cbn [base fst]. rewrite one_box in *. intros a x. rewrite nth_update.
      destruct (Nat.eqb_spec i a) as [->|D].
      - destruct (nth_error (map plain_of kids) a) as [y|] eqn:E; [|discriminate]. intros Hx. injection Hx as <-.
        split; [|congruence]. intros _. pose proof E as E'. rewrite nth_error_map in E. destruct (nth_error kids a) as [z|] eqn:Ez; [|discriminate].
        injection E as <-. rewrite forall_nth in IH. apply (IH a z Ez).
        + eapply (pages_box _ _ _ _ _ HP a). exact E'.
        + apply (HO a _ E'). reflexivity.
      - intros Hx. apply HO. exact Hx. }
    cbn [plain_of] in *. remember (Box k st p cur (map plain_of kids)) as c eqn:Ec.
    assert (BF : forall c1, base m c = (c1, false) -> c1 = c).
    { intros c1 E. subst c. cbn [base] in E. destruct cur as [i|]; [|congruence]. injection E as <- E2. f_equal. apply update_same. intros x Hx.
      rewrite Hx in E2. apply nav_false. exact E2. }
    replace (nav m c) with (nav m (Box k st p cur (map plain_of kids))) by congruence. rewrite nav_box. cbv zeta. rewrite <- Ec.
    destruct (base m c) as [c1 h1] eqn:E1. cbn [fst snd] in *. destruct k.
    + destruct h1; [exact BO|]. rewrite (BF c1 eq_refl) in *. destruct m; try exact BO; (apply quiet_one, quiet_go, BQ; reflexivity).
    + subst c. contradiction.
    + assert (LQ : may_leave c = true -> quiet c) by (subst c; apply leave_quiet; assumption).
      match goal with |- one_selected (fst (let (c', h) := ?a in _)) => assert (A : snd a = true -> one_selected (fst a)) end.
      { destruct m; try discriminate; destruct (may_leave c); try discriminate; intros _; apply quiet_one, quiet_go, LQ; reflexivity. }
      match goal with |- one_selected (fst (let (c', h) := ?a in _)) => destruct a as [c' h] end.
      destruct h; [apply A; reflexivity|exact BO].
    + destruct h1; [exact BO|]. rewrite (BF c1 eq_refl) in *. destruct m; try exact BO; (apply quiet_one, quiet_go, BQ; reflexivity).
Qed.

(** Forms up to the iterator positions inside them. *)
Fixpoint strip (f : form) : form :=
  match f with
  | FLabel _ _ _ => f
  | FText p id M t => FText p id M (at_it 0 t)
  | FBox k st p cur kids => FBox k st p cur (map strip kids)
  end.
Definition strip_q (q : Z * Z * tc) : Z * Z * tc := let '(id, M, t) := q in (id, M, at_it 0 t).
Lemma flat_map_map : forall A B C (g : A -> B) (h : B -> list C) l, flat_map h (map g l) = flat_map (fun x => h (g x)) l.
Proof. intros A B C g h l. induction l as [|x l IH]; cbn; [reflexivity|]. rewrite IH. reflexivity. Qed.
Lemma map_flat_map : forall A B C (g : B -> C) (h : A -> list B) l, map g (flat_map h l) = flat_map (fun x => map g (h x)) l.
Proof. intros A B C g h l. induction l as [|x l IH]; cbn; [reflexivity|]. rewrite map_app, IH. reflexivity. Qed.
Lemma strip_fields : forall f, fields (strip f) = map strip_q (fields f).
Proof.
  apply form_induct; try reflexivity. intros k st p cur kids IH. cbn [strip fields]. rewrite flat_map_map, map_flat_map.
  induction kids as [|x l IHl]; [reflexivity|]. inversion IH; subst. cbn [flat_map]. rewrite H1, IHl by assumption. reflexivity.
Qed.
Lemma strip_plain : forall f, plain_of (strip f) = plain_of f.
Proof.
  apply form_induct; try reflexivity. intros k st p cur kids IH. cbn [strip plain_of]. f_equal. rewrite map_map.
  apply map_ext_in. rewrite Forall_forall in IH. exact IH.
Qed.
Lemma strip_ok : forall n cs it q e, field_ok n cs it (strip_q q) e <-> field_ok n cs it q e.
Proof. intros n cs it [[id M] t] e. reflexivity. Qed.
Lemma strip_forall : forall n cs it f es, Forall2 (field_ok n cs it) (fields (strip f)) es <-> Forall2 (field_ok n cs it) (fields f) es.
Proof.
  intros n cs it f es. rewrite strip_fields. generalize (fields f) as l. intros l. revert es. induction l as [|q l IH]; intros es; split; intros H;
  inversion H; subst; constructor; try (apply (strip_ok n cs it q); assumption); apply IH; assumption.
Qed.

(** ** By places *)
Lemma forall2_nth : forall A B (R : A -> B -> Prop) l l', Forall2 R l l' <->
  length l = length l' /\ forall a x y, nth_error l a = Some x -> nth_error l' a = Some y -> R x y.
Proof.
  intros A B R l. induction l as [|x l IH]; intros [|y l']; split; intros H; try (inversion H; fail); try (destruct H; discriminate).
  - split; [reflexivity|]. intros [|a] ? ?; discriminate.
  - constructor.
  - inversion H; subst. apply IH in H5. destruct H5 as [L P]. split; [cbn; congruence|]. intros [|a] u v; cbn; [congruence|apply P].
  - destruct H as [L P]. constructor; [apply (P O); reflexivity|]. apply IH. split; [cbn in L; congruence|]. intros a u v. apply (P (S a)).
Qed.
Lemma forall2_update : forall A (R : A -> A -> Prop) l i y, (forall a x, nth_error l a = Some x -> R x x) ->
  (forall x, nth_error l i = Some x -> R x y) -> Forall2 R l (update l i (fun _ => y)).
Proof.
  intros A R l i y HR Hy. apply forall2_nth. split; [symmetry; apply update_length|]. intros a u v Hu. rewrite nth_update.
  destruct (Nat.eqb_spec i a) as [->|D].
  - rewrite Hu. intros E. injection E as <-. apply Hy. exact Hu.
  - rewrite Hu. intros E. injection E as <-. eapply HR. exact Hu.
Qed.
Lemma forall2_flat : forall A B (R : B -> B -> Prop) (g : A -> list B) l l', Forall2 (fun x y => Forall2 R (g x) (g y)) l l' ->
  Forall2 R (flat_map g l) (flat_map g l').
Proof. intros A B R g l l' H. induction H; cbn; [constructor|]. apply Forall2_app; assumption. Qed.
Lemma fupdate_eq : forall l i g it, fupdate l i g it =
  match nth_error l i with None => Some (it, l) | Some x => fbind (g it x) (fun it y => Some (it, update l i (fun _ => y))) end.
Proof.
  intros l. induction l as [|x l IH]; intros [|i] g it; cbn [fupdate nth_error update]; try reflexivity.
  rewrite IH. destruct (nth_error l i) as [y|]; [|reflexivity]. unfold fbind. destruct (g it y) as [[? ?]|]; reflexivity.
Qed.
Lemma map_set : forall A B (g : A -> B) l i y (h : B -> B), (forall x, nth_error l i = Some x -> g y = h (g x)) ->
  map g (update l i (fun _ => y)) = update (map g l) i h.
Proof. intros A B g l i y h H. apply map_update_x. exact H. Qed.
Lemma update_none : forall A (l : list A) i f, nth_error l i = None -> update l i f = l.
Proof. intros A l i f H. apply update_same. intros x Hx. congruence. Qed.

Section Fnav.
Variable n : Z.
Variable wrap : bool.
Variable cs : Z -> Z.
Hypothesis Hn : 1 <= n <= 127.

Definition fnav_at (m : cmd) := fix nav_at (l : list form) (i : nat) (it : Z) {struct l} : option (Z * (list form * bool)) :=
  match l, i with
  | [], _ => Some (it, ([], false))
  | x :: r, O => fbind (fnav n wrap cs m it x) (fun it q => Some (it, (fst q :: r, snd q)))
  | x :: r, S j => fbind (nav_at r j it) (fun it q => Some (it, (x :: fst q, snd q)))
  end.
Lemma fnav_at_eq : forall m l i it, fnav_at m l i it =
  match nth_error l i with None => Some (it, (l, false))
  | Some x => fbind (fnav n wrap cs m it x) (fun it q => Some (it, (update l i (fun _ => fst q), snd q))) end.
Proof.
  intros m l. induction l as [|x l IH]; intros [|i] it; cbn [fnav_at nth_error update]; try reflexivity.
  rewrite IH. destruct (nth_error l i) as [y|]; [|reflexivity]. unfold fbind. destruct (fnav n wrap cs m it y) as [[? ?]|]; reflexivity.
Qed.
Definition fbase (m : cmd) (it : Z) (f : form) : option (Z * (form * bool)) :=
  match f with
  | FBox k st p (Some i) kids =>
      match nth_error kids i with
      | None => Some (it, (f, false))
      | Some x => fbind (fnav n wrap cs m it x) (fun it q => Some (it, (FBox k st p (Some i) (update kids i (fun _ => fst q)), snd q)))
      end
  | _ => Some (it, (f, false))
  end.
Lemma fnav_box : forall m it k st p cur kids, fnav n wrap cs m it (FBox k st p cur kids) =
  let f := FBox k st p cur kids in
  match k with
  | Horizontal =>
      fbind (fbase m it f) (fun it q => if snd q then Some (it, q)
        else match m with Left => fset_prev n cs it (fst q) | Right => fset_next n cs it (fst q) | _ => Some (it, q) end)
  | Vertical => match m with Up => fset_prev n cs it f | Down => fset_next n cs it f | _ => fbase m it f end
  | PageK =>
      fbind (match m with
             | Up => if may_leave (plain_of f) then fset_prev n cs it f else Some (it, (f, false))
             | Down => if may_leave (plain_of f) then fset_next n cs it f else Some (it, (f, false))
             | _ => Some (it, (f, false))
             end)
        (fun it' q => if snd q then Some (it', q) else fbase m it f)
  | Pages =>
      fbind (fbase m it f) (fun it q => if snd q then Some (it, q)
        else match m with Up => fset_prev n cs it (fst q) | Down => fset_next n cs it (fst q) | _ => Some (it, q) end)
  end.
Proof.
  intros m it k st p cur kids.
  assert (B : match cur with
              | None => Some (it, (FBox k st p cur kids, false))
              | Some i => fbind (fnav_at m kids i it) (fun it q => Some (it, (FBox k st p cur (fst q), snd q)))
              end = fbase m it (FBox k st p cur kids)).
  { destruct cur as [i|]; [|reflexivity]. rewrite fnav_at_eq. cbn [fbase]. destruct (nth_error kids i) as [x|]; [|reflexivity].
    unfold fbind. destruct (fnav n wrap cs m it x) as [[? ?]|]; reflexivity. }
  cbn [fnav]. cbv zeta. destruct k; unfold fnav_at in B; rewrite <- B; reflexivity.
Qed.

(** What a form must keep. *)
Definition tamef (f f' : form) : Prop := Forall2 kept (fields f) (fields f') /\ Forall in_bounds (fields f').
Lemma kept_refl : forall q, kept q q.
Proof. intros [[id M] t]. cbn. auto. Qed.
Lemma kept_trans : forall q r s, kept q r -> kept r s -> kept q s.
Proof.
  intros [[i1 M1] t1] [[i2 M2] t2] [[i3 M3] t3] (A1 & A2 & A3) (B1 & B2 & B3). subst. split; [reflexivity|]. split; [reflexivity|].
  intros i Hi. rewrite B3, A3 by exact Hi. reflexivity.
Qed.
Lemma forall2_refl_l : forall A (R : A -> A -> Prop) l, (forall x, R x x) -> Forall2 R l l.
Proof. intros A R l H. induction l; constructor; auto. Qed.
Lemma forall2_trans_l : forall A (R : A -> A -> Prop), (forall x y z, R x y -> R y z -> R x z) -> forall l1 l2 l3, Forall2 R l1 l2 -> Forall2 R l2 l3 -> Forall2 R l1 l3.
Proof.
  intros A R T l1 l2 l3 H. revert l3. induction H; intros l3 H3; inversion H3; subst; constructor; [eapply T; eassumption|auto].
Qed.
Lemma tamef_refl : forall f, Forall in_bounds (fields f) -> tamef f f.
Proof. intros f H. split; [apply forall2_refl_l, kept_refl|exact H]. Qed.
Lemma tamef_trans : forall f g h, tamef f g -> tamef g h -> tamef f h.
Proof. intros f g h [A1 A2] [B1 B2]. split; [eapply (forall2_trans_l _ kept kept_trans); eassumption|exact B2]. Qed.
Lemma tamef_kids : forall k st p cur kids k' st' p' cur' kids', Forall2 tamef kids kids' -> tamef (FBox k st p cur kids) (FBox k' st' p' cur' kids').
Proof.
  intros k st p cur kids k' st' p' cur' kids' H. split; cbn [fields].
  - apply forall2_flat. induction H as [|x y l l' [Q _] _ IH]; constructor; assumption.
  - induction H as [|x y l l' [_ Q] _ IH]; cbn; [constructor|]. apply Forall_app. split; assumption.
Qed.
Lemma bounds_kid : forall (kids : list form) a x, Forall in_bounds (flat_map fields kids) -> nth_error kids a = Some x -> Forall in_bounds (fields x).
Proof.
  intros kids a x H Hx. apply nth_error_In in Hx. rewrite Forall_forall in *. intros q Hq. apply H. apply in_flat_map. exists x. split; assumption.
Qed.

(** Editors. *)
Definition exact (m : cmd) (it : Z) (f : form) (it' : Z) (f' : form) : Prop :=
  forall es, Forall2 (field_ok n cs it) (fields f) es ->
    Forall2 (field_ok n cs it') (fields f') (steps n wrap m (field_states (plain_of f')) es).
Lemma states_fields : forall f, length (field_states (plain_of f)) = length (fields f).
Proof.
  apply form_induct; try reflexivity. intros k st p cur kids IH. cbn [plain_of field_states fields]. rewrite flat_map_map.
  induction kids as [|x l IHl]; [reflexivity|]. inversion IH; subst. cbn [flat_map]. rewrite !app_length. rewrite H1, IHl by assumption. reflexivity.
Qed.
Lemma steps_app : forall m s1 s2 e1 e2, length s1 = length e1 -> steps n wrap m (s1 ++ s2) (e1 ++ e2) = steps n wrap m s1 e1 ++ steps n wrap m s2 e2.
Proof. intros m s1. induction s1 as [|s s1 IH]; intros s2 [|e e1] e2 H; try discriminate; [reflexivity|]. cbn. f_equal. apply IH. cbn in H. congruence. Qed.
Lemma f2_length : forall A B (R : A -> B -> Prop) l l', Forall2 R l l' -> length l = length l'.
Proof. intros A B R l l' H. induction H; cbn; congruence. Qed.
Lemma exact_kids : forall m it it' k st p cur kids k' st' p' cur' kids',
  Forall2 (fun x y => exact m it x it' y /\ length (fields x) = length (fields y)) kids kids' ->
  exact m it (FBox k st p cur kids) it' (FBox k' st' p' cur' kids').
Proof.
  intros m it it' k st p cur kids k' st' p' cur' kids' H es. cbn [fields plain_of field_states]. rewrite flat_map_map. revert es.
  induction H as [|x y l l' [E L] _ IH]; intros es He; cbn [flat_map] in *; [inversion He; constructor|].
  apply Forall2_app_inv_l in He. destruct He as (e1 & e2 & H1 & H2 & ->). rewrite steps_app.
  - apply Forall2_app; [apply E; exact H1|apply IH; exact H2].
  - rewrite states_fields, <- L. eapply f2_length. exact H1.
Qed.
Lemma ed_state_same : forall e, fst (ed_state e (e_st e)) = e.
Proof.
  intros [s p q]. unfold ed_state, set_state. cbn [before e_st e_pos e_num]. unfold before_input, before_control.
  assert (cstate_eqb s s = true) as -> by (destruct s; reflexivity). reflexivity.
Qed.
Lemma forall2_one : forall A B (R : A -> B -> Prop) a es, Forall2 R [a] es -> exists e, es = [e] /\ R a e.
Proof. intros A B R a es H. inversion H as [|? e ? r F G]; subst. inversion G; subst. exists e. auto. Qed.
Lemma quiet_exact : forall m it it' f, quiet (plain_of f) -> exact m it f it' f.
Proof.
  intros m it it'. apply (form_induct (fun f => quiet (plain_of f) -> exact m it f it' f)).
  - intros st p t _ es H. inversion H. constructor.
  - intros p id M t Q es H. cbn [fields] in *. inversion H as [|? e ? r F R]; subst. inversion R; subst. cbn [plain_of field_states steps].
    constructor; [|constructor]. cbn [plain_of quiet] in Q. destruct e as [cap e]. destruct F as (F1 & F2 & F3 & F4). cbn [fst snd] in *.
    assert (S : tc_st t = e_st e) by apply F3. unfold field_step. rewrite S in *.
    assert (cstate_eqb (e_st e) Selected = false) as -> by (destruct (e_st e); try reflexivity; congruence). cbn [andb]. rewrite ed_state_same.
    repeat split; auto; try apply F2; try apply F3; try (cbn [snd]; congruence); apply F3; assumption.
  - intros k st p cur kids IH Q. cbn [plain_of] in Q. rewrite quiet_box in Q. apply exact_kids. apply forall2_nth. split; [reflexivity|].
    intros a x y Hx Hy. assert (y = x) as -> by congruence. split; [|reflexivity]. rewrite forall_nth in IH. apply (IH a x Hx).
    apply (Q a). rewrite nth_error_map, Hx. reflexivity.
Qed.
Lemma tamef_length : forall f f', tamef f f' -> length (fields f) = length (fields f').
Proof. intros f f' [H _]. eapply f2_length. exact H. Qed.

(** *** setState *)
Lemma tame_ok : forall it M t, -1 <= it < n -> in_bounds (0, M, t) -> tame_tc M n (at_it it t) (at_it it t).
Proof. intros it M t Hi [_ H]. split; [exact Hi|]. split; [exact H|auto]. Qed.
Lemma tc_state_st : forall M t s t' h, tc_set_state M n cs t s = Some (t', h) ->
  tc_st t' = fst (set_state KInput (tc_st t) s) /\ (s <> Selected -> tc_it t' = tc_it t).
Proof.
  intros M t s t' h. unfold tc_set_state, set_state. cbn [before]. destruct (before_input (tc_st t) s); cbn [negb].
  2: { intros E. injection E as <- <-. auto. }
  cbv zeta. destruct s; cbn [cstate_eqb]; try (intros E; injection E as <- <-; cbn; auto; fail).
  destruct (tc_reposition _ _ _ _); [|discriminate]. intros E. injection E as <- <-. split; [reflexivity|congruence].
Qed.
Lemma fset_st_l : forall s it f, s <> Selected -> -1 <= it < n -> Forall in_bounds (fields f) ->
  exists f', fset_st n cs s it f = Some (it, f') /\ tamef f f' /\ plain_of f' = set_st s (plain_of f) /\
    (forall m, distinct n cs -> quiet (plain_of f) -> exact m it f it f').
Proof.
  intros s it [st p t|p id M t|k st p cur kids] Hs Hi HB.
  - eexists. split; [reflexivity|]. split; [split; constructor|]. split; [reflexivity|]. intros m _ _ es H. inversion H. constructor.
  - cbn [fields fset_st] in *. inversion HB as [|? ? B _]; subst. 
    destruct (set_state_safe M n cs ltac:(apply B) Hn (at_it it t) s (tame_ok it M t Hi B)) as (t' & h & E & T1 & T2 & T3). rewrite E.
    destruct (tc_state_st _ _ _ _ _ E) as [S1 S2]. specialize (S2 Hs). cbn [at_it tc_it tc_st] in S1, S2. rewrite S2.
    eexists. split; [reflexivity|]. split; [|split].
    + split; cbn [fields].
      * constructor; [|constructor]. split; [reflexivity|]. split; [reflexivity|]. intros i Hx. rewrite T3 by exact Hx. reflexivity.
      * constructor; [|constructor]. split; [apply B|exact T2].
    + cbn [plain_of set_st class_of st_of]. rewrite S1. reflexivity.
    + intros m D Q es H. cbn [fields] in *. apply forall2_one in H. destruct H as (e & -> & F). cbn [plain_of field_states steps].
      constructor; [|constructor]. destruct e as [cap e]. destruct F as (F1 & F2 & F3 & F4). cbn [fst snd] in *. subst cap.
      cbn [plain_of quiet] in Q. assert (St : tc_st t = e_st e) by apply F3.
      assert (U : u8 M = M) by (apply u8_small; lia).
      destruct (state_edits M n cs ltac:(lia) Hn D ltac:(lia) (at_it it t) e s) as (t2 & E2 & (V1 & V2 & V3)).
      { split; [rewrite U; exact F3|]. split; [exact Hi|exact F4]. }
      rewrite E in E2. injection E2 as <- _.
      assert (FS : field_step n wrap m M (tc_st t') e = fst (ed_state e s)).
      { unfold field_step. assert (cstate_eqb (e_st e) Selected = false) as -> by (rewrite <- St; destruct (tc_st t); try reflexivity; congruence).
        cbn [andb]. rewrite S1, St. unfold set_state. destruct (before KInput (e_st e) s) eqn:Bf; [reflexivity|]. cbn [fst]. rewrite ed_state_same.
        unfold ed_state, set_state. rewrite Bf. destruct e; reflexivity. }
      rewrite FS. split; [reflexivity|]. split; [exact F2|]. split; [rewrite <- U; exact V1|].
      cbn [snd]. intros X. rewrite <- (V3 X). symmetry. exact S2.
  - eexists. split; [reflexivity|]. split; [split; [apply forall2_refl_l, kept_refl|exact HB]|]. split; [reflexivity|].
    intros m _ Q. apply exact_kids. apply forall2_nth. split; [reflexivity|]. intros a x y Hx Hy. assert (y = x) as -> by congruence.
    split; [|reflexivity]. apply quiet_exact. cbn [plain_of] in Q. rewrite quiet_box in Q. apply (Q a). rewrite nth_error_map, Hx. reflexivity.
Qed.
Lemma fupd_l : forall s it kids i, s <> Selected -> -1 <= it < n -> Forall in_bounds (flat_map fields kids) ->
  exists kids', fupdate kids i (fset_st n cs s) it = Some (it, kids') /\ Forall2 tamef kids kids' /\
    map plain_of kids' = update (map plain_of kids) i (set_st s) /\ (forall a, a <> i -> nth_error kids' a = nth_error kids a) /\
    (forall m x y, distinct n cs -> nth_error kids i = Some x -> nth_error kids' i = Some y -> quiet (plain_of x) -> exact m it x it y).
Proof.
  intros s it kids i Hs Hi HB. rewrite fupdate_eq. 
  assert (RF : forall a x, nth_error kids a = Some x -> tamef x x) by (intros a x Hx; apply tamef_refl; eapply bounds_kid; eassumption).
  destruct (nth_error kids i) as [x|] eqn:E.
  - destruct (fset_st_l s it x Hs Hi) as (y & E1 & T & P & X); [eapply bounds_kid; eassumption|]. rewrite E1. cbn [fbind].
    eexists. split; [reflexivity|]. split; [|split; [|split]].
    + apply forall2_update; [exact RF|]. intros x' Hx. assert (x' = x) as -> by congruence. exact T.
    + apply map_set. intros x' Hx. assert (x' = x) as -> by congruence. exact P.
    + intros a Ha. rewrite nth_update. destruct (Nat.eqb_spec i a); [congruence|reflexivity].
    + intros m x' y' D Hx Hy Q. assert (x' = x) as -> by congruence. rewrite nth_update, Nat.eqb_refl, E in Hy. injection Hy as <-. apply X; assumption.
  - exists kids. split; [reflexivity|]. split; [|split; [|split]].
    + apply forall2_nth. split; [reflexivity|]. intros a u v Hu Hv. assert (v = u) as -> by congruence. eapply RF. exact Hu.
    + symmetry. apply update_none. rewrite nth_error_map, E. reflexivity.
    + reflexivity.
    + congruence.
Qed.
Lemma fset_current_l : forall it k st p cur kids j, -1 <= it < n -> Forall in_bounds (flat_map fields kids) ->
  exists f', fset_current n cs it (FBox k st p cur kids) (Some j) = Some (it, f') /\ tamef (FBox k st p cur kids) f' /\
    plain_of f' = set_current (plain_of (FBox k st p cur kids)) (Some j) /\
    (forall m, distinct n cs -> cur <> Some j -> quiet (plain_of (FBox k st p cur kids)) -> exact m it (FBox k st p cur kids) it f').
Proof.
  intros it k st p cur kids j Hi HB. pose (cl := class_of (plain_of (FBox k st p cur kids))).
  assert (A : exists st' kids1, (match cur with
             | Some i => fbind (fupdate kids i (fset_st n cs Normal) it) (fun it kids => Some (it, (fst (set_state cl st Normal), kids)))
             | None => Some (it, (st, kids)) end) = Some (it, (st', kids1)) /\
       Forall2 tamef kids kids1 /\ st' = match cur with Some i => fst (set_state cl st Normal) | None => st end /\
       map plain_of kids1 = match cur with Some i => update (map plain_of kids) i (set_st Normal) | None => map plain_of kids end /\
       (forall a, cur <> Some a -> nth_error kids1 a = nth_error kids a) /\
       (forall m a x y, distinct n cs -> cur = Some a -> nth_error kids a = Some x -> nth_error kids1 a = Some y -> quiet (plain_of x) -> exact m it x it y)).
  { destruct cur as [i|].
    - destruct (fupd_l Normal it kids i ltac:(discriminate) Hi HB) as (kids1 & E & T & P & O & X). rewrite E. cbn [fbind].
      do 2 eexists. split; [reflexivity|]. split; [exact T|]. split; [reflexivity|]. split; [exact P|]. split.
      + intros a Ha. apply O. congruence.
      + intros m a x y D Ea. injection Ea as <-. apply X; assumption.
    - exists st, kids. split; [reflexivity|]. split; [|split; [reflexivity|split; [reflexivity|split; [reflexivity|discriminate]]]].
      apply forall2_nth. split; [reflexivity|]. intros a u v Hu Hv. assert (v = u) as -> by congruence. apply tamef_refl. eapply bounds_kid; eassumption. }
  destruct A as (st' & kids1 & E & T1 & S1 & P1 & O1 & X1).
  assert (HB1 : Forall in_bounds (flat_map fields kids1)) by (apply (tamef_kids k st p cur kids k st p cur kids1 T1)).
  destruct (fupd_l Focused it kids1 j ltac:(discriminate) Hi HB1) as (kids2 & E2 & T2 & P2 & O2 & X2).
  unfold fset_current. cbv zeta. fold cl. rewrite E. cbn [fbind fst snd]. rewrite E2. cbn [fbind]. eexists. split; [reflexivity|]. split; [|split].
  - apply (tamef_trans _ (FBox k st p cur kids1) _); apply tamef_kids; assumption.
  - cbn [plain_of]. rewrite P2, P1, S1. unfold set_current. cbn [plain_of]. destruct cur as [i|]; reflexivity.
  - intros m D Hc Q. cbn [plain_of] in Q. rewrite quiet_box in Q.
    assert (L1 : length kids = length kids1) by (eapply f2_length; exact T1).
    assert (T : Forall2 tamef kids kids2) by (eapply (forall2_trans_l _ tamef tamef_trans); eassumption).
    apply exact_kids. rewrite forall2_nth in T. apply forall2_nth. destruct T as [L T]. split; [exact L|]. intros a x y Hx Hy.
    split; [|eapply tamef_length, T; eassumption].
    assert (Qx : quiet (plain_of x)) by (apply (Q a); rewrite nth_error_map, Hx; reflexivity).
    destruct (Nat.eq_dec a j) as [->|Dj].
    + apply (X2 m x y D); auto. rewrite O1 by exact Hc. exact Hx.
    + rewrite O2 in Hy by exact Dj. assert (Dc : cur = Some a \/ cur <> Some a) by (destruct cur as [i|]; [destruct (Nat.eq_dec i a); [left; congruence|right; congruence]|right; discriminate]).
      destruct Dc as [Dc|Dc]; [apply (X1 m a); auto|]. rewrite O1 in Hy by exact Dc. assert (y = x) as -> by congruence. apply quiet_exact. exact Qx.
Qed.

Lemma fgo_l : forall m it f j, -1 <= it < n -> Forall in_bounds (fields f) -> (match f with FBox _ _ _ _ _ => True | _ => j = None end) ->
  exists f' h, fgo n cs it f j = Some (it, (f', h)) /\ tamef f f' /\ plain_of f' = fst (go (plain_of f) j) /\ h = snd (go (plain_of f) j) /\
    (h = false -> f' = f) /\
    (distinct n cs -> (j <> None -> cur_of (plain_of f) <> j) -> quiet (plain_of f) -> exact m it f it f').
Proof.
  intros m it f [j|] Hi HB Hf; cbn [fgo go fst snd].
  - destruct f as [| |k st p cur kids]; try discriminate. cbn [fields] in HB.
    destruct (fset_current_l it k st p cur kids j Hi HB) as (f' & E & T & P & X). rewrite E. cbn [fbind]. do 2 eexists. split; [reflexivity|].
    split; [exact T|]. split; [exact P|]. split; [reflexivity|]. split; [discriminate|]. intros D C Q. apply X; auto. apply C. discriminate.
  - do 2 eexists. split; [reflexivity|]. split; [apply tamef_refl; exact HB|]. split; [reflexivity|]. split; [reflexivity|]. split; [reflexivity|].
    intros D _ Q. apply quiet_exact. exact Q.
Qed.
Lemma next_not : forall kids cur j, next_input kids cur = j -> j <> None -> cur <> j.
Proof.
  intros kids cur j E N. destruct j as [j|]; [|congruence]. intros ->. cbn [next_input] in E. apply first_input_l in E. destruct E as (x & L & _). lia.
Qed.
Lemma prev_not : forall kids cur j, prev_input kids cur = j -> j <> None -> cur <> j.
Proof.
  intros kids cur j E N. destruct j as [j|]; [|congruence]. intros ->. cbn [prev_input] in E. apply last_input_l in E. destruct E as (x & L & Nx & _).
  rewrite Nat.sub_0_r in Nx. apply nth_firstn in Nx. lia.
Qed.
Definition moves_to (m : cmd) (it : Z) (f : form) (r : option (Z * (form * bool))) (g : ctl * bool) : Prop :=
  exists f', r = Some (it, (f', snd g)) /\ tamef f f' /\ plain_of f' = fst g /\ (snd g = false -> f' = f) /\
    (distinct n cs -> quiet (plain_of f) -> exact m it f it f').
Lemma fnext_l : forall m it f, -1 <= it < n -> Forall in_bounds (fields f) -> moves_to m it f (fset_next n cs it f) (set_next (plain_of f)).
Proof.
  intros m it f Hi HB. unfold fset_next, set_next. remember (next_input (kids_of (plain_of f)) (cur_of (plain_of f))) as j eqn:Ej.
  destruct (fgo_l m it f j Hi HB) as (f' & h & E & T & P & H & S & X).
  { destruct f as [| |]; [rewrite Ej; reflexivity|rewrite Ej; reflexivity|exact Logic.I]. }
  exists f'. subst h. split; [exact E|]. split; [exact T|]. split; [exact P|]. split; [exact S|]. intros D Q. apply X; auto.
  intros N. eapply next_not; [symmetry; exact Ej|exact N].
Qed.
Lemma fprev_l : forall m it f, -1 <= it < n -> Forall in_bounds (fields f) -> moves_to m it f (fset_prev n cs it f) (set_prev (plain_of f)).
Proof.
  intros m it f Hi HB. unfold fset_prev, set_prev. remember (prev_input (kids_of (plain_of f)) (cur_of (plain_of f))) as j eqn:Ej.
  destruct (fgo_l m it f j Hi HB) as (f' & h & E & T & P & H & S & X).
  { destruct f as [| |]; [rewrite Ej; reflexivity|rewrite Ej; reflexivity|exact Logic.I]. }
  exists f'. subst h. split; [exact E|]. split; [exact T|]. split; [exact P|]. split; [exact S|]. intros D Q. apply X; auto.
  intros N. eapply prev_not; [symmetry; exact Ej|exact N].
Qed.

(** What [fnav] and its parts do. *)
Definition does (m : cmd) (it : Z) (f : form) (r : option (Z * (form * bool))) (g : ctl * bool) : Prop :=
  exists it' f', r = Some (it', (f', snd g)) /\ -1 <= it' < n /\ tamef f f' /\ plain_of f' = forget (fst g) /\
    (snd g = false -> it' = it /\ strip f' = strip f) /\
    (distinct n cs -> pages_of_lines (plain_of f) -> one_selected (plain_of f) -> exact m it f it' f').
Lemma forget_plain : forall f, forget (plain_of f) = plain_of f.
Proof.
  apply form_induct; try reflexivity. intros k st p cur kids IH. cbn [plain_of forget]. f_equal. rewrite map_map.
  apply map_ext_in. rewrite Forall_forall in IH. exact IH.
Qed.
Lemma move_does : forall m it f r g, -1 <= it < n -> moves_to m it f r g -> forget (fst g) = fst g ->
  (one_selected (plain_of f) -> pages_of_lines (plain_of f) -> quiet (plain_of f)) -> does m it f r g.
Proof.
  intros m it f r g Hi (f' & E & T & P & S & X) F Q. exists it, f'. split; [exact E|]. split; [exact Hi|]. split; [exact T|].
  split; [rewrite F; exact P|]. split; [intros H; rewrite (S H); auto|]. intros D HP HO. apply X; auto.
Qed.
Lemma then_move : forall m it f f1 r g, -1 <= it < n -> strip f1 = strip f -> tamef f f1 -> moves_to m it f1 r g -> forget (fst g) = fst g ->
  (one_selected (plain_of f) -> pages_of_lines (plain_of f) -> quiet (plain_of f)) -> does m it f r g.
Proof.
  intros m it f f1 r g Hi Es T1 (f' & E & T & P & S & X) F Q. exists it, f'. split; [exact E|]. split; [exact Hi|].
  split; [eapply tamef_trans; eassumption|]. split; [rewrite F; exact P|]. split; [intros H; rewrite (S H); auto|].
  intros D HP HO es He. apply X; auto.
  - rewrite <- strip_plain, Es, strip_plain. auto.
  - apply strip_forall. rewrite Es. apply strip_forall. exact He.
Qed.
Lemma tc_nav_false : forall M t m t', tc_nav M n wrap cs t m = Some (t', false) -> t' = t.
Proof.
  intros M t m t'. 
  assert (O : forall o : option tc, option_map (fun t => (t, true)) o = Some (t', false) -> t' = t) by (intros [x|]; discriminate).
  assert (S : forall o : option (tc * bool), match o with Some (t, _) => Some (t, true) | None => None end = Some (t', false) -> t' = t) by (intros [[x b]|]; discriminate).
  assert (I : forall m, tc_input M n cs t m = Some (t', false) -> t' = t).
  { intros [ | | | | | | ]; cbn [tc_input]; try congruence.
    - destruct (cstate_eqb (tc_st t) Focused); [apply S|congruence].
    - destruct (cstate_eqb (tc_st t) Selected); [apply S|congruence]. }
  unfold tc_nav. cbv zeta. destruct (cstate_eqb (tc_st t) Selected); [|apply I].
  destruct m; try apply I; try apply O.
  - destruct (tc_edit t >? 0); [apply O|congruence].
  - destruct (tc_edit t + 1 <? _); [apply O|congruence].
Qed.
Lemma text_does : forall m it p id M t, -1 <= it < n -> Forall in_bounds (fields (FText p id M t)) ->
  does m it (FText p id M t) (fnav n wrap cs m it (FText p id M t)) (nav m (plain_of (FText p id M t))).
Proof.
  intros m it p id M t Hi HB. cbn [fields] in HB. inversion HB as [|? ? B _]; subst. cbn [fnav plain_of nav].
  destruct (step_safe M n wrap cs ltac:(apply B) Hn (at_it it t) (TNav m) (tame_ok it M t Hi B) ltac:(discriminate)) as (t' & h & E & T1 & T2 & T3).
  cbn [tc_step] in E. rewrite E. pose proof (text_field_l M n wrap cs (at_it it t) m [] t' h E) as F. cbn [at_it tc_st] in F.
  destruct (field_nav (tc_st t) true [] m) as [[s l] h']. destruct F as [F1 F2]. subst h'. exists (tc_it t'), (FText p id M t'). cbn [snd fst].
  split; [reflexivity|]. split; [exact T1|]. split; [|split; [|split]].
  - split; cbn [fields]; constructor; try constructor.
    + reflexivity.
    + split; [reflexivity|]. intros i Hx. rewrite T3 by exact Hx. reflexivity.
    + apply B.
    + exact T2.
  - cbn [plain_of forget]. rewrite F1. reflexivity.
  - intros ->. pose proof (tc_nav_false M (at_it it t) m t' E) as G. rewrite G. split; reflexivity.
  - intros D _ _ es H. cbn [fields] in *. apply forall2_one in H. destruct H as (e & -> & F). cbn [plain_of field_states steps].
    constructor; [|constructor]. destruct e as [cap e]. destruct F as (G1 & G2 & G3 & G4). cbn [fst snd] in *. subst cap.
    assert (St : tc_st t = e_st e) by apply G3. assert (U : u8 M = M) by (apply u8_small; lia).
    destruct (step_edits M n wrap cs ltac:(lia) Hn D ltac:(lia) (at_it it t) e (TNav m)) as (t2 & E2 & (V1 & V2 & V3)).
    { split; [rewrite U; exact G3|]. split; [exact Hi|exact G4]. }
    { exact Logic.I. }
    cbn [tc_step ed_step] in *. rewrite E in E2. injection E2 as <- _. rewrite U in *.
    assert (FS : field_step n wrap m M (tc_st t') e = fst (ed_nav M n wrap e m)).
    { assert (S2 : tc_st t' = e_st (fst (ed_nav M n wrap e m))) by apply V1. rewrite S2. unfold field_step. destruct e as [es ep en].
      unfold ed_nav. cbn [e_st e_pos e_num]. destruct es, m; reflexivity. }
    rewrite FS. split; [reflexivity|]. split; [exact G2|]. split; [exact V1|exact V3].
Qed.
Lemma base_does : forall m it k st p cur kids, -1 <= it < n -> Forall in_bounds (flat_map fields kids) ->
  (forall a x, nth_error kids a = Some x -> does m it x (fnav n wrap cs m it x) (nav m (plain_of x))) ->
  does m it (FBox k st p cur kids) (fbase m it (FBox k st p cur kids)) (base m (plain_of (FBox k st p cur kids))).
Proof.
  intros m it k st p cur kids Hi HB IH.
  assert (RF : forall a x, nth_error kids a = Some x -> tamef x x) by (intros a x Hx; apply tamef_refl; eapply bounds_kid; eassumption).
  assert (Z0 : (cur = None \/ exists i, cur = Some i /\ nth_error kids i = None) ->
     does m it (FBox k st p cur kids) (Some (it, (FBox k st p cur kids, false))) (plain_of (FBox k st p cur kids), false)).
  { intros C. exists it, (FBox k st p cur kids). split; [reflexivity|]. split; [exact Hi|]. split; [apply tamef_refl; exact HB|].
    split; [symmetry; apply forget_plain|]. split; [auto|]. intros D HP HO. apply quiet_exact. cbn [plain_of] in *. rewrite one_box in HO. rewrite quiet_box.
    intros a x Hx. apply (HO a x Hx). destruct C as [->|(i & -> & Ei)]; [discriminate|]. intros X. injection X as ->.
    rewrite nth_error_map, Ei in Hx. discriminate. }
  cbn [plain_of base fbase]. destruct cur as [i|]; [|apply Z0; left; reflexivity].
  rewrite nth_error_map. destruct (nth_error kids i) as [x|] eqn:Ex; cbn [option_map].
  2: { rewrite update_none by (rewrite nth_error_map, Ex; reflexivity). apply Z0. right. exists i. auto. }
  destruct (IH i x Ex) as (it' & x' & E & I' & T & P & S & X). rewrite E. cbn [fbind fst snd]. do 2 eexists. split; [reflexivity|].
  split; [exact I'|]. split; [|split; [|split]].
  - apply tamef_kids. apply forall2_update; [exact RF|]. intros y Hy. assert (y = x) as -> by congruence. exact T.
  - cbn [plain_of fst forget]. f_equal. rewrite (map_set _ _ plain_of kids i x' (fun c => forget (fst (nav m c)))).
    + rewrite (map_update_x _ _ forget (map plain_of kids) i _ (fun c => forget (fst (nav m c)))).
      * f_equal. rewrite map_map. apply map_ext. intros y. symmetry. apply forget_plain.
      * intros y Hy. rewrite nth_error_map in Hy. rewrite Ex in Hy. injection Hy as <-. rewrite forget_plain. reflexivity.
    + intros y Hy. assert (y = x) as -> by congruence. exact P.
  - cbn [snd]. intros Hh. destruct (S Hh) as [-> S2]. split; [reflexivity|]. cbn [strip]. f_equal.
    rewrite (map_set _ _ strip kids i x' (fun c => c)).
    + apply update_same. reflexivity.
    + intros y Hy. assert (y = x) as -> by congruence. exact S2.
  - intros D HP HO. cbn [plain_of] in *. apply exact_kids. apply forall2_nth. split; [symmetry; apply update_length|].
    intros a u v Hu. rewrite nth_update. rewrite one_box in HO.
    assert (Hu' : nth_error (map plain_of kids) a = Some (plain_of u)) by (rewrite nth_error_map, Hu; reflexivity).
    destruct (Nat.eqb_spec i a) as [<-|Da].
    + rewrite Hu. cbn [option_map]. intros Ev. injection Ev as <-. assert (u = x) as -> by congruence. split; [|apply tamef_length; exact T].
      apply X; [exact D|apply (pages_box _ _ _ _ _ HP i _ Hu')|apply (HO i _ Hu'); reflexivity].
    + rewrite Hu. intros Ev. injection Ev as <-. split; [|reflexivity]. apply quiet_exact. apply (HO a _ Hu'). congruence.
Qed.
Lemma plain_strip : forall f f1, strip f1 = strip f -> plain_of f1 = plain_of f.
Proof. intros f f1 E. rewrite <- strip_plain, E. apply strip_plain. Qed.
Lemma next_plain : forall f, forget (fst (set_next (plain_of f))) = fst (set_next (plain_of f)).
Proof. intros f. destruct (forget_next (plain_of f)) as [-> _]. rewrite forget_plain. reflexivity. Qed.
Lemma prev_plain : forall f, forget (fst (set_prev (plain_of f))) = fst (set_prev (plain_of f)).
Proof. intros f. destruct (forget_prev (plain_of f)) as [-> _]. rewrite forget_plain. reflexivity. Qed.
Lemma fnav_l : forall m f it, -1 <= it < n -> Forall in_bounds (fields f) -> does m it f (fnav n wrap cs m it f) (nav m (plain_of f)).
Proof.
  intros m. apply (form_induct (fun f => forall it, -1 <= it < n -> Forall in_bounds (fields f) -> does m it f (fnav n wrap cs m it f) (nav m (plain_of f)))).
  - intros st p t it Hi HB. exists it, (FLabel st p t). split; [reflexivity|]. split; [exact Hi|]. split; [split; constructor|].
    split; [reflexivity|]. split; [auto|]. intros _ _ _ es H. inversion H. constructor.
  - intros p id M t it Hi HB. apply text_does; assumption.
  - intros k st p cur kids IH it Hi HB.
    assert (BD : does m it (FBox k st p cur kids) (fbase m it (FBox k st p cur kids)) (base m (plain_of (FBox k st p cur kids)))).
    { apply base_does; [exact Hi|exact HB|]. intros a x Hx. rewrite forall_nth in IH. apply (IH a x Hx it Hi). eapply bounds_kid; eassumption. }
    assert (BQ : editing m = true -> snd (base m (plain_of (FBox k st p cur kids))) = false ->
       one_selected (plain_of (FBox k st p cur kids)) -> pages_of_lines (plain_of (FBox k st p cur kids)) -> quiet (plain_of (FBox k st p cur kids))).
    { intros Hm B HO HP. cbn [plain_of] in *. rewrite quiet_box. intros a x Hx. rewrite one_box in HO. specialize (HO a x Hx).
      destruct cur as [i|]; [|apply HO; discriminate]. destruct (Nat.eq_dec i a) as [->|D]; [|apply HO; congruence].
      cbn [base snd] in B. rewrite Hx in B. pose proof Hx as Hx'. rewrite nth_error_map in Hx. destruct (nth_error kids a) as [y|] eqn:E; [|discriminate].
      injection Hx as <-. apply (edited_quiet m y Hm); [|apply HO; reflexivity|exact B].
      eapply (pages_box _ _ _ _ _ HP a). exact Hx'. }
    assert (BF : snd (base m (plain_of (FBox k st p cur kids))) = false -> fst (base m (plain_of (FBox k st p cur kids))) = plain_of (FBox k st p cur kids)).
    { cbn [plain_of base]. destruct cur as [i|]; [|reflexivity]. cbn [fst snd]. intros H. f_equal. apply update_same. intros x Hx.
      rewrite Hx in H. apply nav_false. exact H. }
    rewrite fnav_box. replace (nav m (plain_of (FBox k st p cur kids))) with (nav m (Box k st p cur (map plain_of kids))) by reflexivity.
    rewrite nav_box. cbv zeta. change (Box k st p cur (map plain_of kids)) with (plain_of (FBox k st p cur kids)).
    remember (FBox k st p cur kids) as f eqn:Ef.
    assert (Then : forall (G : ctl -> ctl * bool) (FG : Z -> form -> option (Z * (form * bool))),
       (forall f1, Forall in_bounds (fields f1) -> moves_to m it f1 (FG it f1) (G (plain_of f1)) /\ forget (fst (G (plain_of f1))) = fst (G (plain_of f1))) ->
       editing m = true -> does m it f (fbind (fbase m it f) (fun it q => if snd q then Some (it, q) else FG it (fst q)))
         (let (c, h) := base m (plain_of f) in if h then (c, true) else G c)).
    { intros G FG HG Hm. destruct BD as (it' & f' & E & I' & T & P & S & X). rewrite E. cbn [fbind fst snd].
      destruct (base m (plain_of f)) as [c1 h1] eqn:Eb. cbn [fst snd] in *. destruct h1.
      - exists it', f'. split; [reflexivity|]. split; [exact I'|]. split; [exact T|]. split; [exact P|]. split; [discriminate|exact X].
      - destruct (S eq_refl) as [-> S2]. specialize (BF eq_refl). subst c1. rewrite <- (plain_strip _ _ S2).
        destruct (HG f' (proj2 T)) as [G1 G2]. eapply then_move; try eassumption. apply BQ; auto. }
    assert (Stay : does m it f (fbind (fbase m it f) (fun it q => if snd q then Some (it, q) else Some (it, q)))
         (let (c, h) := base m (plain_of f) in if h then (c, true) else (c, false))).
    { destruct BD as (it' & f' & E & I' & T & P & S & X). rewrite E. cbn [fbind fst snd].
      destruct (base m (plain_of f)) as [c1 h1]. cbn [fst snd] in *. destruct h1; exists it', f'; cbn [fst snd]; repeat split; auto; try apply T; try apply I'; apply S; auto. }
    assert (GN : forall f1, Forall in_bounds (fields f1) -> moves_to m it f1 (fset_next n cs it f1) (set_next (plain_of f1)) /\ forget (fst (set_next (plain_of f1))) = fst (set_next (plain_of f1)))
      by (intros f1 H1; split; [apply fnext_l; assumption|apply next_plain]).
    assert (GP : forall f1, Forall in_bounds (fields f1) -> moves_to m it f1 (fset_prev n cs it f1) (set_prev (plain_of f1)) /\ forget (fst (set_prev (plain_of f1))) = fst (set_prev (plain_of f1)))
      by (intros f1 H1; split; [apply fprev_l; assumption|apply prev_plain]).
    destruct k.
    + destruct m; try exact Stay.
      * apply (Then set_prev (fset_prev n cs) GP eq_refl).
      * apply (Then set_next (fset_next n cs) GN eq_refl).
    + assert (V : one_selected (plain_of f) -> pages_of_lines (plain_of f) -> quiet (plain_of f)) by (intros _ HP; subst f; contradiction).
      destruct m; try exact BD.
      * apply move_does; [exact Hi|apply GP; exact HB|apply GP; exact HB|exact V].
      * apply move_does; [exact Hi|apply GN; exact HB|apply GN; exact HB|exact V].
    + assert (LQ : may_leave (plain_of f) = true -> one_selected (plain_of f) -> pages_of_lines (plain_of f) -> quiet (plain_of f))
        by (intros L HO HP; subst f; apply leave_quiet; assumption).
      assert (Leave : forall (g : ctl * bool) r, may_leave (plain_of f) = true -> moves_to m it f r g -> forget (fst g) = fst g ->
         does m it f (fbind r (fun it' q => if snd q then Some (it', q) else fbase m it f)) (let (c', h) := g in if h then (c', true) else base m (plain_of f))).
      { intros g r L G1 G2. pose proof G1 as G0. destruct G1 as (f' & E & _). rewrite E in *. cbn [fbind snd]. destruct g as [c' h]. cbn [fst snd] in *.
        destruct h; [|exact BD]. apply move_does; [exact Hi|exact G0|exact G2|apply LQ; exact L]. }
      destruct m; try exact BD; destruct (may_leave (plain_of f)) eqn:L; try exact BD.
      * apply Leave; [reflexivity|apply GP; exact HB|apply GP; exact HB].
      * apply Leave; [reflexivity|apply GN; exact HB|apply GN; exact HB].
    + destruct m; try exact Stay.
      * apply (Then set_prev (fset_prev n cs) GP eq_refl).
      * apply (Then set_next (fset_next n cs) GN eq_refl).
Qed.

(** ** Sequences of commands *)
Lemma nav_same : forall m c d, forget c = forget d -> forget (fst (nav m c)) = forget (fst (nav m d)).
Proof. intros m c d E. destruct (nav_forget m c) as [-> _]. destruct (nav_forget m d) as [-> _]. rewrite E. reflexivity. Qed.
Lemma navs_same : forall ms c d, forget c = forget d -> forget (navs c ms) = forget (navs d ms).
Proof. intros ms. induction ms as [|m ms IH]; intros c d E; [exact E|]. cbn. apply IH. apply nav_same. exact E. Qed.
Lemma states_forget : forall c, field_states (forget c) = field_states c.
Proof.
  apply ctl_induct; try reflexivity. intros k st p cur kids IH. cbn [forget field_states]. rewrite flat_map_map.
  induction kids as [|x l IHl]; [reflexivity|]. inversion IH; subst. cbn [flat_map]. rewrite H1, IHl by assumption. reflexivity.
Qed.
Lemma editors_same : forall ms c d es, forget c = forget d -> editors n wrap ms c es = editors n wrap ms d es.
Proof.
  intros ms. induction ms as [|m ms IH]; intros c d es E; [reflexivity|]. cbn [editors]. cbv zeta.
  pose proof (nav_same m c d E) as N. rewrite <- (states_forget (fst (nav m c))), N, states_forget. apply IH. exact N.
Qed.
Lemma fnavs_l : forall ms it f, -1 <= it < n -> Forall in_bounds (fields f) ->
  exists it' f', fnavs n wrap cs ms it f = Some (it', f') /\ -1 <= it' < n /\ tamef f f' /\ plain_of f' = forget (navs (plain_of f) ms) /\
    (distinct n cs -> pages_of_lines (plain_of f) -> one_selected (plain_of f) -> forall es, Forall2 (field_ok n cs it) (fields f) es ->
       Forall2 (field_ok n cs it') (fields f') (editors n wrap ms (plain_of f) es) /\ one_selected (plain_of f')).
Proof.
  intros ms. induction ms as [|m ms IH]; intros it f Hi HB.
  - exists it, f. split; [reflexivity|]. split; [exact Hi|]. split; [apply tamef_refl; exact HB|]. split; [symmetry; apply forget_plain|]. auto.
  - cbn [fnavs]. destruct (fnav_l m f it Hi HB) as (it1 & f1 & E & I1 & T1 & P1 & _ & X1). rewrite E. cbn [fbind fst].
    destruct (IH it1 f1 I1 (proj2 T1)) as (it2 & f2 & E2 & I2 & T2 & P2 & X2). exists it2, f2. split; [exact E2|]. split; [exact I2|].
    split; [eapply tamef_trans; eassumption|]. 
    assert (PF : forget (plain_of f1) = forget (fst (nav m (plain_of f)))) by (rewrite P1; apply forget_idem).
    split; [rewrite P2; cbn; apply navs_same; exact PF|].
    intros D HP HO es He. specialize (X1 D HP HO es He).
    destruct (X2 D) with (es := steps n wrap m (field_states (plain_of f1)) es) as [Y1 Y2]; [| |exact X1|].
    + rewrite P1. apply pages_forget, pages_nav. exact HP.
    + rewrite P1. apply one_forget, one_nav; assumption.
    + split; [|exact Y2]. cbn [editors]. cbv zeta. rewrite <- (editors_same ms _ _ _ PF).
      rewrite <- (states_forget (fst (nav m (plain_of f)))), <- P1. exact Y1.
Qed.
End Fnav.

(** ** What commands leave alone *)
Definition same_text (q q' : Z * Z * tc) : Prop := forall i, tc_buf (snd q') i = tc_buf (snd q) i.
Lemma same_refl : forall q, same_text q q.
Proof. intros q i. reflexivity. Qed.
Lemma same_trans : forall q r s, same_text q r -> same_text r s -> same_text q s.
Proof. intros q r s A B i. rewrite B. apply A. Qed.
Lemma touched_same : forall m q r s, touched m q r -> same_text r s -> touched m q s.
Proof. intros m [[i1 M1] t1] [[i2 M2] t2] [[i3 M3] t3] A B i. unfold same_text in B. cbn [snd] in B. rewrite B. apply A. Qed.
Lemma same_touched : forall m q r, same_text q r -> touched m q r.
Proof. intros m [[i1 M1] t1] [[i2 M2] t2] A i H. unfold same_text in A. cbn [snd] in A. rewrite A in H. congruence. Qed.
Lemma forall2_imp : forall A B (P Q : A -> B -> Prop) l l', (forall x y, P x y -> Q x y) -> Forall2 P l l' -> Forall2 Q l l'.
Proof. intros A B P Q l l' H F. induction F; constructor; auto. Qed.
Section Frame.
Variable n : Z.
Variable wrap : bool.
Variable cs : Z -> Z.
Notation same f f' := (Forall2 same_text (fields f) (fields f')).
Lemma same_f : forall f, same f f.
Proof. intros f. apply forall2_refl_l, same_refl. Qed.
Lemma tc_reposition_buf : forall M t t', tc_reposition M n cs t = Some t' -> tc_buf t' = tc_buf t /\ tc_st t' = tc_st t.
Proof.
  intros M t t'. unfold tc_reposition. destruct (arr_get _ _ _ _); [|discriminate]. destruct (st_index_of _ _ _ _ _ _); [|discriminate].
  intros E. injection E as <-. split; reflexivity.
Qed.
Lemma tc_state_buf : forall M t s t' h, tc_set_state M n cs t s = Some (t', h) -> tc_buf t' = tc_buf t.
Proof.
  intros M t s t' h. unfold tc_set_state. destruct (negb _); [intros E; injection E as <- <-; reflexivity|]. cbv zeta.
  destruct (cstate_eqb s Selected).
  - destruct (tc_reposition _ _ _ _) as [t1|] eqn:R; [|discriminate]. intros E. injection E as <- <-. apply tc_reposition_buf in R.
    cbn [tc_buf]. destruct R as [-> _]. destruct (cstate_eqb s Focused); reflexivity.
  - intros E. injection E as <- <-. destruct (cstate_eqb s Focused); reflexivity.
Qed.
Lemma fset_st_text : forall s it f it' f', fset_st n cs s it f = Some (it', f') -> same f f'.
Proof.
  intros s it [st p t|p id M t|k st p cur kids] it' f' E; cbn [fset_st] in E.
  - injection E as <- <-. constructor.
  - destruct (tc_set_state M n cs (at_it it t) s) as [[t' h]|] eqn:R; [|discriminate]. injection E as <- <-. apply tc_state_buf in R.
    cbn [fields]. constructor; [|constructor]. intros i. cbn [snd]. rewrite R. reflexivity.
  - injection E as <- <-. cbn [fields]. apply forall2_refl_l, same_refl.
Qed.
Lemma kids_text : forall (R : Z * Z * tc -> Z * Z * tc -> Prop) kids i x y, (forall q, R q q) -> nth_error kids i = Some x -> Forall2 R (fields x) (fields y) ->
  Forall2 R (flat_map fields kids) (flat_map fields (update kids i (fun _ => y))).
Proof.
  intros R kids i x y HR Hx H. apply forall2_flat. apply forall2_update.
  - intros a u _. apply forall2_refl_l. exact HR.
  - intros u Hu. assert (u = x) as -> by congruence. exact H.
Qed.
Lemma fupdate_text : forall s kids i it it' kids', fupdate kids i (fset_st n cs s) it = Some (it', kids') ->
  Forall2 same_text (flat_map fields kids) (flat_map fields kids').
Proof.
  intros s kids i it it' kids' E. rewrite fupdate_eq in E. destruct (nth_error kids i) as [x|] eqn:Ex.
  - destruct (fset_st n cs s it x) as [[it1 y]|] eqn:Ey; [|discriminate]. cbn [fbind] in E. injection E as <- <-.
    eapply kids_text; [exact same_refl|exact Ex|]. eapply fset_st_text. exact Ey.
  - injection E as <- <-. apply forall2_refl_l, same_refl.
Qed.
Lemma fset_current_text : forall it f j it' f', fset_current n cs it f j = Some (it', f') -> same f f'.
Proof.
  intros it f j it' f' E. destruct f as [| |k st p cur kids]; try (injection E as <- <-; apply same_f).
  cbn [fset_current] in E. unfold fbind at 1 in E.
  match type of E with match ?a with _ => _ end = _ => destruct a as [[it1 [st1 kids1]]|] eqn:E1; [|discriminate] end.
  assert (A : Forall2 same_text (flat_map fields kids) (flat_map fields kids1)).
  { destruct cur as [i|]; [|injection E1 as <- <- <-; apply forall2_refl_l, same_refl].
    destruct (fupdate kids i (fset_st n cs Normal) it) as [[it2 kids2]|] eqn:E2; [|discriminate]. cbn [fbind] in E1. injection E1 as <- <- <-.
    eapply fupdate_text. exact E2. }
  cbn [fst snd] in E. destruct j as [j|].
  - destruct (fupdate kids1 j (fset_st n cs Focused) it1) as [[it2 kids2]|] eqn:E2; [|discriminate]. cbn [fbind] in E. injection E as <- <-.
    cbn [fields]. eapply (forall2_trans_l _ same_text same_trans); [exact A|]. eapply fupdate_text. exact E2.
  - injection E as <- <-. exact A.
Qed.
Lemma fgo_text : forall it f j it' q, fgo n cs it f j = Some (it', q) -> same f (fst q).
Proof.
  intros it f [j|] it' q E; cbn [fgo] in E.
  - destruct (fset_current n cs it f (Some j)) as [[it1 f1]|] eqn:E1; [|discriminate]. cbn [fbind] in E. injection E as <- <-.
    eapply fset_current_text. exact E1.
  - injection E as <- <-. apply same_f.
Qed.
Lemma tc_nav_touched : forall M t m t' h i, tc_nav M n wrap cs t m = Some (t', h) -> tc_buf t' i <> tc_buf t i ->
  tc_st t = Selected /\ i = tc_edit t /\ (m = Up \/ m = Down).
Proof.
  intros M t m t' h i E H.
  assert (I : forall m, tc_input M n cs t m = Some (t', h) -> tc_buf t' = tc_buf t).
  { intros [ | | | | | | ]; cbn [tc_input]; try (intros X; injection X as <- <-; reflexivity).
    - destruct (cstate_eqb (tc_st t) Focused); [|intros X; injection X as <- <-; reflexivity].
      destruct (tc_set_state _ _ _ _ _) as [[t1 b]|] eqn:R; [|discriminate]. intros X. injection X as <- <-. eapply tc_state_buf. exact R.
    - destruct (cstate_eqb (tc_st t) Selected); [|intros X; injection X as <- <-; reflexivity].
      destruct (tc_set_state _ _ _ _ _) as [[t1 b]|] eqn:R; [|discriminate]. intros X. injection X as <- <-. eapply tc_state_buf. exact R. }
  assert (R : forall x, tc_buf x = tc_buf t -> option_map (fun t => (t, true)) (tc_reposition M n cs x) = Some (t', h) -> tc_buf t' = tc_buf t).
  { intros x Hx. destruct (tc_reposition M n cs x) as [y|] eqn:R; [|discriminate]. intros X. injection X as <- <-. apply tc_reposition_buf in R.
    destruct R as [-> _]. exact Hx. }
  assert (C : forall b, option_map (fun t => (t, true)) (tc_change M n wrap cs t b) = Some (t', h) -> i = tc_edit t).
  { intros b. destruct (tc_change M n wrap cs t b) as [y|] eqn:R1; [|discriminate]. intros X. injection X as <- <-.
    unfold tc_change in R1. destruct (if b then _ else _) as [[j q]|]; [|discriminate]. unfold fix_set in R1.
    destruct (negb _) in R1; [injection R1 as <-; cbn [tc_buf] in H; congruence|]. destruct (inb _ _); [|discriminate]. injection R1 as <-. cbn [tc_buf] in H.
    unfold upd in H. destruct (Z.eqb_spec i (tc_edit t)); [assumption|congruence]. }
  unfold tc_nav in E. cbv zeta in E. destruct (cstate_eqb (tc_st t) Selected) eqn:Es; [|exfalso; apply H; rewrite (I m E); reflexivity].
  apply cstate_eqb_eq in Es. split; [exact Es|].
  destruct m; try (exfalso; apply H; rewrite (I _ E); reflexivity).
  - split; [apply (C true E)|left; reflexivity].
  - split; [apply (C false E)|right; reflexivity].
  - exfalso. apply H. destruct (tc_edit t >? 0); [|injection E as <- <-; reflexivity]. match type of E with option_map _ (tc_reposition _ _ _ ?x) = _ => rewrite (R x eq_refl E) end. reflexivity.
  - exfalso. apply H. destruct (tc_edit t + 1 <? _); [|injection E as <- <-; reflexivity]. match type of E with option_map _ (tc_reposition _ _ _ ?x) = _ => rewrite (R x eq_refl E) end. reflexivity.
Qed.
Lemma fnav_touched : forall m f it it' q, fnav n wrap cs m it f = Some (it', q) -> Forall2 (touched m) (fields f) (fields (fst q)).
Proof.
  intros m. apply (form_induct (fun f => forall it it' q, fnav n wrap cs m it f = Some (it', q) -> Forall2 (touched m) (fields f) (fields (fst q)))).
  - intros st p t it it' q E. injection E as <- <-. constructor.
  - intros p id M t it it' q E. cbn [fnav] in E. destruct (tc_nav M n wrap cs (at_it it t) m) as [[t' h]|] eqn:R; [|discriminate].
    injection E as <- <-. cbn [fst fields]. constructor; [|constructor]. intros i Hi. apply (tc_nav_touched _ _ _ _ _ i R Hi).
  - intros k st p cur kids IH it it' q E. rewrite fnav_box in E. cbv zeta in E. remember (FBox k st p cur kids) as f eqn:Ef.
    assert (RF : forall q : Z * Z * tc, touched m q q) by (intros x; apply same_touched, same_refl).
    assert (B : forall it1 q1, fbase n wrap cs m it f = Some (it1, q1) -> Forall2 (touched m) (fields f) (fields (fst q1))).
    { intros it1 q1 E1. subst f. cbn [fbase] in E1. destruct cur as [i|]; [|injection E1 as <- <-; apply forall2_refl_l, RF].
      destruct (nth_error kids i) as [x|] eqn:Ex; [|injection E1 as <- <-; apply forall2_refl_l, RF].
      destruct (fnav n wrap cs m it x) as [[it2 q2]|] eqn:E2; [|discriminate]. cbn [fbind] in E1. injection E1 as <- <-. cbn [fst fields].
      rewrite forall_nth in IH. eapply kids_text; [exact RF|exact Ex|]. eapply (IH i x Ex). exact E2. }
    assert (T : forall g h, Forall2 (touched m) (fields f) (fields g) -> same g h -> Forall2 (touched m) (fields f) (fields h)).
    { intros g h. generalize (fields f) (fields g) (fields h). intros l1 l2 l3 A. revert l3. induction A; intros l3 G; inversion G; subst; constructor; [eapply touched_same; eassumption|auto]. }
    assert (N : forall it1 g it2 q2, Forall2 (touched m) (fields f) (fields g) -> fset_next n cs it1 g = Some (it2, q2) -> Forall2 (touched m) (fields f) (fields (fst q2))).
    { intros it1 g it2 q2 A G. eapply T; [exact A|]. eapply fgo_text. exact G. }
    assert (P : forall it1 g it2 q2, Forall2 (touched m) (fields f) (fields g) -> fset_prev n cs it1 g = Some (it2, q2) -> Forall2 (touched m) (fields f) (fields (fst q2))).
    { intros it1 g it2 q2 A G. eapply T; [exact A|]. eapply fgo_text. exact G. }
    assert (R : Forall2 (touched m) (fields f) (fields f)) by (apply forall2_refl_l, RF).
    destruct k.
    + destruct (fbase n wrap cs m it f) as [[it1 q1]|]; [|discriminate]. cbn [fbind] in E. specialize (B it1 q1 eq_refl).
      destruct (snd q1); [injection E as <- <-; exact B|]. destruct m; try (injection E as <- <-; exact B); [exact (P _ _ _ _ B E)|exact (N _ _ _ _ B E)].
    + destruct m; try (eapply B; exact E); [exact (P _ _ _ _ R E)|exact (N _ _ _ _ R E)].
    + match type of E with fbind ?a _ = _ => assert (A : forall it1 q1, a = Some (it1, q1) -> Forall2 (touched m) (fields f) (fields (fst q1))) end.
      { intros it1 q1 A. destruct m; try (injection A as <- <-; exact R); (destruct (may_leave (plain_of f)); [|injection A as <- <-; exact R]); [exact (P _ _ _ _ R A)|exact (N _ _ _ _ R A)]. }
      match type of E with fbind ?a _ = _ => destruct a as [[it1 q1]|]; [|discriminate] end. cbn [fbind] in E.
      destruct (snd q1); [injection E as <- <-; apply (A it1 q1 eq_refl)|]. eapply B. exact E.
    + destruct (fbase n wrap cs m it f) as [[it1 q1]|]; [|discriminate]. cbn [fbind] in E. specialize (B it1 q1 eq_refl).
      destruct (snd q1); [injection E as <- <-; exact B|]. destruct m; try (injection E as <- <-; exact B); [exact (P _ _ _ _ B E)|exact (N _ _ _ _ B E)].
Qed.
End Frame.
