Require Import ZArith List Bool Lia ZifyBool.
Import ListNotations.
From Verif Require Import Base BaseFacts TimeModel TimeSpec TimeProofs TaskModel TaskSpec.
Open Scope Z_scope.

Section Task.
Variables A E W : Type.
Variable act : A -> W -> W.
Variable cond : E -> W -> bool * W.
Variable prog : cmd A E.
Notation cmd := (cmd A E).
Notation event := (event A E).
Notation step := (task_step act cond prog).
Notation run := (fun n s => task_run act cond n prog s).

(** [c] followed by [k] is a position of the program. *)
Definition pos (c : cmd) (k : list cmd) : Prop :=
  NoDup (lines c) /\ (forall l, In l (lines c) -> l <> 0 /\ find_label l prog [] = find_label l c k).

Fixpoint stack_ok (k : list cmd) : Prop :=
  match k with
  | [] => True
  | c :: r => pos c r /\ stack_ok r
  end.

Lemma find_none : forall (c : cmd) l k, ~ In l (lines c) -> find_label l c k = None.
Proof.
  intros c. induction c; intros l k H; cbn [find_label lines] in *; try reflexivity.
  - rewrite IHc1, IHc2; auto; intros K; apply H; apply in_or_app; auto.
  - rewrite IHc1, IHc2; auto; intros K; apply H; apply in_or_app; auto.
  - now apply IHc.
  - destruct (Z.eqb_spec line l); [|reflexivity]. exfalso. apply H. now left.
  - destruct (Z.eqb_spec line l); [|reflexivity]. exfalso. apply H. now left.
Qed.

Lemma find_some : forall (c : cmd) l k, In l (lines c) -> exists e k', find_label l c k = Some (e, k').
Proof.
  intros c. induction c; intros l k H; cbn [find_label lines] in *; try contradiction.
  - apply in_app_or in H. destruct (find_label l c1 (c2 :: k)) as [[e k']|] eqn:F; [eauto|].
    destruct H as [H|H]; [|now apply IHc2]. destruct (IHc1 l (c2 :: k) H) as [e [k' F']]. congruence.
  - apply in_app_or in H. destruct (find_label l c1 k) as [[e' k']|] eqn:F; [eauto|].
    destruct H as [H|H]; [|now apply IHc2]. destruct (IHc1 l k H) as [e' [k' F']]. congruence.
  - now apply IHc.
  - destruct H as [->|[]]. rewrite Z.eqb_refl. eauto.
  - destruct H as [->|[]]. rewrite Z.eqb_refl. eauto.
Qed.

Lemma nodup_app : forall (l1 l2 : list Z), NoDup (l1 ++ l2) -> NoDup l1 /\ NoDup l2 /\ forall x, In x l1 -> ~ In x l2.
Proof.
  intros l1. induction l1 as [|a l1 IH]; intros l2 H; cbn [app] in H.
  - split; [constructor|]. split; [assumption|]. intros x [].
  - inversion_clear H as [|? ? H1 H2]. destruct (IH l2 H2) as [I1 [I2 I3]]. split.
    + constructor; [|assumption]. intros K. apply H1. apply in_or_app. now left.
    + split; [assumption|]. intros x [->|Hx]; [|now apply I3]. intros K. apply H1. apply in_or_app. now right.
Qed.

Lemma pos_seq : forall c1 c2 k, pos (CSeq c1 c2) k -> pos c1 (c2 :: k) /\ pos c2 k.
Proof.
  intros c1 c2 k [H1 H2]. cbn [lines find_label] in *. destruct (nodup_app _ _ H1) as [N1 [N2 N3]]. split; split; auto.
  - intros l Hl. destruct (H2 l) as [Z1 F]; [apply in_or_app; now left|]. split; [exact Z1|]. rewrite F.
    destruct (find_some c1 l (c2 :: k) Hl) as [e [k' F']]. now rewrite F'.
  - intros l Hl. destruct (H2 l) as [Z1 F]; [apply in_or_app; now right|]. split; [exact Z1|]. rewrite F.
    rewrite find_none; [reflexivity|]. intros K. exact (N3 l K Hl).
Qed.

Lemma pos_if : forall e c1 c2 k, pos (CIf e c1 c2) k -> pos c1 k /\ pos c2 k.
Proof.
  intros e c1 c2 k [H1 H2]. cbn [lines find_label] in *. destruct (nodup_app _ _ H1) as [N1 [N2 N3]]. split; split; auto.
  - intros l Hl. destruct (H2 l) as [Z1 F]; [apply in_or_app; now left|]. split; [exact Z1|]. rewrite F.
    destruct (find_some c1 l k Hl) as [e' [k' F']]. now rewrite F'.
  - intros l Hl. destruct (H2 l) as [Z1 F]; [apply in_or_app; now right|]. split; [exact Z1|]. rewrite F.
    rewrite find_none; [reflexivity|]. intros K. exact (N3 l K Hl).
Qed.

Lemma pos_while : forall e c k, pos (CWhile e c) k -> pos c (CWhile e c :: k).
Proof. intros e c k [H1 H2]. split; [exact H1|exact H2]. Qed.

Lemma run_unfold : forall n s t s1, step s = Some (t, s1) ->
  run n s = match n with O => None | S m => match run m s1 with None => None | Some (t2, s2) => Some (t ++ t2, s2) end end.
Proof. intros n s t s1 H. destruct n; cbn [task_run]; now rewrite H. Qed.

Lemma run_mono : forall n m s r, (n <= m)%nat -> run n s = Some r -> run m s = Some r.
Proof.
  intros n. induction n as [|n IH]; intros m s r Hm H.
  - cbn [task_run] in H. destruct (step s) as [[t s1]|] eqn:E1; [discriminate|].
    destruct m; cbn [task_run]; now rewrite E1.
  - destruct m as [|m]; [lia|]. cbn [task_run] in *. destruct (step s) as [[t s1]|] eqn:E1; [|exact H].
    destruct (run n s1) as [[t2 s2]|] eqn:E2; [|discriminate]. cbv beta in E2.
    specialize (IH m s1 _ ltac:(lia) E2). cbv beta in IH. now rewrite IH.
Qed.

(** ** Soundness *)
Definition result (P : outcome W -> list event -> Prop) (k : list cmd) (n : nat) (tr : list event) (fin : config A E W) : Prop :=
  (exists t1 t2 w1 l1 m, tr = t1 ++ t2 /\ P (Normal w1 l1) t1 /\ (m < n)%nat /\ run m (Run k w1 l1) = Some (t2, fin))
  \/ (exists w1 L, P (Blocked w1) tr /\ fin = Idle L w1 [])
  \/ (exists t1 t2 w1 l1 m, tr = t1 ++ EvEnd :: t2 /\ P (Returned w1 l1) t1 /\ (m < n)%nat /\
        run m (Idle 0 w1 l1) = Some (t2, fin)).

Lemma idle_sound : forall n L e k w later tr fin, L <> 0 -> find_label L prog [] = Some (e, k) ->
  run n (Idle L w later) = Some (tr, fin) ->
  result (fun o t => paused cond e w later t o) k n tr fin.
Proof.
  intros n. induction n as [|n IH]; intros L e k w later tr fin HL HF R; destruct later as [|env later].
  - cbn in R. injection R as <- <-. right; left. exists w, L. split; [constructor|reflexivity].
  - cbv beta in R. cbn [task_run task_step] in R. assert (L =? 0 = false) as H0 by lia. rewrite H0, HF in R.
    destruct (cond e (env w)) as [b w1]. destruct b; discriminate.
  - cbn in R. injection R as <- <-. right; left. exists w, L. split; [constructor|reflexivity].
  - cbv beta in R. cbn [task_run task_step] in R. assert (L =? 0 = false) as H0 by lia. rewrite H0, HF in R.
    destruct (cond e (env w)) as [b w1] eqn:C. destruct b.
    + destruct (task_run act cond n prog (Run k w1 later)) as [[t2 s2]|] eqn:R2; [|discriminate]. injection R as <- <-.
      left. exists [EvTest e true], t2, w1, later, n. split; [reflexivity|]. split; [now constructor|]. split; [lia|exact R2].
    + destruct (task_run act cond n prog (Idle L w1 later)) as [[t2 s2]|] eqn:R2; [|discriminate]. injection R as <- <-.
      destruct (IH L e k w1 later t2 s2 HL HF R2) as [H|[H|H]].
      * destruct H as [t1 [t3 [w2 [l2 [m [-> [P1 [P2 P3]]]]]]]]. left.
        exists (EvTest e false :: EvPause :: t1), t3, w2, l2, m. split; [reflexivity|]. split; [econstructor; eauto|]. split; [lia|exact P3].
      * destruct H as [w2 [L2 [P1 P2]]]. right; left. exists w2, L2. split; [econstructor; eauto|exact P2].
      * destruct H as [t1 [t3 [w2 [l2 [m [-> [P1 [P2 P3]]]]]]]]. right; right.
        exists (EvTest e false :: EvPause :: t1), t3, w2, l2, m. split; [reflexivity|]. split; [econstructor; eauto|]. split; [lia|exact P3].
Qed.

Lemma result_weaken : forall (P Q : outcome W -> list event -> Prop) k n n' pre tr fin,
  (forall o t, P o t -> Q o (pre ++ t)) -> (n <= n')%nat ->
  result P k n tr fin -> result Q k n' (pre ++ tr) fin.
Proof.
  intros P Q k n n' pre tr fin HPQ Hn [H|[H|H]].
  - destruct H as [t1 [t2 [w1 [l1 [m [-> [P1 [P2 P3]]]]]]]]. left. exists (pre ++ t1), t2, w1, l1, m.
    rewrite app_assoc. split; [reflexivity|]. split; [auto|]. split; [lia|exact P3].
  - destruct H as [w1 [L [P1 P2]]]. right; left. exists w1, L. auto.
  - destruct H as [t1 [t2 [w1 [l1 [m [-> [P1 [P2 P3]]]]]]]]. right; right. exists (pre ++ t1), t2, w1, l1, m.
    rewrite app_assoc. split; [reflexivity|]. split; [auto|]. split; [lia|exact P3].
Qed.

Lemma exec_sound : forall n c k w later tr fin, pos c k -> stack_ok k ->
  run n (Run (c :: k) w later) = Some (tr, fin) ->
  result (fun o t => seq_exec act cond c w later t o) k n tr fin.
Proof.
  intros n. induction n as [n IH] using (well_founded_induction lt_wf). intros c k w later tr fin Hp Hk R.
  destruct n as [|n].
  { cbv beta in R. cbn [task_run task_step] in R. destruct c; try discriminate;
      destruct (cond e w) as [[|] ?]; discriminate. }
  cbv beta in R.
  assert (HD : forall t s1, step (Run (c :: k) w later) = Some (t, s1) ->
    exists t2, run n s1 = Some (t2, fin) /\ tr = t ++ t2).
  { intros t s1 E1. cbn [task_run] in R. rewrite E1 in R. cbv beta.
    destruct (task_run act cond n prog s1) as [[t2 s2]|]; [|discriminate]. injection R as <- <-. eauto. }
  clear R. destruct c as [|a|c1 c2|e c1 c2|e c1|L e|L e|]; cbn [task_step] in HD.
  - destruct (HD _ _ eq_refl) as [t2 [R ->]]. left. exists [], t2, w, later, n. split; [reflexivity|]. split; [constructor|]. split; [lia|exact R].
  - destruct (HD _ _ eq_refl) as [t2 [R ->]]. left. exists [EvAct a], t2, (act a w), later, n.
    split; [reflexivity|]. split; [constructor|]. split; [lia|exact R].
  - destruct (HD _ _ eq_refl) as [t2 [R ->]]. cbn [app]. destruct (pos_seq _ _ _ Hp) as [P1 P2].
    destruct (IH n ltac:(lia) c1 (c2 :: k) w later t2 fin P1 (conj P2 Hk) R) as [H|[H|H]].
    + destruct H as [t1 [t3 [w1 [l1 [m [-> [S1 [S2 S3]]]]]]]].
      apply (result_weaken (fun o t => seq_exec act cond c2 w1 l1 t o) _ k m (S n) t1 t3 fin).
      * intros o t S4. econstructor; eauto.
      * lia.
      * apply IH; auto; lia.
    + destruct H as [w1 [L [S1 S2]]]. right; left. exists w1, L. split; [|exact S2].
      apply s_seq_stop; [exact S1|]. discriminate.
    + destruct H as [t1 [t3 [w1 [l1 [m [-> [S1 [S2 S3]]]]]]]]. right; right. exists t1, t3, w1, l1, m.
      split; [reflexivity|]. split; [|split; [lia|exact S3]]. apply s_seq_stop; [exact S1|]. discriminate.
  - destruct (cond e w) as [b w1] eqn:C. destruct (HD _ _ eq_refl) as [t2 [R ->]]. destruct (pos_if _ _ _ _ Hp) as [P1 P2].
    apply (result_weaken (fun o t => seq_exec act cond (if b then c1 else c2) w1 later t o) _ k n (S n) [EvTest e b] t2 fin).
    + intros o t S4. cbn [app]. econstructor; eauto.
    + lia.
    + apply IH; auto. destruct b; assumption.
  - destruct (cond e w) as [b w1] eqn:C. destruct (HD _ _ eq_refl) as [t2 [R ->]]. destruct b.
    + pose proof (pos_while _ _ _ Hp) as P1.
      destruct (IH n ltac:(lia) c1 (CWhile e c1 :: k) w1 later t2 fin P1 (conj Hp Hk) R) as [H|[H|H]].
      * destruct H as [t1 [t3 [w2 [l2 [m [-> [S1 [S2 S3]]]]]]]]. rewrite app_assoc.
        apply (result_weaken (fun o t => seq_exec act cond (CWhile e c1) w2 l2 t o) _ k m (S n) _ t3 fin).
        -- intros o t S4. cbn [app]. eapply s_while_loop; eauto.
        -- lia.
        -- apply IH; auto; lia.
      * destruct H as [w2 [L [S1 S2]]]. right; left. exists w2, L. split; [|exact S2].
        cbn [app]. eapply s_while_stop; eauto. discriminate.
      * destruct H as [t1 [t3 [w2 [l2 [m [-> [S1 [S2 S3]]]]]]]]. right; right. exists (EvTest e true :: t1), t3, w2, l2, m.
        split; [reflexivity|]. split; [|split; [lia|exact S3]]. eapply s_while_stop; eauto. discriminate.
    + left. exists [EvTest e false], t2, w1, later, n. split; [reflexivity|]. split; [now constructor|]. split; [lia|exact R].
  - destruct (HD _ _ eq_refl) as [t2 [R ->]]. destruct Hp as [_ Hp]. destruct (Hp L (or_introl eq_refl)) as [H0 HF].
    cbn [find_label] in HF. rewrite Z.eqb_refl in HF.
    apply (result_weaken (fun o t => paused cond e w later t o) _ k n (S n) [EvPause] t2 fin).
    + intros o t S. now constructor.
    + lia.
    + eapply idle_sound; eauto.
  - destruct Hp as [_ Hp]. destruct (Hp L (or_introl eq_refl)) as [H0 HF]. cbn [find_label] in HF. rewrite Z.eqb_refl in HF.
    destruct (cond e w) as [b w1] eqn:C. destruct b.
    + destruct (HD _ _ eq_refl) as [t2 [R ->]]. left. exists [EvTest e true], t2, w1, later, n.
      split; [reflexivity|]. split; [now constructor|]. split; [lia|exact R].
    + destruct (HD _ _ eq_refl) as [t2 [R ->]].
      apply (result_weaken (fun o t => paused cond e w1 later t o) _ k n (S n) [EvTest e false; EvPause] t2 fin).
      * intros o t S. cbn [app]. econstructor; eauto.
      * lia.
      * eapply idle_sound; eauto.
  - destruct (HD _ _ eq_refl) as [t2 [R ->]]. right; right. exists [], t2, w, later, n. split; [reflexivity|]. split; [constructor|]. split; [lia|exact R].
Qed.


Lemma labels_pos : labels_ok prog -> pos prog [].
Proof.
  intros [H1 H2]. split; [exact H1|]. intros l Hl. split; [|reflexivity]. intros ->. contradiction.
Qed.

Lemma run_empty : forall n w l tr fin, run n (Run [] w l) = Some (tr, fin) ->
  exists m t2, (m < n)%nat /\ tr = EvEnd :: t2 /\ run m (Idle 0 w l) = Some (t2, fin).
Proof.
  intros n w l tr fin R. destruct n as [|n]; [discriminate|]. cbv beta in R. cbn [task_run task_step] in R.
  cbn [app] in R. destruct (task_run act cond n prog (Idle 0 w l)) as [[t2 s2]|] eqn:R2; [|discriminate].
  injection R as <- <-. exists n, t2. split; [lia|]. split; [reflexivity|exact R2].
Qed.

Lemma task_sound : labels_ok prog -> forall n w later tr fin,
  run n (Run [prog] w later) = Some (tr, fin) ->
  exists L w1, fin = Idle L w1 [] /\ forever act cond prog w later tr w1.
Proof.
  intros HL n. induction n as [n IH] using (well_founded_induction lt_wf). intros w later tr fin R.
  assert (Q : forall m w1 l1 t1 t2 o, (m < n)%nat -> o = Normal w1 l1 \/ o = Returned w1 l1 ->
    seq_exec act cond prog w later t1 o -> run m (Idle 0 w1 l1) = Some (t2, fin) ->
    exists L w2, fin = Idle L w2 [] /\ forever act cond prog w later (t1 ++ EvEnd :: t2) w2).
  { intros m w1 l1 t1 t2 o Hm Ho S R2. destruct l1 as [|env l1].
    - assert (Q : run m (Idle 0 w1 []) = Some ([], Idle 0 w1 [])) by (cbv beta; destruct m; reflexivity).
      rewrite Q in R2. injection R2 as <- <-. exists 0, w1. split; [reflexivity|]. eapply f_last; eauto.
    - destruct m as [|m]; [discriminate|]. cbv beta in R2. cbn [task_run task_step] in R2. change (0 =? 0) with true in R2.
      cbv iota in R2. destruct (task_run act cond m prog (Run [prog] (env w1) l1)) as [[t3 s3]|] eqn:R3; [|discriminate].
      injection R2 as <- <-. destruct (IH m ltac:(lia) _ _ _ _ R3) as [L [w2 [-> F]]].
      exists L, w2. split; [reflexivity|]. eapply f_again; eauto. }
  destruct (exec_sound n prog [] w later tr fin (labels_pos HL) I R) as [H|[H|H]].
  - destruct H as [t1 [t2 [w1 [l1 [m [-> [P1 [P2 P3]]]]]]]].
    destruct (run_empty _ _ _ _ _ P3) as [m2 [t3 [M1 [-> M2]]]]. apply (Q m2 w1 l1 t1 t3 (Normal w1 l1)); auto; lia.
  - destruct H as [w1 [L [P1 ->]]]. exists L, w1. split; [reflexivity|]. now constructor.
  - destruct H as [t1 [t2 [w1 [l1 [m [-> [P1 [P2 P3]]]]]]]]. apply (Q m w1 l1 t1 t2 (Returned w1 l1)); auto; lia.
Qed.

(** ** Completeness *)
Definition reaches (s : config A E W) (t : list event) (s' : config A E W) : Prop :=
  forall n t2 fin, run n s' = Some (t2, fin) -> exists m, run m s = Some (t ++ t2, fin).

Lemma reaches_refl : forall s, reaches s [] s.
Proof. intros s n t2 fin R. exists n. exact R. Qed.
Lemma reaches_step : forall s t s1 t1 s2, step s = Some (t, s1) -> reaches s1 t1 s2 -> reaches s (t ++ t1) s2.
Proof.
  intros s t s1 t1 s2 H1 H2 n t2 fin R. destruct (H2 n t2 fin R) as [m M]. exists (S m).
  cbn [task_run]. rewrite H1. cbv beta in M. rewrite M. now rewrite app_assoc.
Qed.
Lemma reaches_trans : forall s t s1 t1 s2, reaches s t s1 -> reaches s1 t1 s2 -> reaches s (t ++ t1) s2.
Proof.
  intros s t s1 t1 s2 H1 H2 n t2 fin R. destruct (H2 n t2 fin R) as [m M]. destruct (H1 m _ _ M) as [m2 M2].
  exists m2. rewrite <- app_assoc. exact M2.
Qed.

(** Where the machine is after [o]. *)
Definition after (k : list cmd) (s : config A E W) (t : list event) (o : outcome W) : Prop :=
  match o with
  | Normal w l => reaches s t (Run k w l)
  | Returned w l => reaches s (t ++ [EvEnd]) (Idle 0 w l)
  | Blocked w => exists L, reaches s t (Idle L w [])
  end.

Lemma after_step : forall k s t1 s1 t o, step s = Some (t1, s1) -> after k s1 t o -> after k s (t1 ++ t) o.
Proof.
  intros k s t1 s1 t o H1 H2. destruct o; cbn [after] in *.
  - eapply reaches_step; eauto.
  - rewrite <- app_assoc. eapply reaches_step; eauto.
  - destruct H2 as [L H2]. exists L. eapply reaches_step; eauto.
Qed.
Lemma after_trans : forall k s t1 s1 t o, reaches s t1 s1 -> after k s1 t o -> after k s (t1 ++ t) o.
Proof.
  intros k s t1 s1 t o H1 H2. destruct o; cbn [after] in *.
  - eapply reaches_trans; eauto.
  - rewrite <- app_assoc. eapply reaches_trans; eauto.
  - destruct H2 as [L H2]. exists L. eapply reaches_trans; eauto.
Qed.

Lemma paused_complete : forall e w later t o, paused cond e w later t o ->
  forall L k, L <> 0 -> find_label L prog [] = Some (e, k) -> after k (Idle L w later) t o.
Proof.
  intros e w later t o H. induction H as [w|w env later w1 C|w env later w1 t o C H IH]; intros L k HL HF.
  - exists L. apply reaches_refl.
  - cbn [after]. change [EvTest e true] with ([EvTest e true] ++ [] : list event). eapply reaches_step; [|apply reaches_refl].
    cbn [task_step]. assert (L =? 0 = false) as -> by lia. now rewrite HF, C.
  - change (EvTest e false :: EvPause :: t) with ([EvTest e false; EvPause] ++ t). apply (after_step _ _ _ (Idle L w1 later)); [|now apply IH].
    cbn [task_step]. assert (L =? 0 = false) as -> by lia. now rewrite HF, C.
Qed.

Lemma exec_complete : forall c w later t o, seq_exec act cond c w later t o ->
  forall k, pos c k -> after k (Run (c :: k) w later) t o.
Proof.
  intros c w later t o H.
  induction H as [w l|a w l|c1 c2 w l t1 w1 l1 t2 o H1 IH1 H2 IH2|c1 c2 w l t o H IH Ho
    |e c1 c2 w l b w1 t o C H IH|e c w l w1 C|e c w l w1 t1 w2 l2 t2 o C H1 IH1 H2 IH2
    |e c w l w1 t o C H IH Ho|line e w l t o H|line e w l w1 C|line e w l w1 t o C H|w l]; intros k Hp.
  - cbn [after]. change (@nil event) with ([] ++ [] : list event). eapply reaches_step; [reflexivity|apply reaches_refl].
  - cbn [after]. change [EvAct a] with ([EvAct a] ++ [] : list event). eapply reaches_step; [reflexivity|apply reaches_refl].
  - destruct (pos_seq _ _ _ Hp) as [P1 P2]. change (t1 ++ t2) with ([] ++ (t1 ++ t2)).
    eapply after_step; [reflexivity|]. eapply after_trans; [exact (IH1 _ P1)|now apply IH2].
  - destruct (pos_seq _ _ _ Hp) as [P1 P2]. change t with ([] ++ t). eapply after_step; [reflexivity|].
    specialize (IH _ P1). destruct o as [w1 l1|w1 l1|w1]; [|exact IH|exact IH]. exfalso. now apply (Ho w1 l1).
  - destruct (pos_if _ _ _ _ Hp) as [P1 P2]. change (EvTest e b :: t) with ([EvTest e b] ++ t).
    eapply after_step; [cbn [task_step]; rewrite C; reflexivity|]. apply IH. destruct b; assumption.
  - cbn [after]. change [EvTest e false] with ([EvTest e false] ++ [] : list event).
    eapply reaches_step; [cbn [task_step]; rewrite C; reflexivity|apply reaches_refl].
  - change (EvTest e true :: t1 ++ t2) with ([EvTest e true] ++ (t1 ++ t2)).
    eapply after_step; [cbn [task_step]; rewrite C; reflexivity|]. cbv iota.
    eapply after_trans; [exact (IH1 _ (pos_while _ _ _ Hp))|now apply IH2].
  - change (EvTest e true :: t) with ([EvTest e true] ++ t).
    eapply after_step; [cbn [task_step]; rewrite C; reflexivity|]. cbv iota.
    specialize (IH _ (pos_while _ _ _ Hp)). destruct o as [w2 l2|w2 l2|w2]; [|exact IH|exact IH]. exfalso. now apply (Ho w2 l2).
  - destruct Hp as [_ Hp]. destruct (Hp line (or_introl eq_refl)) as [H0 HF]. cbn [find_label] in HF. rewrite Z.eqb_refl in HF.
    change (EvPause :: t) with ([EvPause] ++ t). eapply after_step; [reflexivity|]. eapply paused_complete; eauto.
  - cbn [after]. change [EvTest e true] with ([EvTest e true] ++ [] : list event).
    eapply reaches_step; [cbn [task_step]; rewrite C; reflexivity|apply reaches_refl].
  - destruct Hp as [_ Hp]. destruct (Hp line (or_introl eq_refl)) as [H0 HF]. cbn [find_label] in HF. rewrite Z.eqb_refl in HF.
    change (EvTest e false :: EvPause :: t) with ([EvTest e false; EvPause] ++ t).
    eapply after_step; [cbn [task_step]; rewrite C; reflexivity|]. eapply paused_complete; eauto.
  - cbn [after app]. change [EvEnd] with ([EvEnd] ++ [] : list event). eapply reaches_step; [reflexivity|apply reaches_refl].
Qed.

Lemma end_complete : forall w later t o w1 l1, labels_ok prog -> seq_exec act cond prog w later t o ->
  o = Normal w1 l1 \/ o = Returned w1 l1 -> reaches (Run [prog] w later) (t ++ [EvEnd]) (Idle 0 w1 l1).
Proof.
  intros w later t o w1 l1 HL H Ho. pose proof (exec_complete _ _ _ _ _ H [] (labels_pos HL)) as F.
  destruct Ho as [->| ->]; cbn [after] in F.
  - eapply reaches_trans; [exact F|]. change [EvEnd] with ([EvEnd] ++ [] : list event).
    eapply reaches_step; [reflexivity|apply reaches_refl].
  - exact F.
Qed.

Lemma task_complete : labels_ok prog -> forall w later tr w1, forever act cond prog w later tr w1 ->
  exists n L, run n (Run [prog] w later) = Some (tr, Idle L w1 []).
Proof.
  intros HL w later tr w1 H. induction H as [w l t w1 H|w l t o w1 H Ho|w l t o w1 env l1 t2 w2 H Ho F IH].
  - pose proof (exec_complete _ _ _ _ _ H [] (labels_pos HL)) as [L F]. 
    destruct (F O [] (Idle L w1 [])) as [m M]; [reflexivity|]. exists m, L. rewrite app_nil_r in M. exact M.
  - destruct (end_complete _ _ _ _ _ _ HL H Ho O [] (Idle 0 w1 [])) as [m M]; [reflexivity|].
    exists m, 0. rewrite app_nil_r in M. exact M.
  - destruct IH as [n [L R]].
    destruct (end_complete _ _ _ _ _ _ HL H Ho (S n) t2 (Idle L w2 [])) as [m M].
    + cbv beta. cbn [task_run task_step]. change (0 =? 0) with true. cbv iota. cbv beta in R. now rewrite R.
    + exists m, L. rewrite <- app_assoc in M. exact M.
Qed.

Lemma task_iff : labels_ok prog -> forall env w later tr w1,
  (exists n L, run n (Idle 0 w (env :: later)) = Some (tr, Idle L w1 [])) <->
  forever act cond prog (env w) later tr w1.
Proof.
  intros HL env w later tr w1. split.
  - intros [n [L R]]. destruct n as [|n]; [discriminate|]. cbv beta in R. cbn [task_run task_step] in R.
    change (0 =? 0) with true in R. cbv iota in R.
    destruct (task_run act cond n prog (Run [prog] (env w) later)) as [[t s]|] eqn:R2; [|discriminate].
    injection R as <- ->. destruct (task_sound HL n _ _ _ _ R2) as [L2 [w2 [E2 F]]]. injection E2 as _ <-. exact F.
  - intros F. destruct (task_complete HL _ _ _ _ F) as [n [L R]]. exists (S n), L.
    cbv beta in *. cbn [task_run task_step]. change (0 =? 0) with true. cbv iota. now rewrite R.
Qed.

(** Determinism of the machine gives determinism of the specification. *)
Lemma forever_unique : labels_ok prog -> forall w later t1 w1 t2 w2,
  forever act cond prog w later t1 w1 -> forever act cond prog w later t2 w2 -> t1 = t2 /\ w1 = w2.
Proof.
  intros HL w later t1 w1 t2 w2 H1 H2.
  destruct (task_complete HL _ _ _ _ H1) as [n1 [L1 R1]]. destruct (task_complete HL _ _ _ _ H2) as [n2 [L2 R2]].
  apply (run_mono n1 (Nat.max n1 n2)) in R1; [|lia]. apply (run_mono n2 (Nat.max n1 n2)) in R2; [|lia].
  cbv beta in R1, R2. rewrite R1 in R2. injection R2 as -> _ ->. auto.
Qed.

(** ** One answer per call *)
Lemma returns_app : forall t1 t2 : list event, returns (t1 ++ t2) = returns t1 ++ returns t2.
Proof. intros t1. induction t1 as [|[a|e b| |] t1 IH]; intros t2; cbn [returns app]; auto; now rewrite IH. Qed.
Lemma performed_app : forall t1 t2 : list event, performed (t1 ++ t2) = performed t1 ++ performed t2.
Proof. intros t1. induction t1 as [|[a|e b| |] t1 IH]; intros t2; cbn [performed app]; auto; now rewrite IH. Qed.

(** Calls used up by an outcome: the call in progress answers when the outcome is Blocked. *)
Definition answered (later : list (W -> W)) (o : outcome W) (n : nat) : Prop :=
  match o with
  | Normal _ l | Returned _ l => length later = (n + length l)%nat
  | Blocked _ => n = S (length later)
  end.
Lemma paused_returns : forall e w later (t : list event) o, paused cond e w later t o ->
  match o with
  | Normal _ l | Returned _ l => length later = S (length (returns t) + length l)
  | Blocked _ => length (returns t) = length later
  end.
Proof.
  intros e w later t o H. induction H as [w|w env later w1 C|w env later w1 t o C H IH]; cbn [returns length].
  - reflexivity.
  - lia.
  - destruct o; lia.
Qed.
Lemma exec_returns : forall c w later t o, seq_exec act cond c w later t o ->
  answered later o (length (returns t)).
Proof.
  intros c w later t o H.
  induction H as [w l|a w l|c1 c2 w l t1 w1 l1 t2 o H1 IH1 H2 IH2|c1 c2 w l t o H IH Ho
    |e c1 c2 w l b w1 t o C H IH|e c w l w1 C|e c w l w1 t1 w2 l2 t2 o C H1 IH1 H2 IH2
    |e c w l w1 t o C H IH Ho|line e w l t o H|line e w l w1 C|line e w l w1 t o C H|w l];
    unfold answered in *; cbn [returns length]; try rewrite returns_app, app_length; auto; try (destruct o; lia);
    try (apply paused_returns in H; destruct o; lia).
Qed.
Lemma forever_returns : forall w later t w1, forever act cond prog w later t w1 -> length (returns t) = S (length later).
Proof.
  intros w later t w1 H. induction H as [w l t w1 H|w l t o w1 H Ho|w l t o w1 env l1 t2 w2 H Ho F IH];
    apply exec_returns in H.
  - exact H.
  - rewrite returns_app, app_length. destruct Ho as [->| ->]; cbn in *; lia.
  - rewrite returns_app, app_length. cbn [returns length]. destruct Ho as [->| ->]; cbn [answered length] in *; lia.
Qed.

(** ** Straight-line bodies *)


Lemma paused_performed : forall e w later (t : list event) o, paused cond e w later t o -> performed t = [] /\ count_occ bool_dec (returns t) false = O.
Proof. intros e w later t o H. induction H; cbn; auto. Qed.

Lemma straight_exec : forall c w later t o, seq_exec act cond c w later t o -> straight c = true ->
  count_occ bool_dec (returns t) false = O /\
  match o with
  | Normal _ _ => performed t = actions c
  | Returned _ _ => False
  | Blocked _ => exists q, actions c = performed t ++ q
  end.
Proof.
  intros c w later t o H.
  induction H as [w l|a w l|c1 c2 w l t1 w1 l1 t2 o H1 IH1 H2 IH2|c1 c2 w l t o H IH Ho
    |e c1 c2 w l b w1 t o C H IH|e c w l w1 C|e c w l w1 t1 w2 l2 t2 o C H1 IH1 H2 IH2
    |e c w l w1 t o C H IH Ho|line e w l t o H|line e w l w1 C|line e w l w1 t o C H|w l];
    intros St; cbn [straight actions performed returns] in *; try discriminate; auto.
  - apply andb_prop in St as [S1 S2]. destruct (IH1 S1) as [I1 I2]. destruct (IH2 S2) as [I3 I4].
    rewrite returns_app, count_occ_app, performed_app, I1, I2. split; [exact I3|]. destruct o; auto.
    + now rewrite I4.
    + destruct I4 as [q ->]. exists q. now rewrite app_assoc.
  - apply andb_prop in St as [S1 S2]. destruct (IH S1) as [I1 I2]. split; [exact I1|]. destruct o.
    + exfalso. now eapply Ho.
    + contradiction.
    + destruct I2 as [q ->]. exists (q ++ actions c2). now rewrite app_assoc.
  - pose proof H as H'. apply paused_performed in H as [-> Q]. split.
    + cbn [count_occ]. destruct (bool_dec true false); [discriminate|exact Q].
    + clear -H'. induction H'; auto. now exists [].
  - pose proof H as H'. apply paused_performed in H as [-> Q]. split.
    + cbn [count_occ]. destruct (bool_dec true false); [discriminate|exact Q].
    + clear -H'. induction H'; auto. now exists [].
Qed.

Lemma straight_forever : straight prog = true -> forall w later t w1, forever act cond prog w later t w1 ->
  exists p q, actions prog = p ++ q /\
    performed t = concat (repeat (actions prog) (count_occ bool_dec (returns t) false)) ++ p.
Proof.
  intros St w later t w1 H. induction H as [w l t w1 H|w l t o w1 H Ho|w l t o w1 env l1 t2 w2 H Ho F IH];
    destruct (straight_exec _ _ _ _ _ H St) as [H1 H2].
  - destruct H2 as [q H2]. exists (performed t), q. split; [exact H2|]. now rewrite H1.
  - destruct Ho as [->| ->]; [|contradiction]. exists [], (actions prog). split; [reflexivity|].
    rewrite returns_app, count_occ_app, performed_app, H1, H2. cbn. now rewrite !app_nil_r.
  - destruct Ho as [->| ->]; [|contradiction]. destruct IH as [p [q [P1 P2]]]. exists p, q. split; [exact P1|].
    rewrite returns_app, count_occ_app, performed_app, H1, H2. cbn [performed returns count_occ].
    destruct (bool_dec false false) as [_|N]; [|congruence]. cbn [Nat.add repeat concat]. rewrite P2. now rewrite app_assoc.
Qed.
End Task.

(** ** TimeoutTask *)
Definition tt_ready (timeout : Z) (ds : list Z) : list bool :=
  match ds with [] => [] | _ :: r => false :: tt_count timeout 0 r end.
Definition tt_state (id timeout task : Z) (d : delays) (ds : list Z) (outs : list bool) : Prop :=
  (task = 0 -> lookup_id (d_slots d) id = None -> outs = tt_due timeout ds) /\
  (task = 56 -> lookup_id (d_slots d) id = None -> outs = tt_ready timeout ds) /\
  (forall r, task = 56 -> lookup_id (d_slots d) id = Some r -> outs = tt_count timeout (timeout - r) ds).

Lemma tt_due_ready : forall timeout x ds, tt_due timeout (x :: ds) = false :: tt_ready timeout ds.
Proof. intros timeout x [|y ds]; reflexivity. Qed.
Lemma tt_count_cons : forall timeout acc x ds, tt_count timeout acc (x :: ds) =
  if timeout <=? acc + x then true :: tt_ready timeout ds else false :: tt_count timeout (acc + x) ds.
Proof. reflexivity. Qed.

Lemma tt_other_keep : forall id d o d' b, dinv d -> 0 < id < 65536 -> tt_other id o -> dl_step d o = Some (d', b) ->
  dinv d' /\ d_delta d' = d_delta d /\ lookup_id (d_slots d') id = lookup_id (d_slots d) id.
Proof.
  intros id d o d' b HI Hid Ho E.
  assert (Hok : dl_ok o) by (destruct o; cbn in *; tauto).
  destruct (step_timer d o d' b HI Hok E) as [I1 [I2 I3]]. specialize (I3 id Hid). split; [exact I1|].
  destruct o as [x|j t|j|j|j]; cbn [tt_other tm_step] in *; try contradiction;
    try (assert (j =? id = false) as N by lia; rewrite N in I3); injection I3; intros; split; congruence.
Qed.

Lemma tt_run_l : forall id timeout ops task d task' d' outs, dinv d -> 0 < id < 65536 -> 0 <= timeout < 4294967296 ->
  Forall (tt_ok id) ops -> tt_run id timeout task d ops = Some (task', d', outs) ->
  tt_state id timeout task d (exec_deltas (d_delta d) ops) outs.
Proof.
  intros id timeout ops. induction ops as [|o ops IH]; intros task d task' d' outs HI Hid Ht Hok E; cbn [tt_run] in E.
  - injection E as <- <- <-. repeat split.
  - inversion_clear Hok as [|? ? H1 H2]. destruct o as [|x|o].
    + cbn [exec_deltas]. unfold tt_execute in E. destruct (Z.eqb_spec task 0) as [->|N0].
      * destruct (tt_run id timeout 56 d ops) as [[[t2 d2] outs2]|] eqn:R; [|discriminate]. injection E as <- <- <-.
        destruct (IH _ _ _ _ _ HI Hid Ht H2 R) as [_ [I2 I3]]. split; [|split].
        -- intros _ L. rewrite tt_due_ready. f_equal. now apply I2.
        -- intros K. discriminate.
        -- intros r K. discriminate.
      * destruct (Z.eqb_spec task 56) as [->|N56].
        -- pose proof (step_timer d (DWait id timeout)) as ST.
           cbn [dl_step] in ST. destruct (dl_wait (d_slots d) (d_delta d) id timeout) as [[l b]|] eqn:Wt; [|discriminate].
           specialize (ST _ _ HI (conj Hid Ht) eq_refl). destruct ST as [I1 [I2 I3]]. specialize (I3 id Hid).
           cbn [tm_step d_slots d_delta out_of] in I3. rewrite Z.eqb_refl in I3.
           assert (E' : exists t2 d2 outs2, tt_run id timeout 56 (mkDelays l (d_delta d)) ops = Some (t2, d2, outs2) /\ outs = b :: outs2).
           { destruct b; destruct (tt_run id timeout 56 (mkDelays l (d_delta d)) ops) as [[[t2 d2] outs2]|]; try discriminate;
               injection E as <- <- <-; eauto. }
           destruct E' as [t2 [d2 [outs2 [R ->]]]].
           destruct (IH _ _ _ _ _ I1 Hid Ht H2 R) as [_ [J2 J3]]. cbn [d_slots d_delta] in J2, J3.
           split; [lia|]. split.
           ++ intros _ L. rewrite L in I3. injection I3 as L1 Eb. subst b. unfold tt_ready. f_equal.
              rewrite (J3 timeout eq_refl (eq_sym L1)). now rewrite Z.sub_diag.
           ++ intros r _ L. rewrite L in I3. rewrite tt_count_cons.
              destruct (Z.leb_spec r (d_delta d)) as [G|G].
              ** injection I3 as L1 Eb. subst b. assert (timeout <=? timeout - r + d_delta d = true) as -> by lia.
                 f_equal. now apply J2.
              ** injection I3 as L1 Eb. subst b. assert (timeout <=? timeout - r + d_delta d = false) as -> by lia.
                 f_equal. rewrite (J3 _ eq_refl (eq_sym L1)). f_equal. lia.
        -- split; [lia|]. split; lia.
    + cbn [dl_step] in E. cbn [exec_deltas].
      assert (I1 : dinv (mkDelays (d_slots d) x)) by (split; [exact (proj1 HI)|exact H1]).
      exact (IH _ _ _ _ _ I1 Hid Ht H2 E).
    + destruct (dl_step d o) as [[d1 b]|] eqn:E1; [|discriminate].
      destruct (tt_other_keep id d o d1 b HI Hid H1 E1) as [I1 [I2 I3]].
      cbn [exec_deltas]. pose proof (IH _ _ _ _ _ I1 Hid Ht H2 E) as R. unfold tt_state in *. rewrite I2, I3 in R. exact R.
Qed.

Lemma timeout_task_l : forall n pre d outs0 id timeout ops task' d' outs,
  Forall dl_ok pre -> dl_run (dl_init n) pre = Some (d, outs0) -> dl_waiting (d_slots d) id = false ->
  0 < id < 65536 -> 0 <= timeout < 4294967296 -> Forall (tt_ok id) ops ->
  tt_run id timeout 0 d ops = Some (task', d', outs) ->
  outs = tt_due timeout (exec_deltas (d_delta d) ops).
Proof.
  intros n pre d outs0 id timeout ops task' d' outs Hp Ep Hw Hid Ht Hok E.
  destruct (run_timer pre _ _ _ (init_inv n) Hp Ep) as [I0 _].
  destruct (tt_run_l _ _ _ _ _ _ _ _ I0 Hid Ht Hok E) as [H _]. apply H; [reflexivity|].
  rewrite waiting_lookup in Hw. destruct (lookup_id (d_slots d) id); [discriminate|reflexivity].
Qed.

(** Meaning of [tt_due]: between the Execute after a firing (or the second one) and the next
    firing the deltas reach the timeout for the first time at the firing. *)
Lemma tt_count_len : forall timeout ds acc, length (tt_count timeout acc ds) = length ds.
Proof.
  intros timeout ds. remember (length ds) as n eqn:En. revert ds En.
  induction n as [n IH] using (well_founded_induction lt_wf). intros ds -> acc. destruct ds as [|x ds]; [reflexivity|].
  rewrite tt_count_cons. destruct (timeout <=? acc + x); cbn [length].
  - f_equal. destruct ds as [|y ds]; [reflexivity|]. cbn [tt_ready length]. f_equal. apply (IH (length ds)); cbn [length]; auto; lia.
  - f_equal. apply (IH (length ds)); cbn [length]; auto.
Qed.

Lemma tt_count_first : forall timeout ds acc k, (k < length ds)%nat ->
  (forall i, (i < k)%nat -> nth i (tt_count timeout acc ds) true = false) ->
  nth k (tt_count timeout acc ds) false = (timeout <=? acc + sumZ (firstn (S k) ds)) /\
  (nth k (tt_count timeout acc ds) false = true ->
   skipn (S k) (tt_count timeout acc ds) = tt_ready timeout (skipn (S k) ds)).
Proof.
  intros timeout ds. induction ds as [|x ds IH]; intros acc k Hk Hf; [cbn in Hk; lia|].
  rewrite tt_count_cons in *. rewrite firstn_cons, sumZ_cons. destruct (Z.leb_spec timeout (acc + x)) as [G|G].
  - destruct k as [|k].
    + cbn [nth firstn sumZ fold_right skipn]. split; [symmetry; lia|]. reflexivity.
    + specialize (Hf O ltac:(lia)). discriminate.
  - destruct k as [|k].
    + cbn [nth firstn sumZ fold_right]. split; [symmetry; lia|]. discriminate.
    + cbn [nth skipn]. destruct (IH (acc + x) k) as [I1 I2].
      * cbn [length] in Hk. lia.
      * intros i Hi. exact (Hf (S i) ltac:(lia)).
      * split; [rewrite I1; f_equal; lia|exact I2].
Qed.

Lemma tt_due_meaning : forall timeout x ds k, (k < length (tl ds))%nat ->
  let due := tt_due timeout (x :: ds) in
  length due = S (length ds) /\ nth 0 due true = false /\ nth 1 due true = false /\
  ((forall i, (i < k)%nat -> nth (2 + i) due true = false) ->
   nth (2 + k) due false = (timeout <=? sumZ (firstn (S k) (tl ds))) /\
   (nth (2 + k) due false = true -> skipn (2 + k) due = true :: tl (tt_due timeout (skipn (2 + k) (x :: ds))))).
Proof.
  intros timeout x ds k Hk. destruct ds as [|y ds]; cbn [tl length] in *; [lia|]. cbn zeta. cbn [tt_due].
  split; [cbn [length]; now rewrite tt_count_len|]. split; [reflexivity|]. split; [reflexivity|].
  intros Hf. cbn [Nat.add nth] in *. destruct (tt_count_first timeout ds 0 k Hk Hf) as [H1 H2].
  split; [exact H1|]. intros T. specialize (H2 T). rewrite !skipn_cons.
  assert (D : forall (l : list Z) n, (n < length l)%nat -> exists z, skipn n l = z :: skipn (S n) l).
  { clear. intros l. induction l as [|a l IH]; intros n Hn; cbn [length] in Hn; [lia|]. destruct n as [|n]; [eexists; reflexivity|].
    rewrite !skipn_cons. apply IH. lia. }
  destruct (D ds k Hk) as [z Z1]. rewrite Z1. rewrite tt_due_ready. cbn [tl]. rewrite <- H2.
  pose proof (tt_count_len timeout ds 0) as LL. revert T Hk LL. generalize (tt_count timeout 0 ds). clear. intros l.
  revert ds k. induction l as [|b l IH]; intros ds k T Hk LL; cbn [length] in LL; [lia|].
  destruct k as [|k]; cbn [nth] in T; [now subst b|]. destruct ds as [|y ds]; [cbn [length] in Hk; lia|].
  rewrite !skipn_cons. cbn [length] in *. apply (IH ds k); auto; lia.
Qed.

(** The expanded Execute is the machine's behaviour on the body of the source. *)
Lemma tt_machine_l : forall id timeout task d task' d' r fired, task = 0 \/ task = 56 ->
  tt_execute id timeout task d = Some (task', d', r, fired) ->
  exists n tr, task_run tt_act (tt_cond id timeout) n tt_body (Idle task (Some d) [fun w => w])
      = Some (tr, Idle task' (Some d') []) /\
    returns tr = [r] /\ performed tr = (if fired then [tt] else []).
Proof.
  intros id timeout task d task' d' r fired [->| ->] E; unfold tt_execute in E.
  - change (0 =? 0) with true in E. cbv iota in E. injection E as <- <- <- <-.
    exists 4%nat. eexists. cbn. split; [reflexivity|]. split; reflexivity.
  - change (56 =? 0) with false in E. change (56 =? 56) with true in E. cbv iota in E.
    destruct (dl_wait (d_slots d) (d_delta d) id timeout) as [[l b]|] eqn:Wt; [|discriminate].
    destruct b; injection E as <- <- <- <-.
    + exists 5%nat. eexists. cbn. rewrite Wt. cbn. split; [reflexivity|]. split; reflexivity.
    + exists 5%nat. eexists. cbn. rewrite Wt. cbn. split; [reflexivity|]. split; reflexivity.
Qed.
