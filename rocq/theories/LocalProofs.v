(** Proofs for C103. *)
Require Import ZArith List Bool Lia.
Import ListNotations.
From Verif Require Import TaskModel TaskSpec MacroModel MacroSpec MacroProofs LocalModel LocalSpec.
Open Scope Z_scope.

Section Proofs.
Variable M : Type.
Variable params : list nat.
Notation lcmd := (cmd (laction M) (lexpr M)).
Notation world := (world M).

Definition agree (d : list nat) (w w' : world) : Prop := fst w = fst w' /\ forall x, In x d -> snd w x = snd w' x.
Definition calls_alike (f f' : world -> world) : Prop := forall w w', fst w = fst w' -> agree params (f w) (f' w').

Lemma in_known : forall x d, existsb (Nat.eqb x) d = true <-> In x d.
Proof.
  intros x d. rewrite existsb_exists. split.
  - intros [y [I E]]. apply Nat.eqb_eq in E. subst y. exact I.
  - intros I. exists x. split; [exact I|apply Nat.eqb_refl].
Qed.
Lemma known_in : forall l d, known l d = true -> incl l d.
Proof. intros l d K x I. unfold known in K. rewrite forallb_forall in K. apply in_known, K, I. Qed.
Lemma agree_sub : forall d d' w w', incl d d' -> agree d' w w' -> agree d w w'.
Proof. intros d d' w w' I [A B]. split; [exact A|]. intros x X. apply B, I, X. Qed.
Lemma agree_reads : forall l d w w', incl l d -> agree d w w' -> map (snd w) l = map (snd w') l.
Proof. intros l d w w' I [_ B]. apply map_ext_in. intros x X. apply B, I, X. Qed.
Lemma act_alike : forall a d w w', incl (a_reads a) d -> agree d w w' ->
  agree (match a_sets a with Some x => x :: d | None => d end) (l_act a w) (l_act a w').
Proof.
  intros a d w w' I G. unfold l_act. rewrite <- (agree_reads _ _ _ _ I G). destruct G as [A B]. rewrite <- A.
  destruct (a_does a (map (snd w) (a_reads a)) (fst w)) as [v m]. split; [reflexivity|]. cbn [fst snd].
  destruct (a_sets a) as [x|]; [|exact B]. intros y [Y|Y]; unfold set_var; destruct (Nat.eqb y x) eqn:E; try reflexivity.
  - subst y. rewrite Nat.eqb_refl in E. discriminate.
  - apply B, Y.
Qed.
Lemma cond_alike : forall e d w w' b w1, incl (e_reads e) d -> agree d w w' -> l_cond e w = (b, w1) ->
  exists w1', l_cond e w' = (b, w1') /\ agree d w1 w1'.
Proof.
  intros e d w w' b w1 I G C. unfold l_cond in *. rewrite <- (agree_reads _ _ _ _ I G). destruct G as [A B]. rewrite <- A.
  destruct (e_does e (map (snd w) (e_reads e)) (fst w)) as [b0 m]. inversion C; subst b0 w1. eexists. split; [reflexivity|]. split; [reflexivity|exact B].
Qed.

Lemma grows : forall (c : lcmd) d d', incl params d -> sure params d c = Some d' -> incl params d' /\ (pauses c = false -> incl d d').
Proof.
  induction c as [|a|c1 IH1 c2 IH2|e c1 IH1 c2 IH2|e c1 IH1|line e|line e|]; intros d d' P E; cbn [sure pauses] in *.
  - inversion E; subst. split; [exact P|intros _ x X; exact X].
  - destruct (known _ d); [|discriminate]. inversion E; subst. destruct (a_sets a); split; try (intros _); intros x X; try right; auto.
  - destruct (sure params d c1) as [d1|] eqn:E1; [|discriminate]. destruct (IH1 _ _ P E1) as [P1 Q1]. destruct (IH2 _ _ P1 E) as [P2 Q2].
    split; [exact P2|]. intros H. apply orb_false_iff in H as [H1 H2]. intros x X. apply Q2, Q1, X; assumption.
  - destruct (known _ d); [|discriminate]. destruct (sure params d c1) as [d1|] eqn:E1; [|discriminate]. destruct (sure params d c2) as [d2|] eqn:E2; [|discriminate].
    inversion E; subst d'. destruct (IH1 _ _ P E1) as [P1 Q1]. destruct (IH2 _ _ P E2) as [P2 Q2].
    split; [intros x X; apply filter_In; exact (conj (P1 x X) (proj2 (in_known x d2) (P2 x X)))|].
    intros H. apply orb_false_iff in H as [H1 H2]. intros x X. apply filter_In. exact (conj (Q1 H1 x X) (proj2 (in_known x d2) (Q2 H2 x X))).
  - destruct (known _ _); [|discriminate]. destruct (sure _ _ c1); [|discriminate]. inversion E; subst d'.
    destruct (pauses c1); split; try discriminate; try exact P; intros; intros x X; exact X.
  - destruct (known _ _); [|discriminate]. inversion E; subst. split; [intros x X; exact X|discriminate].
  - destruct (known _ _); [|discriminate]. inversion E; subst. split; [intros x X; exact X|discriminate].
  - inversion E; subst. split; [exact P|intros _ x X; exact X].
Qed.

Definition same_end (d : list nat) (o o' : outcome world) : Prop :=
  match o, o' with
  | Normal w l, Normal w' l' => agree d w w' /\ Forall2 calls_alike l l'
  | Returned w l, Returned w' l' => fst w = fst w' /\ Forall2 calls_alike l l'
  | Blocked w, Blocked w' => fst w = fst w'
  | _, _ => False
  end.
Lemma same_end_sub : forall d d' o o', incl d d' -> same_end d' o o' -> same_end d o o'.
Proof. intros d d' [w l|w l|w] [w' l'|w' l'|w'] I H; cbn [same_end] in *; try exact H. destruct H as [H1 H2]. split; [exact (agree_sub _ _ _ _ I H1)|exact H2]. Qed.
Lemma not_normal : forall d o o', same_end d o o' -> (forall w l, o <> Normal w l) -> forall w l, o' <> Normal w l.
Proof. intros d o o' S N w l ->. destruct o as [w1 l1|w1 l1|w1]; cbn [same_end] in S; try contradiction. exact (N w1 l1 eq_refl). Qed.

Lemma paused_alike : forall e w l (t : list (event (laction M) (lexpr M))) o, paused l_cond e w l t o -> incl (e_reads e) params ->
  forall w' l', fst w = fst w' -> Forall2 calls_alike l l' ->
  exists o', paused l_cond e w' l' t o' /\ same_end params o o'.
Proof.
  intros e w l t o H I. induction H as [w|w env l w1 C|w env l w1 t o C H IH]; intros w' l' A F.
  - inversion F; subst. exists (Blocked w'). split; [constructor|exact A].
  - inversion F as [|? env' ? l2 G F2]; subst. destruct (cond_alike e params _ (env' w') _ _ I (G _ _ A) C) as [w1' [C' G']].
    exists (Normal w1' l2). split; [apply p_go; exact C'|]. split; assumption.
  - inversion F as [|? env' ? l2 G F2]; subst. destruct (cond_alike e params _ (env' w') _ _ I (G _ _ A) C) as [w1' [C' G']].
    destruct (IH w1' l2 (proj1 G') F2) as [o' [H' S']]. exists o'. split; [eapply p_stay; eassumption|exact S'].
Qed.

Lemma exec_alike : forall (c : lcmd) w l t o, seq_exec l_act l_cond c w l t o -> forall d d', incl params d -> sure params d c = Some d' ->
  forall w' l', agree d w w' -> Forall2 calls_alike l l' ->
  exists o', seq_exec l_act l_cond c w' l' t o' /\ same_end d' o o'.
Proof.
  intros c w l t o H. induction H as [w l|a w l|c1 c2 w l t1 w1 l1 t2 o H1 IH1 H2 IH2|c1 c2 w l t o H1 IH1 N|e c1 c2 w l b w1 t o C H1 IH1
    |e c w l w1 C|e c w l w1 t1 w2 l2 t2 o C H1 IH1 H2 IH2|e c w l w1 t o C H1 IH1 N|line e w l t o H1|line e w l w1 C|line e w l w1 t o C H1|w l];
    intros d d' P E w' l' G F; cbn [sure] in E.
  - inversion E; subst d'. exists (Normal w' l'). split; [constructor|split; assumption].
  - destruct (known _ d) eqn:K; [|discriminate]. inversion E; subst d'. exists (Normal (l_act a w') l'). split; [constructor|].
    split; [apply act_alike; [apply known_in; exact K|exact G]|exact F].
  - destruct (sure params d c1) as [d1|] eqn:E1; [|discriminate]. destruct (IH1 d d1 P E1 w' l' G F) as [o1 [H1' S1]].
    destruct o1 as [w1' l1'|w1' l1'|w1']; cbn [same_end] in S1; try contradiction. destruct S1 as [G1 F1].
    destruct (IH2 d1 d' (proj1 (grows _ _ _ P E1)) E w1' l1' G1 F1) as [o2 [H2' S2]]. exists o2. split; [eapply s_seq; eassumption|exact S2].
  - destruct (sure params d c1) as [d1|] eqn:E1; [|discriminate]. destruct (IH1 d d1 P E1 w' l' G F) as [o1 [H1' S1]].
    exists o1. split; [apply s_seq_stop; [exact H1'|exact (not_normal _ _ _ S1 N)]|].
    destruct o as [w1 l1|w1 l1|w1]; [exfalso; exact (N _ _ eq_refl)| |]; destruct o1 as [w1' l1'|w1' l1'|w1']; cbn [same_end] in *; try contradiction; exact S1.
  - destruct (known (e_reads e) d) eqn:K; [|discriminate]. destruct (sure params d c1) as [d1|] eqn:E1; [|discriminate]. destruct (sure params d c2) as [d2|] eqn:E2; [|discriminate].
    inversion E; subst d'. destruct (cond_alike e d w w' _ _ (known_in _ _ K) G C) as [w1' [C' G1]].
    assert (X : exists o', seq_exec l_act l_cond (if b then c1 else c2) w1' l' t o' /\ same_end (if b then d1 else d2) o o') by (destruct b; apply (IH1 d _ P); assumption).
    destruct X as [o' [H' S']]. exists o'. split; [eapply s_if; eassumption|].
    apply (same_end_sub _ (if b then d1 else d2)); [|exact S']. intros x X. apply filter_In in X as [X1 X2]. destruct b; [exact X1|apply in_known; exact X2].
  - set (dl := if pauses c then params else d) in *. destruct (known (e_reads e) dl) eqn:K; [|discriminate]. destruct (sure params dl c) as [d2|] eqn:E2; [|discriminate].
    inversion E; subst d'. assert (L : incl dl d) by (unfold dl; destruct (pauses c); [exact P|intros x X; exact X]).
    destruct (cond_alike e dl w w' _ _ (known_in _ _ K) (agree_sub _ _ _ _ L G) C) as [w1' [C' G1]]. exists (Normal w1' l'). split; [constructor; exact C'|split; assumption].
  - assert (E0 := E). set (dl := if pauses c then params else d) in *. destruct (known (e_reads e) dl) eqn:K; [|discriminate]. destruct (sure params dl c) as [d2|] eqn:E2; [|discriminate].
    inversion E; subst d'. assert (L : incl dl d) by (unfold dl; destruct (pauses c); [exact P|intros x X; exact X]).
    assert (PL : incl params dl) by (unfold dl; destruct (pauses c); [intros x X; exact X|exact P]).
    destruct (cond_alike e dl w w' _ _ (known_in _ _ K) (agree_sub _ _ _ _ L G) C) as [w1' [C' G1]].
    destruct (IH1 dl d2 PL E2 w1' l' G1 F) as [o1 [H1' S1]]. destruct o1 as [w2' l2'|w2' l2'|w2']; cbn [same_end] in S1; try contradiction. destruct S1 as [G2 F2].
    destruct (grows _ _ _ PL E2) as [Q1 Q2].
    assert (LD : incl dl d2) by (unfold dl in *; destruct (pauses c); [exact Q1|exact (Q2 eq_refl)]).
    assert (EL : sure params dl (CWhile e c) = Some dl).
    { cbn [sure]. replace (if pauses c then params else dl) with dl by (unfold dl; destruct (pauses c); reflexivity). rewrite K, E2. reflexivity. }
    destruct (IH2 dl dl PL EL w2' l2' (agree_sub _ _ _ _ LD G2) F2) as [o2 [H2' S2]]. exists o2. split; [eapply s_while_loop; eassumption|exact S2].
  - set (dl := if pauses c then params else d) in *. destruct (known (e_reads e) dl) eqn:K; [|discriminate]. destruct (sure params dl c) as [d2|] eqn:E2; [|discriminate].
    inversion E; subst d'. assert (L : incl dl d) by (unfold dl; destruct (pauses c); [exact P|intros x X; exact X]).
    assert (PL : incl params dl) by (unfold dl; destruct (pauses c); [intros x X; exact X|exact P]).
    destruct (cond_alike e dl w w' _ _ (known_in _ _ K) (agree_sub _ _ _ _ L G) C) as [w1' [C' G1]].
    destruct (IH1 dl d2 PL E2 w1' l' G1 F) as [o1 [H1' S1]]. exists o1. split; [eapply s_while_stop; [exact C'|exact H1'|exact (not_normal _ _ _ S1 N)]|].
    destruct o as [w3 l3|w3 l3|w3]; [exfalso; exact (N _ _ eq_refl)| |]; destruct o1 as [w3' l3'|w3' l3'|w3']; cbn [same_end] in *; try contradiction; exact S1.
  - destruct (known (e_reads e) params) eqn:K; [|discriminate]. inversion E; subst d'.
    destruct (paused_alike e w l t o H1 (known_in _ _ K) w' l' (proj1 G) F) as [o' [H' S']]. exists o'. split; [constructor; exact H'|exact S'].
  - destruct (known (e_reads e) params) eqn:K; [|discriminate]. inversion E; subst d'.
    destruct (cond_alike e params w w' _ _ (known_in _ _ K) (agree_sub _ _ _ _ P G) C) as [w1' [C' G1]]. exists (Normal w1' l'). split; [apply s_wait_go; exact C'|split; assumption].
  - destruct (known (e_reads e) params) eqn:K; [|discriminate]. inversion E; subst d'.
    destruct (cond_alike e params w w' _ _ (known_in _ _ K) (agree_sub _ _ _ _ P G) C) as [w1' [C' G1]].
    destruct (paused_alike e w1 l t o H1 (known_in _ _ K) w1' l' (proj1 G1) F) as [o' [H' S']]. exists o'. split; [eapply s_wait; eassumption|exact S'].
  - exists (Returned w' l'). split; [constructor|split; [exact (proj1 G)|exact F]].
Qed.

Lemma forever_alike : forall (c : lcmd) w l t w1, forever l_act l_cond c w l t w1 -> careful params c = true ->
  forall w' l', agree params w w' -> Forall2 calls_alike l l' ->
  exists w1', forever l_act l_cond c w' l' t w1' /\ fst w1 = fst w1'.
Proof.
  intros c w l t w1 H K. unfold careful in K. destruct (sure params params c) as [d|] eqn:E; [clear K|discriminate].
  assert (X : forall w l t o w' l', seq_exec l_act l_cond c w l t o -> agree params w w' -> Forall2 calls_alike l l' ->
    exists o', seq_exec l_act l_cond c w' l' t o' /\ same_end d o o').
  { intros w0 l0 t0 o w' l' HE G F. exact (exec_alike c w0 l0 t0 o HE params d (fun x X => X) E w' l' G F). }
  induction H as [w l t w1 H|w l t o w1 H O|w l t o w1 env l1 t2 w2 H O H2 IH]; intros w' l' G F; destruct (X _ _ _ _ w' l' H G F) as [o' [H' S']].
  - destruct o' as [w1' l1'|w1' l1'|w1']; cbn [same_end] in S'; try contradiction. exists w1'. split; [apply f_blocked; exact H'|exact S'].
  - destruct O as [-> | ->]; destruct o' as [w1' l1'|w1' l1'|w1']; cbn [same_end] in S'; try contradiction; destruct S' as [S1 S2]; inversion S2; subst; exists w1'.
    + split; [eapply f_last; [exact H'|left; reflexivity]|exact (proj1 S1)].
    + split; [eapply f_last; [exact H'|right; reflexivity]|exact S1].
  - assert (Y : exists w1' env' l1', (o' = Normal w1' (env' :: l1') \/ o' = Returned w1' (env' :: l1')) /\ fst w1 = fst w1' /\ calls_alike env env' /\ Forall2 calls_alike l1 l1').
    { destruct O as [-> | ->]; destruct o' as [w1' l1'|w1' l1'|w1']; cbn [same_end] in S'; try contradiction; destruct S' as [S1 S2]; inversion S2 as [|? env' ? l2' Q1 Q2]; subst; exists w1', env', l2'.
      - split; [left; reflexivity|]. split; [exact (proj1 S1)|]. split; assumption.
      - split; [right; reflexivity|]. split; [exact S1|]. split; assumption. }
    destruct Y as (w1' & env' & l1' & O' & S1 & Q1 & Q2). destruct (IH (env' w1') l1' (Q1 _ _ S1) Q2) as [w2' [H2' E2]].
    exists w2'. split; [eapply f_again; eassumption|exact E2].
Qed.

Lemma enter_enter : forall (e : M -> M) (a s s' : frame), calls_alike (enter params (mkCall e a s)) (enter params (mkCall e a s')).
Proof.
  intros e a s s' w w' A. unfold enter. cbn [c_env c_args c_stack]. split; cbn [fst snd]; [rewrite A; reflexivity|].
  intros x X. unfold is_param. rewrite (proj2 (in_known x params) X). reflexivity.
Qed.
Lemma enter_resume : forall c, calls_alike (enter params c) (resume params c).
Proof.
  intros c w w' A. unfold enter, resume. split; cbn [fst snd]; [rewrite A; reflexivity|].
  intros x X. unfold is_param. rewrite (proj2 (in_known x params) X). reflexivity.
Qed.
Lemma alike_sym : forall f f', calls_alike f f' -> calls_alike f' f.
Proof. intros f f' H w w' A. destruct (H w' w (eq_sym A)) as [H1 H2]. split; [symmetry; exact H1|]. intros x X. symmetry. apply H2, X. Qed.
Lemma map_alike : forall (T : Type) (f g : T -> world -> world) l, (forall x, calls_alike (f x) (g x)) -> Forall2 calls_alike (map f l) (map g l).
Proof. intros T f g l H. induction l as [|x l IH]; constructor; auto. Qed.

Lemma fresh_l : forall s : src (laction M) (lexpr M), braced s = true -> labels_ok (meant s) -> careful params (meant s) = true ->
  forall m fr c cs tr m1,
  (exists n L fr1, m_run l_act l_cond n (method s) (MIdle 0 (m, fr) (map (enter params) (c :: cs))) = Some (tr, MIdle L (m1, fr1) [])) <->
  (exists fr1, forever l_act l_cond (meant s) (resume params c (m, fr)) (map (resume params) cs) tr (m1, fr1)).
Proof.
  intros s B LO K m fr c cs tr m1. cbn [map]. split.
  - intros (n & L & fr1 & R).
    assert (H : forever l_act l_cond (meant s) (enter params c (m, fr)) (map (enter params) cs) tr (m1, fr1)).
    { apply (macro_iff _ _ _ l_act l_cond s B LO). exists n, L. exact R. }
    destruct (forever_alike _ _ _ _ _ H K (resume params c (m, fr)) (map (resume params) cs)) as [[m1' fr1'] [H' E]].
    + apply enter_resume. reflexivity.
    + apply map_alike, enter_resume.
    + cbn [fst] in E. subst m1'. exists fr1'. exact H'.
  - intros (fr1 & H).
    destruct (forever_alike _ _ _ _ _ H K (enter params c (m, fr)) (map (enter params) cs)) as [[m1' fr1'] [H' E]].
    + apply (alike_sym _ _ (enter_resume c)). reflexivity.
    + apply map_alike. intros x. apply alike_sym, enter_resume.
    + cbn [fst] in E. subst m1'. apply (macro_iff _ _ _ l_act l_cond s B LO) in H'. destruct H' as (n & L & R). exists n, L, fr1'. exact R.
Qed.
Lemma stack_l : forall s : src (laction M) (lexpr M), braced s = true -> labels_ok (meant s) -> careful params (meant s) = true ->
  forall m fr fr' c cs cs' n L fr1 tr m1, map (fun x => (c_env x, c_args x)) (c :: cs) = map (fun x => (c_env x, c_args x)) cs' ->
  m_run l_act l_cond n (method s) (MIdle 0 (m, fr) (map (enter params) (c :: cs))) = Some (tr, MIdle L (m1, fr1) []) ->
  exists n' L' fr1', m_run l_act l_cond n' (method s) (MIdle 0 (m, fr') (map (enter params) cs')) = Some (tr, MIdle L' (m1, fr1') []).
Proof.
  intros s B LO K m fr fr' c cs [|c' cs'] n L fr1 tr m1 E R; [discriminate|]. cbn [map] in E, R.
  assert (G : forall x y : lcall M, (c_env x, c_args x) = (c_env y, c_args y) -> calls_alike (enter params x) (enter params y)).
  { intros [e a st] [e' a' st'] H. cbn [c_env c_args] in H. inversion H; subst. apply enter_enter. }
  assert (H : forever l_act l_cond (meant s) (enter params c (m, fr)) (map (enter params) cs) tr (m1, fr1)).
  { apply (macro_iff _ _ _ l_act l_cond s B LO). exists n, L. exact R. }
  inversion E as [[E1 E2 E3]].
  destruct (forever_alike _ _ _ _ _ H K (enter params c' (m, fr')) (map (enter params) cs')) as [[m1' fr1'] [H' EM]].
  - apply G; [rewrite E1, E2; reflexivity|reflexivity].
  - clear - E3 G. revert cs' E3. induction cs as [|x cs IH]; intros [|y cs'] E3; try discriminate; [constructor|]. cbn [map] in *. inversion E3 as [[X1 X2 X3]].
    constructor; [apply G; rewrite X1, X2; reflexivity|apply IH; exact X3].
  - cbn [fst] in EM. subst m1'. apply (macro_iff _ _ _ l_act l_cond s B LO) in H'. destruct H' as (n' & L' & R'). exists n', L', fr1'. exact R'.
Qed.
End Proofs.

(** ** The loop *)
Section Loop.
Variable N : Z.
Definition body := CSeq (CYield 10 always) (CSeq (CAct work) (CAct next_i)).
Definition round : list (event (laction Z) (lexpr Z)) := [EvTest (below N) true; EvPause; EvTest always true; EvAct work; EvAct next_i].
Lemma round_l : forall (w : world Z) env l t o, snd w 0%nat < N ->
  seq_exec l_act l_cond (CWhile (below N) body) (fst (env w) + 1, set_var (snd (env w)) 0 (snd (env w) 0%nat + 1)) l t o ->
  seq_exec l_act l_cond (CWhile (below N) body) w (env :: l) (round ++ t) o.
Proof.
  intros w env l t o B H.
  assert (T : forall v : world Z, fst (l_cond (below N) v) = (snd v 0%nat <? N) /\ snd (l_cond (below N) v) = v) by (intros [m f]; split; reflexivity).
  change (round ++ t) with (EvTest (below N) true :: ([EvPause; EvTest always true] ++ [EvAct work] ++ [EvAct next_i]) ++ t).
  eapply (s_while_loop _ _ _ _ _ _ _ _ _ w).
  - rewrite (surjective_pairing (l_cond (below N) w)). destruct (T w) as [-> ->]. f_equal. apply Z.ltb_lt. exact B.
  - unfold body. eapply s_seq; [eapply s_yield, (p_go _ _ _ _ _ _ _ _ (env w)); destruct (env w); reflexivity|]. eapply s_seq; [apply s_act|apply s_act].
  - exact H.
Qed.
Lemma stop_l : forall (w : world Z) l, N <= snd w 0%nat ->
  seq_exec l_act l_cond (CWhile (below N) body) w l [EvTest (below N) false] (Normal w l).
Proof.
  intros [m f] l B. eapply s_while_end. unfold l_cond, below. cbn [e_does e_reads map fst snd]. unfold var. cbn [nth].
  replace (f 0%nat <? N) with false; [reflexivity|]. symmetry. apply Z.ltb_ge. exact B.
Qed.
Lemma hang_l : forall (w : world Z), snd w 0%nat < N -> seq_exec l_act l_cond (CWhile (below N) body) w [] [EvTest (below N) true; EvPause] (Blocked w).
Proof.
  intros [m f] B. eapply s_while_stop.
  - unfold l_cond, below. cbn [e_does e_reads map fst snd]. unfold var. cbn [nth]. replace (f 0%nat <? N) with true; [reflexivity|]. symmetry. apply Z.ltb_lt. exact B.
  - unfold body. apply s_seq_stop; [apply s_yield, p_blocked|discriminate].
  - discriminate.
Qed.
Definition zeroed (w : world Z) : world Z := (fst w, set_var (snd w) 0 0).
Lemma whole : forall w l t o, seq_exec l_act l_cond (CWhile (below N) body) (zeroed w) l t o ->
  seq_exec l_act l_cond (meant (counting N)) w l (EvAct zero_i :: t) o.
Proof. intros [m f] l t o H. change (EvAct zero_i :: t) with ([EvAct zero_i] ++ t). eapply s_seq; [apply s_act|exact H]. Qed.

Fixpoint rounds (k : nat) : list (event (laction Z) (lexpr Z)) := match k with O => [] | S k => round ++ rounds k end.
Lemma returns_rounds : forall k t, returns (rounds k ++ t) = repeat true k ++ returns t.
Proof. induction k as [|k IH]; intros t; [reflexivity|]. cbn [rounds]. rewrite <- app_assoc. cbn [app round returns repeat]. rewrite IH. reflexivity. Qed.

Lemma meant_loop : forall k (w : world Z) s, snd w 0%nat = N - Z.of_nat k -> exists w',
  seq_exec l_act l_cond (CWhile (below N) body) w (map (resume []) (repeat (plain s) k)) (rounds k ++ [EvTest (below N) false]) (Normal w' []) /\
  fst w' = fst w + Z.of_nat k.
Proof.
  induction k as [|k IH]; intros w s E.
  - exists w. split; [apply stop_l; lia|lia].
  - cbn [repeat map rounds]. rewrite <- app_assoc.
    destruct (IH (fst (resume [] (plain s) w) + 1, set_var (snd (resume [] (plain s) w)) 0 (snd (resume [] (plain s) w) 0%nat + 1)) s) as [w' [H W]].
    + cbn [snd]. unfold set_var. rewrite Nat.eqb_refl. cbn [resume snd is_param existsb]. rewrite E. lia.
    + exists w'. split; [apply round_l; [lia|exact H]|]. rewrite W. cbn [fst resume plain c_env]. lia.
Qed.
Lemma meant_l : forall k s m fr, N = Z.of_nat k -> exists tr fr1,
  forever l_act l_cond (meant (counting N)) (resume [] (plain s) (m, fr)) (map (resume []) (repeat (plain s) k)) tr (m + N, fr1) /\
  returns tr = repeat true k ++ [false].
Proof.
  intros k s m fr E. destruct (meant_loop k (zeroed (resume [] (plain s) (m, fr))) s) as [[m' fr'] [H W]].
  - cbn [zeroed snd]. unfold set_var. rewrite Nat.eqb_refl. lia.
  - cbn [fst zeroed resume plain c_env] in W. exists ((EvAct zero_i :: rounds k ++ [EvTest (below N) false]) ++ [EvEnd]), fr'. split.
    + replace (m + N) with m' by lia. eapply f_last; [apply whole; exact H|left; reflexivity].
    + cbn [app returns]. rewrite <- app_assoc, returns_rounds. reflexivity.
Qed.
Lemma endless_loop : forall k (w : world Z), 2 <= N -> snd w 0%nat = 0 \/ snd w 0%nat = 1 -> exists w',
  seq_exec l_act l_cond (CWhile (below N) body) w (map (enter []) (repeat (plain 0) k)) (rounds k ++ [EvTest (below N) true; EvPause]) (Blocked w') /\
  fst w' = fst w + Z.of_nat k.
Proof.
  induction k as [|k IH]; intros w B E.
  - exists w. split; [apply hang_l; lia|lia].
  - cbn [repeat map rounds]. rewrite <- app_assoc.
    destruct (IH (fst (enter [] (plain 0) w) + 1, set_var (snd (enter [] (plain 0) w)) 0 (snd (enter [] (plain 0) w) 0%nat + 1)) B) as [w' [H W]].
    + right. reflexivity.
    + exists w'. split; [apply round_l; [lia|exact H]|]. rewrite W. cbn [fst enter plain c_env]. lia.
Qed.
Lemma run_of : forall c cs m fr tr m1 fr1,
  forever l_act l_cond (meant (counting N)) (enter [] c (m, fr)) (map (enter []) cs) tr (m1, fr1) ->
  exists n L, m_run l_act l_cond n (method (counting N)) (MIdle 0 (m, fr) (map (enter []) (c :: cs))) = Some (tr, MIdle L (m1, fr1) []).
Proof.
  intros c cs m fr tr m1 fr1 H. apply (macro_iff _ _ _ l_act l_cond (counting N)); [reflexivity| |exact H].
  split; cbn; [repeat constructor; intros []|]. intros [X|[]]; discriminate.
Qed.
Lemma endless_l : forall k m fr, 2 <= N -> exists n L fr1 tr,
  m_run l_act l_cond n (method (counting N)) (MIdle 0 (m, fr) (map (enter []) (repeat (plain 0) (S k)))) = Some (tr, MIdle L (m + Z.of_nat k, fr1) []) /\
  returns tr = repeat true (S k).
Proof.
  intros k m fr B. destruct (endless_loop k (zeroed (enter [] (plain 0) (m, fr))) B) as [[m' fr'] [H W]].
  - left. reflexivity.
  - cbn [fst zeroed enter plain c_env] in W. subst m'.
    destruct (run_of (plain 0) (repeat (plain 0) k) m fr (EvAct zero_i :: rounds k ++ [EvTest (below N) true; EvPause]) (m + Z.of_nat k) fr') as (n & L & R).
    + eapply f_blocked, whole. exact H.
    + exists n, L, fr', (EvAct zero_i :: rounds k ++ [EvTest (below N) true; EvPause]). split; [exact R|].
      cbn [returns]. rewrite returns_rounds. cbn [returns]. change [true] with (repeat true 1). rewrite <- repeat_app. f_equal. lia.
Qed.
Lemma early_l : forall m fr, 1 <= N -> exists n L fr1 tr,
  m_run l_act l_cond n (method (counting N)) (MIdle 0 (m, fr) (map (enter []) [plain N; plain N])) = Some (tr, MIdle L (m + 1, fr1) []) /\
  returns tr = [true; false].
Proof.
  intros m fr B.
  destruct (run_of (plain N) [plain N] m fr ((EvAct zero_i :: round ++ [EvTest (below N) false]) ++ [EvEnd]) (m + 1) (set_var (fun _ => N) 0 (N + 1))) as (n & L & R).
  - eapply f_last; [|left; reflexivity]. apply whole. cbn [map]. apply round_l.
    + cbn. lia.
    + cbn [fst snd zeroed enter plain c_env]. eapply stop_l. cbn. lia.
  - exists n, L, (set_var (fun _ => N) 0 (N + 1)), ((EvAct zero_i :: round ++ [EvTest (below N) false]) ++ [EvEnd]). split; [exact R|reflexivity].
Qed.
End Loop.
