(** Proofs about MacroModel.v: the expanded method simulates the task machine. *)
Require Import ZArith List Bool Lia.
Import ListNotations.
From Verif Require Import TaskModel TaskSpec TaskProofs MacroModel MacroSpec.
Open Scope Z_scope.

Section P.
Variables A E W : Type.
Variable act : A -> W -> W.
Variable cond : E -> W -> bool * W.
Notation src := (src A E).
Notation stm := (stm A E).
Notation event := (event A E).
Notation mst := (mstate A E W).

Fixpoint find_in (n : Z) (l k : list stm) : option (list stm) :=
  match l with
  | [] => None
  | c :: r => match find_case n c (r ++ k) with Some x => Some x | None => find_in n r k end
  end.
Lemma find_block : forall n l k, find_case n (MBlock l) k = find_in n l k.
Proof. intros n l k. cbn [find_case]. induction l as [|c r IH]; [reflexivity|]. cbn [find_in]. now rewrite IH. Qed.
Lemma find_in_app : forall n l1 l2 k,
  find_in n (l1 ++ l2) k = match find_in n l1 (l2 ++ k) with Some x => Some x | None => find_in n l2 k end.
Proof.
  intros n l1 l2 k. induction l1 as [|c r IH]; [reflexivity|]. cbn [app find_in]. rewrite <- app_assoc.
  destruct (find_case n c (r ++ l2 ++ k)); [reflexivity|exact IH].
Qed.

(** The expanded code that implements a stack of commands. *)
Inductive impl : list stm -> list (cmd A E) -> Prop :=
| i_end : impl after []
| i_src s m k : braced s = true -> impl m k -> impl (expand s ++ m) (meant s :: k)
| i_block l m k : impl (l ++ m) k -> impl (MBlock l :: m) k.

Lemma single_one : forall s : src, single s = true -> braced s = true ->
  expand s = [] /\ s = SSkip \/ exists c, expand s = [c].
Proof.
  induction s; cbn [single braced expand]; intros H B; try discriminate; try (right; eexists; reflexivity); [left; auto| |];
    apply andb_prop in B; destruct B as [B1 B2]; right; destruct (IHs B1 B2) as [[-> _]|[c ->]]; eexists; reflexivity.
Qed.

(** One kind of [if] after each label. *)
Definition pause_test (e : E) (c : stm) : Prop :=
  c = MIf (TYieldOr e) (MReturn true) MSkip \/ c = MIf (TNot e) (MReturn true) MSkip.
Definition found (r : option (E * list (cmd A E))) (x : option (list stm)) : Prop :=
  match r with
  | None => x = None
  | Some (e, k) => exists c m, x = Some (c :: m) /\ pause_test e c /\ impl m k
  end.

Lemma find_sim : forall L s m k, braced s = true -> impl m k -> found (find_label L (meant s) k) (find_in L (expand s) m).
Proof.
  intros L s. induction s as [|a|s1 IH1 s2 IH2|e s1 IH1 s2 IH2|e s IH|e s IH|e s IH|n e|n e|];
    intros m k B H; cbn [meant find_label expand braced] in *; try reflexivity.
  - apply andb_prop in B. destruct B as [B1 B2]. rewrite find_in_app.
    specialize (IH1 (expand s2 ++ m) (meant s2 :: k) B1 (i_src s2 m k B2 H)).
    destruct (find_label L (meant s1) (meant s2 :: k)) as [[e k']|]; cbn [found] in IH1.
    + destruct IH1 as [c [m' [-> X]]]. cbn [found]. eauto.
    + rewrite IH1. now apply IH2.
  - apply andb_prop in B. destruct B as [B1 B2]. cbn [find_in find_case app].
    change (found (match find_label L (meant s1) k with Some r => Some r | None => find_label L (meant s2) k end)
      (match match find_case L (MBlock (expand s1)) m with Some r => Some r | None => find_case L (MBlock (expand s2)) m end with
       | Some x => Some x | None => None end)).
    rewrite !find_block. specialize (IH1 m k B1 H). specialize (IH2 m k B2 H).
    destruct (find_label L (meant s1) k) as [[e1 k1]|]; cbn [found] in IH1.
    + destruct IH1 as [c [m' [-> X]]]. cbn [found]. eauto.
    + rewrite IH1. destruct (find_label L (meant s2) k) as [[e2 k2]|]; cbn [found] in *.
      * destruct IH2 as [c [m' [-> X]]]. eauto.
      * now rewrite IH2.
  - apply andb_prop in B. destruct B as [B1 B2]. specialize (IH m k B2 H).
    destruct (single_one s B1 B2) as [[Q ->]|[c Q]]; [reflexivity|]. rewrite Q in *. cbn [one find_in find_case app] in *.
    destruct (find_label L (meant s) k) as [[e1 k1]|]; cbn [found] in *.
    + destruct IH as [c' [m' [X Y]]]. destruct (find_case L c m); [|discriminate]. injection X as ->. eauto.
    + destruct (find_case L c m); [discriminate|reflexivity].
  - change (found (find_label L (meant s) (CWhile e (meant s) :: k))
      (match find_case L (MBlock (expand s)) (MWhile e (MBlock (expand s)) :: m) with Some x => Some x | None => None end)).
    rewrite find_block. specialize (IH (MWhile e (MBlock (expand s)) :: m) (CWhile e (meant s) :: k) B (i_src (SWhile e s) m k B H)).
    destruct (find_label L (meant s) (CWhile e (meant s) :: k)) as [[e1 k1]|]; cbn [found] in *.
    + destruct IH as [c' [m' [-> Y]]]. eauto.
    + now rewrite IH.
  - assert (BB : braced (SWhileOne e s) = true) by exact B. apply andb_prop in B. destruct B as [B1 B2].
    pose proof (i_src (SWhileOne e s) m k BB H) as HW. cbn [expand] in HW.
    destruct (single_one s B1 B2) as [[Q ->]|[c Q]]; [reflexivity|]. rewrite Q in *. cbn [one app] in HW.
    specialize (IH _ (CWhile e (meant s) :: k) B2 HW). cbn [one find_in find_case app] in *.
    destruct (find_label L (meant s) (CWhile e (meant s) :: k)) as [[e1 k1]|]; cbn [found] in *.
    + destruct IH as [c' [m' [X Y]]]. destruct (find_case L c (MWhile e c :: m)); [|discriminate]. injection X as ->. eauto.
    + destruct (find_case L c (MWhile e c :: m)); [discriminate|reflexivity].
  - cbn [find_in find_case app]. destruct (n =? L); [|reflexivity]. cbn [found]. do 2 eexists.
    split; [reflexivity|]. split; [left; reflexivity|exact H].
  - cbn [find_in find_case app]. destruct (n =? L); [|reflexivity]. cbn [found]. do 2 eexists.
    split; [reflexivity|]. split; [right; reflexivity|exact H].
Qed.

Variable s : src.
Hypothesis HB : braced s = true.
Notation mstep := (m_step act cond (method s)).
Notation tstep := (task_step act cond (meant s)).

Inductive steps : nat -> mst -> list event -> mst -> Prop :=
| st_0 x : steps 0 x [] x
| st_S n x t y t2 z : mstep x = Some (t, y) -> steps n y t2 z -> steps (S n) x (t ++ t2) z.

Lemma run_forward : forall j x t y, steps j x t y -> forall n r z, m_run act cond n (method s) y = Some (r, z) ->
  m_run act cond (j + n) (method s) x = Some (t ++ r, z).
Proof.
  intros j x t y H. induction H as [x|j x t y t2 z H1 H2 IH]; intros n r v Hr; [exact Hr|].
  cbn [Nat.add]. cbn [m_run]. rewrite H1, (IH n r v Hr). now rewrite app_assoc.
Qed.
Lemma run_back : forall j x t y, steps j x t y -> forall n r L w, m_run act cond n (method s) x = Some (r, MIdle L w []) ->
  exists r', (j <= n)%nat /\ m_run act cond (n - j) (method s) y = Some (r', MIdle L w []) /\ r = t ++ r'.
Proof.
  intros j x t y H. induction H as [x|j x t y t2 z H1 H2 IH]; intros n r L w Hr.
  - exists r. rewrite Nat.sub_0_r. repeat split; [lia|exact Hr].
  - destruct n as [|n]; cbn [m_run] in Hr; rewrite H1 in Hr; [discriminate|].
    destruct (m_run act cond n (method s) y) as [[r2 f]|] eqn:Er; [|discriminate]. injection Hr as <- ->.
    destruct (IH n r2 L w Er) as [r' [X [Y ->]]]. exists r'. repeat split; [lia|exact Y|apply app_assoc].
Qed.

Inductive rel : config A E W -> mst -> Prop :=
| r_run k m w l task y : impl m k -> rel (Run k w l) (MRun m task y w l)
| r_idle L w l : rel (Idle L w l) (MIdle L w l).

Fixpoint csize (c : cmd A E) : nat :=
  match c with CSeq c1 c2 => S (csize c1 + csize c2) | CIf _ c1 c2 => S (csize c1 + csize c2) | CWhile _ c1 => S (csize c1) | _ => 1%nat end.
Definition size (x : config A E W) : nat :=
  match x with Run k _ _ => list_sum (map csize k) | Idle _ _ _ => O end.

Ltac go := eapply (st_S _ _ []); [reflexivity|].

Lemma one_step : forall (x : mst) t y, mstep x = Some (t, y) -> steps 1 x t y.
Proof. intros x t y H. rewrite <- (app_nil_r t). eapply st_S; [exact H|apply st_0]. Qed.
Lemma two_steps : forall (x : mst) t1 y t2 z t, mstep x = Some (t1, y) -> mstep y = Some (t2, z) -> t = t1 ++ t2 -> steps 2 x t z.
Proof. intros x t1 y t2 z t H1 H2 ->. eapply st_S; [exact H1|]. now apply one_step. Qed.

(** One step of the task machine is some steps of the expanded code; none only if the stack shrinks. *)
Lemma sim_run : forall m k, impl m k -> forall w l task y t c, tstep (Run k w l) = Some (t, c) ->
  exists j z, steps j (MRun m task y w l) t z /\ rel c z /\ (j = O -> size c < size (Run k w l))%nat.
Proof.
  intros m k H. induction H as [|s0 m k B H IH|b m k H IH]; intros w l task y t c Ht.
  - injection Ht as <- <-. exists 2%nat, (MIdle 0 w l).
    split; [eapply two_steps; reflexivity|]. split; [constructor|discriminate].
  - destruct s0 as [|a|s1 s2|e s1 s2|e s1|e s1|e s1|n e|n e|]; cbn [meant task_step] in Ht; cbn [expand app].
    + injection Ht as <- <-. exists O, (MRun m task y w l). split; [apply st_0|]. split; [now constructor|].
      intros _. unfold size, list_sum. cbn [map fold_right meant csize]. lia.
    + injection Ht as <- <-. exists 1%nat. eexists. split; [now apply one_step|]. split; [now constructor|discriminate].
    + injection Ht as <- <-. exists O. eexists. split; [apply st_0|]. cbn [braced] in B. apply andb_prop in B. destruct B as [B1 B2].
      split; [rewrite <- app_assoc; now repeat constructor|]. intros _. unfold size, list_sum. cbn [map fold_right meant csize]. lia.
    + destruct (cond e w) as [b w1] eqn:Ec. injection Ht as <- <-. cbn [braced] in B. apply andb_prop in B. destruct B as [B1 B2].
      exists 1%nat. eexists. split; [apply one_step; cbn [m_step m_test]; rewrite Ec; reflexivity|]. split; [|discriminate].
      constructor. destruct b; now repeat constructor.
    + destruct (cond e w) as [b w1] eqn:Ec. injection Ht as <- <-. cbn [braced] in B. apply andb_prop in B. destruct B as [B1 B2].
      destruct (single_one s1 B1 B2) as [[Q ->]|[c Q]]; rewrite Q; cbn [one app].
      * exists 2%nat. eexists. split.
        { eapply two_steps; [cbn [m_step m_test]; rewrite Ec; reflexivity|destruct b; reflexivity|symmetry; apply app_nil_r]. }
        split; [|discriminate]. constructor. destruct b; exact (i_src SSkip m k eq_refl H).
      * destruct b.
        -- exists 1%nat. eexists. split; [apply one_step; cbn [m_step m_test]; rewrite Ec; reflexivity|]. split; [|discriminate].
           constructor. change (c :: m) with ([c] ++ m). rewrite <- Q. now constructor.
        -- exists 2%nat. eexists. split.
           { eapply two_steps; [cbn [m_step m_test]; rewrite Ec; reflexivity|reflexivity|symmetry; apply app_nil_r]. }
           split; [|discriminate]. constructor. exact (i_src SSkip m k eq_refl H).
    + destruct (cond e w) as [b w1] eqn:Ec. injection Ht as <- <-. cbn [braced] in B.
      exists 1%nat. eexists. split; [apply one_step; cbn [m_step]; rewrite Ec; reflexivity|]. split; [|discriminate].
      constructor. destruct b; [|exact H]. constructor. constructor; [exact B|]. exact (i_src (SWhile e s1) m k B H).
    + assert (BB : braced (SWhileOne e s1) = true) by exact B.
      destruct (cond e w) as [b w1] eqn:Ec. injection Ht as <- <-. cbn [braced] in B. apply andb_prop in B. destruct B as [B1 B2].
      pose proof (i_src (SWhileOne e s1) m k BB H) as HW. cbn [expand] in HW.
      destruct (single_one s1 B1 B2) as [[Q ->]|[c Q]]; rewrite Q in *; cbn [one app] in *.
      * destruct b.
        -- exists 2%nat. eexists. split.
           { eapply two_steps; [cbn [m_step]; rewrite Ec; reflexivity|reflexivity|symmetry; apply app_nil_r]. }
           split; [|discriminate]. constructor. exact (i_src SSkip _ _ eq_refl HW).
        -- exists 1%nat. eexists. split; [apply one_step; cbn [m_step]; rewrite Ec; reflexivity|]. split; [|discriminate].
           now constructor.
      * exists 1%nat. eexists. split; [apply one_step; cbn [m_step]; rewrite Ec; reflexivity|]. split; [|discriminate].
        constructor. destruct b; [|exact H]. change (c :: MWhile e c :: m) with ([c] ++ MWhile e c :: m). rewrite <- Q. now constructor.
    + injection Ht as <- <-. exists 5%nat. eexists. split.
      { do 4 go. apply one_step. reflexivity. }
      split; [constructor|discriminate].
    + destruct (cond e w) as [b w1] eqn:Ec. destruct b; injection Ht as <- <-.
      * exists 4%nat. eexists. split.
        { do 2 go. eapply two_steps; [cbn [m_step m_test]; rewrite Ec; reflexivity|reflexivity|reflexivity]. }
        split; [now constructor|discriminate].
      * exists 4%nat. eexists. split.
        { do 2 go. eapply two_steps; [cbn [m_step m_test]; rewrite Ec; reflexivity|reflexivity|reflexivity]. }
        split; [constructor|discriminate].
    + injection Ht as <- <-. exists 2%nat. eexists. split; [eapply two_steps; reflexivity|]. split; [constructor|discriminate].
  - destruct (IH w l task y t c Ht) as [j [z [S1 [R1 _]]]]. exists (S j), z.
    split; [eapply (st_S _ _ []); [reflexivity|exact S1]|]. split; [exact R1|discriminate].
Qed.

Lemma sim : forall c x, rel c x -> forall t c1, tstep c = Some (t, c1) ->
  exists j z, steps j x t z /\ rel c1 z /\ (j = O -> size c1 < size c)%nat.
Proof.
  intros c x H. destruct H as [k m w l task y H|L w l]; intros t c1 Ht; [now apply sim_run with (k := k)|].
  destruct l as [|env l]; [discriminate|]. cbn [task_step] in Ht.
  destruct (L =? 0) eqn:EL.
  - injection Ht as <- <-. apply Z.eqb_eq in EL. subst L. exists 2%nat. eexists. split.
    + eapply two_steps; [cbn [m_step]; rewrite find_block; reflexivity|reflexivity|reflexivity].
    + split; [|discriminate]. constructor. constructor; [exact HB|constructor].
  - pose proof (find_sim L s after [] HB i_end) as F.
    assert (FB : find_case L (MBlock (method s)) after = find_in L (expand s) after).
    { rewrite find_block. unfold method. cbn [find_in find_case]. rewrite Z.eqb_sym, EL. reflexivity. }
    destruct (find_label L (meant s) []) as [[e k]|]; cbn [found] in F.
    + destruct F as [c [m' [X [Y Hm]]]]. destruct (cond e (env w)) as [b w1] eqn:Ec.
      assert (T : forall task, mstep (MRun (c :: m') task false (env w) l) =
        Some ([EvTest e b], MRun ((if b then MSkip else MReturn true) :: m') task false w1 l)).
      { intros task. destruct Y as [-> | ->]; cbn [m_step m_test]; rewrite Ec; destruct b; reflexivity. }
      destruct b; injection Ht as <- <-.
      * exists 3%nat. eexists. split.
        { eapply (st_S _ _ []); [cbn [m_step]; rewrite FB, X; reflexivity|].
          eapply two_steps; [apply T|reflexivity|reflexivity]. }
        split; [now constructor|discriminate].
      * exists 3%nat. eexists. split.
        { eapply (st_S _ _ []); [cbn [m_step]; rewrite FB, X; reflexivity|].
          eapply two_steps; [apply T|reflexivity|reflexivity]. }
        split; [constructor|discriminate].
    + injection Ht as <- <-. exists 3%nat. eexists. split.
      * eapply (st_S _ _ []); [cbn [m_step]; rewrite FB, F; reflexivity|]. eapply two_steps; reflexivity.
      * split; [constructor|discriminate].
Qed.

Lemma macro_forward : forall n c x tr L w, rel c x ->
  task_run act cond n (meant s) c = Some (tr, Idle L w []) -> exists n', m_run act cond n' (method s) x = Some (tr, MIdle L w []).
Proof.
  induction n as [|n IH]; intros c x tr L w R H; cbn [task_run] in H; destruct (tstep c) as [[t c1]|] eqn:E1; try discriminate.
  1,3: injection H as <- ->; inversion R; subst; exists O; reflexivity.
  destruct (task_run act cond n (meant s) c1) as [[t2 c2]|] eqn:E2; [|discriminate]. injection H as <- ->.
  destruct (sim c x R t c1 E1) as [j [z [S1 [R1 _]]]]. destruct (IH c1 z t2 L w R1 E2) as [n' Hn].
  exists (j + n')%nat. now apply run_forward with (y := z).
Qed.

Lemma run_never_stuck : forall k w l, tstep (Run k w l) <> None.
Proof.
  intros [|c k] w l; [discriminate|]. destruct c; cbn [task_step]; try discriminate;
    destruct (cond e w) as [[] ?]; discriminate.
Qed.

Lemma macro_back : forall n z c x tr L w, (size c <= z)%nat -> rel c x ->
  m_run act cond n (method s) x = Some (tr, MIdle L w []) ->
  exists n', task_run act cond n' (meant s) c = Some (tr, Idle L w []).
Proof.
  intros n. induction n as [n IHn] using (well_founded_induction Wf_nat.lt_wf).
  induction z as [|z IHz]; intros c x tr L w Hz R H.
  all: destruct (tstep c) as [[t c1]|] eqn:E1;
    [|exists O; inversion R; subst;
      [exfalso; eapply run_never_stuck; exact E1|];
      destruct l as [|env l]; [|exfalso; cbn [task_step] in E1; destruct (L0 =? 0); [discriminate|];
        destruct (find_label L0 (meant s) []) as [[e k]|]; [destruct (cond e (env w0)) as [[] ?]|]; discriminate];
      destruct n; cbn [m_run m_step] in H; injection H as <- <- <-; reflexivity].
  all: destruct (sim c x R t c1 E1) as [j [y [S1 [R1 Z1]]]]; destruct (run_back j x t y S1 n tr L w H) as [r' [J [Hr ->]]].
  all: assert (G : exists n', task_run act cond n' (meant s) c1 = Some (r', Idle L w [])).
  1: destruct j as [|j]; [exfalso; specialize (Z1 eq_refl); lia|exact (IHn (n - S j)%nat ltac:(lia) (size c1) c1 y r' L w (le_n _) R1 Hr)].
  2: destruct j as [|j]; [rewrite Nat.sub_0_r in Hr; specialize (Z1 eq_refl); exact (IHz c1 y r' L w ltac:(lia) R1 Hr)
                         |exact (IHn (n - S j)%nat ltac:(lia) (size c1) c1 y r' L w (le_n _) R1 Hr)].
  all: destruct G as [n' G]; exists (S n'); cbn [task_run]; rewrite E1, G; reflexivity.
Qed.
End P.

Lemma macro_iff : forall (A E W : Type) (act : A -> W -> W) (cond : E -> W -> bool * W) (s : src A E),
  braced s = true -> labels_ok (meant s) -> forall env w later tr w1,
  (exists n L, m_run act cond n (method s) (MIdle 0 w (env :: later)) = Some (tr, MIdle L w1 [])) <->
  forever act cond (meant s) (env w) later tr w1.
Proof.
  intros A E W act cond s B HL env w later tr w1. rewrite <- (task_iff A E W act cond (meant s) HL env w later tr w1). split.
  - intros [n [L H]]. destruct (macro_back A E W act cond s B n _ _ _ tr L w1 (le_n _) (r_idle A E W 0 w (env :: later)) H) as [n' G]. eauto.
  - intros [n [L H]]. destruct (macro_forward A E W act cond s B n _ _ tr L w1 (r_idle A E W 0 w (env :: later)) H) as [n' G]. eauto.
Qed.

Section R.
Variables A E W : Type.
Variable act : A -> W -> W.
Variable cond : E -> W -> bool * W.

Lemma shared_l : forall (s : src A E) L w env, braced s = true -> L <> 0 -> ~ In L (lines (meant s)) ->
  exists n, m_run act cond n (method s) (MIdle L w [env]) = Some ([EvEnd], MIdle 0 (env w) []).
Proof.
  intros s L w env B H0 HL.
  apply (macro_forward A E W act cond s B 1 (Idle L w [env])); [constructor|].
  cbn [task_run task_step]. destruct (Z.eqb_spec L 0); [contradiction|]. rewrite find_none by exact HL. reflexivity.
Qed.

Lemma start_step : forall (s : src A E) w env, m_step act cond (method s) (MIdle 0 w [env]) =
  Some ([], MRun (MSkip :: expand s ++ after) 0 false (env w) []).
Proof. intros s w env. cbn [m_step]. rewrite find_block. reflexivity. Qed.

Lemma unbraced_return_l : forall body e k task y w b w1, cond e w = (b, w1) ->
  exists n, m_run act cond n body (MRun (expand (SIfOne e (@SReturn A E)) ++ k) task y w []) =
    Some ([EvTest e b; EvEnd], MIdle (if b then 0 else task) w1 []).
Proof.
  intros body e k task y w b w1 H. exists 10%nat. cbn [m_run expand one app m_step m_test]. rewrite H.
  destruct b; reflexivity.
Qed.

Lemma unbraced_wait_l : forall body e f L k task y w w1 w2, cond e w = (false, w1) -> cond f w1 = (false, w2) ->
  exists n, m_run act cond n body (MRun (expand (SIfOne e (@SWait A E L f)) ++ k) task y w []) =
    Some ([EvTest e false; EvTest f false; EvPause], MIdle task w2 []).
Proof.
  intros body e f L k task y w w1 w2 H1 H2. exists 10%nat. cbn [m_run expand one app m_step m_test].
  rewrite H1. cbn [m_step m_test]. rewrite H2. reflexivity.
Qed.

Lemma unbraced_loop : forall e (body : list (stm A E)) k n task y w later, (forall v, fst (cond e v) = true) ->
  m_run act cond n body (MRun (MWhile e MYield :: k) task y w later) = None /\
  m_run act cond n body (MRun (MYield :: MWhile e MYield :: k) task y w later) = None.
Proof.
  intros e body k n. induction n as [|n IH]; intros task y w later H.
  - cbn [m_run m_step]. destruct (cond e w); split; reflexivity.
  - cbn [m_run m_step]. destruct (cond e w) as [b w1] eqn:Ec. specialize (H w) as Hb. rewrite Ec in Hb. cbn [fst] in Hb. subst b.
    split; [destruct (IH task y w1 later H) as [_ ->]; reflexivity|destruct (IH task true w later H) as [-> _]; reflexivity].
Qed.
Lemma unbraced_yield_l : forall body e f L k task y w later n, (forall v, fst (cond e v) = true) ->
  m_run act cond n body (MRun (expand (SWhileOne e (@SYield A E L f)) ++ k) task y w later) = None.
Proof. intros body e f L k task y w later n H. cbn [expand one app]. now apply unbraced_loop. Qed.
End R.
