(** Properties of the task macros as C statements. *)
Require Import ZArith List Bool Lia.
Import ListNotations.
From Verif Require Import TaskModel TaskSpec MacroModel MacroSpec MacroProofs.
Open Scope Z_scope.

(** C90.  The statements the macros expand to, with a switch that jumps into them, do what the body means as a
    sequential program, provided macros under [if] and [while] stand in braces. *)
Theorem macro_task : forall (A E W : Type) (act : A -> W -> W) (cond : E -> W -> bool * W) (s : src A E),
  braced s = true -> labels_ok (meant s) -> forall env w later tr w1,
  (exists n L, m_run act cond n (method s) (MIdle 0 w (env :: later)) = Some (tr, MIdle L w1 [])) <->
  forever act cond (meant s) (env w) later tr w1.
Proof. exact macro_iff. Qed.
Print Assumptions macro_task.

(** C90, finding: a second task method sharing [_task] ends at once, doing nothing, while the first is paused,
    and the first then starts again from its beginning. *)
Theorem macro_shared_refuted : forall (A E W : Type) (act : A -> W -> W) (cond : E -> W -> bool * W) (s1 s2 : src A E) L w env,
  braced s2 = true -> In L (lines (meant s1)) -> ~ In 0 (lines (meant s1)) ->
  (forall x, In x (lines (meant s1)) -> ~ In x (lines (meant s2))) ->
  (exists n, m_run act cond n (method s2) (MIdle L w [env]) = Some ([EvEnd], MIdle 0 (env w) [])) /\
  forall env2, m_step act cond (method s1) (MIdle 0 (env w) [env2]) =
    Some ([], MRun (MSkip :: expand s1 ++ after) 0 false (env2 (env w)) []).
Proof.
  intros A E W act cond s1 s2 L w env B HL H0 HD. split.
  - apply shared_l; [exact B|intros ->; exact (H0 HL)|exact (HD L HL)].
  - intros env2. apply start_step.
Qed.
Print Assumptions macro_shared_refuted.

(** C90, finding: [if (e) Task_Return();], wherever it is reached, returns whatever [e] is; if [e] is false the
    next call resumes at the pause before. *)
Theorem macro_return_refuted : forall (A E W : Type) (act : A -> W -> W) (cond : E -> W -> bool * W) body e k task y w b w1,
  cond e w = (b, w1) ->
  exists n, m_run act cond n body (MRun (expand (SIfOne e (@SReturn A E)) ++ k) task y w []) =
    Some ([EvTest e b; EvEnd], MIdle (if b then 0 else task) w1 []).
Proof. exact unbraced_return_l. Qed.
Print Assumptions macro_return_refuted.

(** C90, finding: [if (e) Task_WaitUntil(f);] tests [f] although [e] is false, pauses, and resumes elsewhere: at the
    pause before, or at the beginning. *)
Theorem macro_wait_refuted : forall (A E W : Type) (act : A -> W -> W) (cond : E -> W -> bool * W) body e f L k task y w w1 w2,
  cond e w = (false, w1) -> cond f w1 = (false, w2) ->
  exists n, m_run act cond n body (MRun (expand (SIfOne e (@SWait A E L f)) ++ k) task y w []) =
    Some ([EvTest e false; EvTest f false; EvPause], MIdle task w2 []).
Proof. exact unbraced_wait_l. Qed.
Print Assumptions macro_wait_refuted.

(** C90, finding: [while (e) Task_YieldUntil(f);] does not return to its caller while [e] holds. *)
Theorem macro_yield_refuted : forall (A E W : Type) (act : A -> W -> W) (cond : E -> W -> bool * W) body e f L k task y w later n,
  (forall v, fst (cond e v) = true) ->
  m_run act cond n body (MRun (expand (SWhileOne e (@SYield A E L f)) ++ k) task y w later) = None.
Proof. exact unbraced_yield_l. Qed.
Print Assumptions macro_yield_refuted.

(** A body with every kind of macro, run for six calls, and the same without braces. *)
Definition mx_act (a : Z) (w : Z) : Z := w + a.
Definition mx_cond (e : Z) (w : Z) : bool * Z := (e <=? w, w).
Definition mx (unbraced : bool) : src Z Z :=
  SSeq (SAct 1) (SSeq (SWait 11 5) (SSeq (SWhile 0 (SSeq (SYield 13 8)
    (SSeq (if unbraced then SIfOne 20 SReturn else SIf 20 SReturn SSkip) (SIfOne 10 (SAct 2))))) (SAct 100))).
Example macro_demo : braced (mx false) = true /\ labels_ok (meant (mx false)) /\
  (exists s, m_run mx_act mx_cond 200 (method (mx false)) (MIdle 0 0 (repeat (fun w => w + 3) 6)) =
    Some ([EvAct 1; EvTest 5 false; EvPause; EvTest 5 true; EvTest 0 true; EvPause; EvTest 8 true; EvTest 20 false;
           EvTest 10 true; EvAct 2; EvTest 0 true; EvPause; EvTest 8 true; EvTest 20 false; EvTest 10 true; EvAct 2;
           EvTest 0 true; EvPause; EvTest 8 true; EvTest 20 true; EvEnd; EvAct 1; EvTest 5 true; EvTest 0 true; EvPause], s)) /\
  braced (mx true) = false /\
  (exists s, m_run mx_act mx_cond 200 (method (mx true)) (MIdle 0 0 (repeat (fun w => w + 3) 4)) =
    Some ([EvAct 1; EvTest 5 false; EvPause; EvTest 5 true; EvTest 0 true; EvPause; EvTest 8 true; EvTest 20 false; EvEnd;
           EvTest 8 true; EvTest 20 false; EvEnd], s)).
Proof.
  split; [reflexivity|]. split; [|split; [|split; [reflexivity|]]].
  - split.
    + cbn. constructor; [cbn; intros [H|[]]; discriminate|]. constructor; [intros []|constructor].
    + cbn. intros [H|[H|[]]]; discriminate.
  - eexists. lazy. reflexivity.
  - eexists. lazy. reflexivity.
Qed.
