(** Properties of tasks and TimeoutTask. *)
Require Import ZArith List Bool Lia.
Import ListNotations.
From Verif Require Import Base TimeModel TimeSpec TaskModel TaskSpec TaskProofs.
Open Scope Z_scope.

(** C25.  Called repeatedly, a task method (which remembers only a line number) does exactly what
    its body would do as a sequential program whose pauses block until the next call: same actions,
    same tests, same answers, same memory, for every body and whatever happens between the calls. *)
Theorem task_resumes : forall (A E W : Type) (act : A -> W -> W) (cond : E -> W -> bool * W) (prog : cmd A E),
  labels_ok prog -> forall env w later tr w1,
  (exists n L, task_run act cond n prog (Idle 0 w (env :: later)) = Some (tr, Idle L w1 [])) <->
  forever act cond prog (env w) later tr w1.
Proof. exact task_iff. Qed.
Print Assumptions task_resumes.

(** The specification determines what is observed, and every call gets exactly one answer. *)
Theorem task_spec_deterministic : forall (A E W : Type) (act : A -> W -> W) (cond : E -> W -> bool * W) (prog : cmd A E),
  labels_ok prog -> forall w later t1 w1 t2 w2,
  forever act cond prog w later t1 w1 -> forever act cond prog w later t2 w2 -> t1 = t2 /\ w1 = w2.
Proof. exact forever_unique. Qed.
Print Assumptions task_spec_deterministic.

Theorem task_one_answer_per_call : forall (A E W : Type) (act : A -> W -> W) (cond : E -> W -> bool * W) (prog : cmd A E),
  forall w later t w1, forever act cond prog w later t w1 -> length (returns t) = S (length later).
Proof. exact forever_returns. Qed.
Print Assumptions task_one_answer_per_call.

(** C25 for straight-line bodies: the actions performed are the body's actions in order, as many
    whole rounds as calls answered false, then a prefix. *)
Theorem task_straight_line : forall (A E W : Type) (act : A -> W -> W) (cond : E -> W -> bool * W) (prog : cmd A E),
  straight prog = true -> forall w later t w1, forever act cond prog w later t w1 ->
  exists p q, actions prog = p ++ q /\
    performed t = concat (repeat (actions prog) (count_occ bool_dec (returns t) false)) ++ p.
Proof. exact straight_forever. Qed.
Print Assumptions task_straight_line.

(** C26.  OnTimeout is called at exactly the Executes at which it is due. *)
Theorem timeout_task_fires : forall n pre d outs0 id timeout ops task' d' outs,
  Forall dl_ok pre -> dl_run (dl_init n) pre = Some (d, outs0) -> dl_waiting (d_slots d) id = false ->
  0 < id < 65536 -> 0 <= timeout < 4294967296 -> Forall (tt_ok id) ops ->
  tt_run id timeout 0 d ops = Some (task', d', outs) ->
  outs = tt_due timeout (exec_deltas (d_delta d) ops).
Proof. exact timeout_task_l. Qed.
Print Assumptions timeout_task_fires.

(** What "due" means: not at the first two Executes; then at the first Execute where the deltas
    since reach the timeout; from a firing on, the same pattern again, the firing counting as a first
    Execute. *)
Theorem timeout_task_due : forall timeout x ds k, (k < length (tl ds))%nat ->
  let due := tt_due timeout (x :: ds) in
  length due = S (length ds) /\ nth 0 due true = false /\ nth 1 due true = false /\
  ((forall i, (i < k)%nat -> nth (2 + i) due true = false) ->
   nth (2 + k) due false = (timeout <=? sumZ (firstn (S k) (tl ds))) /\
   (nth (2 + k) due false = true -> skipn (2 + k) due = true :: tl (tt_due timeout (skipn (2 + k) (x :: ds))))).
Proof. exact tt_due_meaning. Qed.
Print Assumptions timeout_task_due.

(** The Execute of the model is the task machine run on the source's body. *)
Theorem timeout_task_is_task : forall id timeout task d task' d' r fired, task = 0 \/ task = 56 ->
  tt_execute id timeout task d = Some (task', d', r, fired) ->
  exists n tr, task_run tt_act (tt_cond id timeout) n tt_body (Idle task (Some d) [fun w => w])
      = Some (tr, Idle task' (Some d') []) /\
    returns tr = [r] /\ performed tr = (if fired then [tt] else []).
Proof. exact tt_machine_l. Qed.
Print Assumptions timeout_task_is_task.

(** Non-vacuity: a body with a loop, a branch and both kinds of pause. *)
Definition ex_act (a : Z) (w : Z) : Z := w + a.
Definition ex_cond (e : Z) (w : Z) : bool * Z := (e <=? w, w).
Definition ex_prog : cmd Z Z :=
  CSeq (CAct 1) (CSeq (CWait 11 5) (CSeq (CWhile 0 (CSeq (CYield 13 8) (CIf 20 CReturn (CAct 2)))) (CAct 100))).
Example task_example : labels_ok ex_prog /\
  exists s, task_run ex_act ex_cond 100 ex_prog (Idle 0 0 (repeat (fun w => w + 3) 9)) =
    Some ([EvAct 1; EvTest 5 false; EvPause; EvTest 5 true; EvTest 0 true; EvPause; EvTest 8 true; EvTest 20 false;
           EvAct 2; EvTest 0 true; EvPause; EvTest 8 true; EvTest 20 false; EvAct 2; EvTest 0 true; EvPause;
           EvTest 8 true; EvTest 20 true; EvEnd; EvAct 1; EvTest 5 true; EvTest 0 true; EvPause; EvTest 8 true;
           EvTest 20 true; EvEnd; EvAct 1; EvTest 5 true; EvTest 0 true; EvPause; EvTest 8 true; EvTest 20 true; EvEnd], s).
Proof.
  split.
  - split.
    + cbn. constructor; [cbn; intros [H|[]]; discriminate|]. constructor; [intros []|constructor].
    + cbn. intros [H|[H|[]]]; discriminate.
  - eexists. vm_compute. reflexivity.
Qed.
Example timeout_task_example :
  let ops := [TExecute; TUpdate 5; TExecute; TUpdate 4; TOther (DWait 3 7); TExecute; TUpdate 4; TExecute; TUpdate 4; TExecute;
              TUpdate 50; TOther (DWait 3 7); TExecute; TUpdate 10; TExecute; TExecute] in
  Forall (tt_ok 2) ops /\
  exists s, tt_run 2 10 0 (dl_init 3) ops = Some (s, [false; false; false; false; true; false; true; false]).
Proof.
  cbv zeta. split.
  - repeat (apply Forall_cons; [cbn; try exact I; lia|]). apply Forall_nil.
  - eexists. vm_compute. reflexivity.
Qed.
