(** Specification of tasks: the body as an ordinary sequential program in which a pause blocks
    until the next call.  No labels, no stored position. *)
Require Import ZArith List Bool.
Import ListNotations.
From Verif Require Import TimeModel TaskModel.
Open Scope Z_scope.

Section Spec.
Variables A E W : Type.
Variable act : A -> W -> W.
Variable cond : E -> W -> bool * W.
Notation cmd := (cmd A E).
Notation event := (event A E).

(** How a piece of program ends: normally, by returning, or blocked in a pause because no further
    call is made. *)
Inductive outcome :=
| Normal (w : W) (later : list (W -> W))
| Returned (w : W) (later : list (W -> W))
| Blocked (w : W).

(** Blocked in a pause: at each following call test [e]; go on once it holds. *)
Inductive paused (e : E) : W -> list (W -> W) -> list event -> outcome -> Prop :=
| p_blocked w : paused e w [] [] (Blocked w)
| p_go w env later w1 : cond e (env w) = (true, w1) ->
    paused e w (env :: later) [EvTest e true] (Normal w1 later)
| p_stay w env later w1 t o : cond e (env w) = (false, w1) -> paused e w1 later t o ->
    paused e w (env :: later) (EvTest e false :: EvPause :: t) o.

Inductive seq_exec : cmd -> W -> list (W -> W) -> list event -> outcome -> Prop :=
| s_skip w l : seq_exec CSkip w l [] (Normal w l)
| s_act a w l : seq_exec (CAct a) w l [EvAct a] (Normal (act a w) l)
| s_seq c1 c2 w l t1 w1 l1 t2 o :
    seq_exec c1 w l t1 (Normal w1 l1) -> seq_exec c2 w1 l1 t2 o -> seq_exec (CSeq c1 c2) w l (t1 ++ t2) o
| s_seq_stop c1 c2 w l t o :
    seq_exec c1 w l t o -> (forall w1 l1, o <> Normal w1 l1) -> seq_exec (CSeq c1 c2) w l t o
| s_if e c1 c2 w l b w1 t o : cond e w = (b, w1) ->
    seq_exec (if b then c1 else c2) w1 l t o -> seq_exec (CIf e c1 c2) w l (EvTest e b :: t) o
| s_while_end e c w l w1 : cond e w = (false, w1) ->
    seq_exec (CWhile e c) w l [EvTest e false] (Normal w1 l)
| s_while_loop e c w l w1 t1 w2 l2 t2 o : cond e w = (true, w1) ->
    seq_exec c w1 l t1 (Normal w2 l2) -> seq_exec (CWhile e c) w2 l2 t2 o ->
    seq_exec (CWhile e c) w l (EvTest e true :: t1 ++ t2) o
| s_while_stop e c w l w1 t o : cond e w = (true, w1) ->
    seq_exec c w1 l t o -> (forall w2 l2, o <> Normal w2 l2) ->
    seq_exec (CWhile e c) w l (EvTest e true :: t) o
| s_yield line e w l t o : paused e w l t o -> seq_exec (CYield line e) w l (EvPause :: t) o
| s_wait_go line e w l w1 : cond e w = (true, w1) ->
    seq_exec (CWait line e) w l [EvTest e true] (Normal w1 l)
| s_wait line e w l w1 t o : cond e w = (false, w1) -> paused e w1 l t o ->
    seq_exec (CWait line e) w l (EvTest e false :: EvPause :: t) o
| s_return w l : seq_exec CReturn w l [] (Returned w l).

(** The body again and again, each time from the beginning; a finished body answers false. *)
Inductive forever (prog : cmd) : W -> list (W -> W) -> list event -> W -> Prop :=
| f_blocked w l t w1 : seq_exec prog w l t (Blocked w1) -> forever prog w l t w1
| f_last w l t o w1 : seq_exec prog w l t o -> o = Normal w1 [] \/ o = Returned w1 [] ->
    forever prog w l (t ++ [EvEnd]) w1
| f_again w l t o w1 env l1 t2 w2 : seq_exec prog w l t o ->
    o = Normal w1 (env :: l1) \/ o = Returned w1 (env :: l1) ->
    forever prog (env w1) l1 t2 w2 -> forever prog w l (t ++ EvEnd :: t2) w2.

(** The lines are distinct and not 0 (two equal case labels do not compile). *)
Definition labels_ok (prog : cmd) : Prop := NoDup (lines prog) /\ ~ In 0 (lines prog).

(** Straight-line bodies. *)
Fixpoint straight (c : cmd) : bool :=
  match c with
  | CSkip | CAct _ | CYield _ _ | CWait _ _ => true
  | CSeq c1 c2 => straight c1 && straight c2
  | _ => false
  end.
Fixpoint actions (c : cmd) : list A :=
  match c with
  | CAct a => [a]
  | CSeq c1 c2 => actions c1 ++ actions c2
  | _ => []
  end.
Fixpoint performed (t : list event) : list A :=
  match t with
  | [] => []
  | EvAct a :: r => a :: performed r
  | _ :: r => performed r
  end.
(** The answers of the calls, in order. *)
Fixpoint returns (t : list event) : list bool :=
  match t with
  | [] => []
  | EvPause :: r => true :: returns r
  | EvEnd :: r => false :: returns r
  | _ :: r => returns r
  end.
End Spec.
Arguments Normal {W}. Arguments Returned {W}. Arguments Blocked {W}.
Arguments paused {A E W}. Arguments seq_exec {A E W}. Arguments forever {A E W}.
Arguments labels_ok {A E}. Arguments straight {A E}. Arguments actions {A E}. Arguments performed {A E}. Arguments returns {A E}.

(** ** TimeoutTask
    From the deltas in force at each Execute to the Executes at which the timeout is due. *)
Fixpoint tt_count (timeout acc : Z) (ds : list Z) : list bool :=   (* counting, [acc] so far *)
  match ds with
  | [] => []
  | d :: r => if timeout <=? acc + d
              then true :: match r with [] => [] | _ :: r' => false :: tt_count timeout 0 r' end
              else false :: tt_count timeout (acc + d) r
  end.
Definition tt_due (timeout : Z) (ds : list Z) : list bool :=
  match ds with
  | [] => []
  | [_] => [false]
  | _ :: _ :: r => false :: false :: tt_count timeout 0 r
  end.
Fixpoint exec_deltas (delta : Z) (ops : list tt_op) : list Z :=
  match ops with
  | [] => []
  | TExecute :: r => delta :: exec_deltas delta r
  | TUpdate d :: r => exec_deltas d r
  | TOther _ :: r => exec_deltas delta r
  end.
(** The other calls are not about this task's id and do not hide an Update. *)
Definition tt_other (id : Z) (o : dl_op) : Prop :=
  match o with
  | DUpdate _ => False
  | DWait j t => 0 < j < 65536 /\ j <> id /\ 0 <= t < 4294967296
  | DAbort j | DClear j => 0 < j < 65536 /\ j <> id
  | DIsWaiting j => 0 < j < 65536
  end.
Definition tt_ok (id : Z) (o : tt_op) : Prop :=
  match o with
  | TExecute => True
  | TUpdate d => 0 <= d < 4294967296
  | TOther o => tt_other id o
  end.
