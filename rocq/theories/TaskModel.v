(** Task.h, TimeoutTask.h: translated code. *)
Require Import ZArith List Bool.
Import ListNotations.
From Verif Require Import Base TimeModel.
Open Scope Z_scope.

(** ** The task macros
    A task method is a structured body between Task_Begin and Task_End.  Actions, expressions and
    the program's memory are left abstract; an expression may have side effects.  Local variables
    of the method are the subject of LocalModel.v; nested switch statements are not modelled (the macros do not support
    them). *)
Section Task.
Variables A E W : Type.
Variable act : A -> W -> W.
Variable cond : E -> W -> bool * W.

Inductive cmd :=
| CSkip
| CAct (a : A)
| CSeq (c1 c2 : cmd)
| CIf (e : E) (c1 c2 : cmd)
| CWhile (e : E) (c : cmd)
| CYield (line : Z) (e : E)    (* Task_YieldUntil(e) at source line [line] *)
| CWait (line : Z) (e : E)     (* Task_WaitUntil(e) at source line [line] *)
| CReturn.                     (* Task_Return() *)

(** What an observer sees. *)
Inductive event :=
| EvAct (a : A)
| EvTest (e : E) (b : bool)    (* an expression was evaluated, with this outcome *)
| EvPause                      (* the method returned true *)
| EvEnd.                       (* the method returned false *)

(** The [case] label of source line [line]: the expression tested there and the code that follows
    it, given the code [k] that follows [c]. *)
Fixpoint find_label (line : Z) (c : cmd) (k : list cmd) : option (E * list cmd) :=
  match c with
  | CSeq c1 c2 => match find_label line c1 (c2 :: k) with
                  | Some r => Some r
                  | None => find_label line c2 k
                  end
  | CIf _ c1 c2 => match find_label line c1 k with
                   | Some r => Some r
                   | None => find_label line c2 k
                   end
  | CWhile e b => find_label line b (CWhile e b :: k)
  | CYield l e | CWait l e => if l =? line then Some (e, k) else None
  | _ => None
  end.

(** [Run k w later]: inside a call, [k] is the code still to be executed.
    [Idle task w later]: between calls.  [later] holds what the rest of the program does to memory
    before each of the following calls. *)
Inductive config :=
| Run (k : list cmd) (w : W) (later : list (W -> W))
| Idle (task : Z) (w : W) (later : list (W -> W)).

(** One step of the method, and one call from outside. *)
Definition task_step (prog : cmd) (s : config) : option (list event * config) :=
  match s with
  | Run [] w later => Some ([EvEnd], Idle 0 w later)                      (* Task.h 68-73 *)
  | Run (c :: k) w later =>
      match c with
      | CSkip => Some ([], Run k w later)
      | CAct a => Some ([EvAct a], Run k (act a w) later)
      | CSeq c1 c2 => Some ([], Run (c1 :: c2 :: k) w later)
      | CIf e c1 c2 => let (b, w1) := cond e w in
                       Some ([EvTest e b], Run ((if b then c1 else c2) :: k) w1 later)
      | CWhile e c1 => let (b, w1) := cond e w in
                       Some ([EvTest e b], Run (if b then c1 :: CWhile e c1 :: k else k) w1 later)
      | CYield line _ => Some ([EvPause], Idle line w later)              (* Task.h 101-108, _yield_ set *)
      | CWait line e => let (b, w1) := cond e w in                        (* Task.h 79-85 *)
                        if b then Some ([EvTest e true], Run k w1 later)
                        else Some ([EvTest e false; EvPause], Idle line w1 later)
      | CReturn => Some ([EvEnd], Idle 0 w later)                         (* Task.h 91-94 *)
      end
  | Idle _ _ [] => None
  | Idle task w (env :: later) =>                                         (* Task.h 43-50: switch (_task) *)
      if task =? 0 then Some ([], Run [prog] (env w) later)
      else match find_label task prog [] with
           | None => Some ([EvEnd], Idle 0 (env w) later)
           | Some (e, k) =>                                               (* 81-85 and 104-108, _yield_ not set *)
               let (b, w1) := cond e (env w) in
               if b then Some ([EvTest e true], Run k w1 later)
               else Some ([EvTest e false; EvPause], Idle task w1 later)
           end
  end.

(** Runs until all calls have returned; [None] when [n] steps are not enough. *)
Fixpoint task_run (n : nat) (prog : cmd) (s : config) : option (list event * config) :=
  match task_step prog s with
  | None => Some ([], s)
  | Some (t, s1) =>
      match n with
      | O => None
      | S m => match task_run m prog s1 with
               | None => None
               | Some (t2, s2) => Some (t ++ t2, s2)
               end
      end
  end.

(** Source lines used as labels. *)
Fixpoint lines (c : cmd) : list Z :=
  match c with
  | CSeq c1 c2 | CIf _ c1 c2 => lines c1 ++ lines c2
  | CWhile _ c1 => lines c1
  | CYield l _ | CWait l _ => [l]
  | _ => []
  end.
End Task.

Arguments CSkip {A E}. Arguments CAct {A E}. Arguments CSeq {A E}. Arguments CIf {A E}.
Arguments CWhile {A E}. Arguments CYield {A E}. Arguments CWait {A E}. Arguments CReturn {A E}.
Arguments EvAct {A E}. Arguments EvTest {A E}. Arguments EvPause {A E}. Arguments EvEnd {A E}.
Arguments Run {A E W}. Arguments Idle {A E W}.
Arguments find_label {A E}. Arguments lines {A E}.
Arguments task_step {A E W}. Arguments task_run {A E W}.

(** ** TimeoutTask *)

(** Calls made by a program: Execute of the task, Update of the clock, other calls on Delays. *)
Inductive tt_op := TExecute | TUpdate (delta : Z) | TOther (o : dl_op).

(** TimeoutTask.h 52-60 with the macros expanded; 56 stands for the line of the Task_YieldUntil.
    Result: new _task, new delays, the value returned and whether OnTimeout was called. *)
Definition tt_execute (id timeout task : Z) (d : delays) : option (Z * delays * bool * bool) :=
  if task =? 0 then Some (56, d, true, false)
  else if task =? 56 then
    match dl_wait (d_slots d) (d_delta d) id timeout with
    | None => None
    | Some (l, true) => Some (56, mkDelays l (d_delta d), true, true)  (* OnTimeout, loop, _yield_ set *)
    | Some (l, false) => Some (56, mkDelays l (d_delta d), true, false)
    end
  else Some (0, d, false, false).

(** A history; the result lists for each Execute whether OnTimeout was called. *)
Fixpoint tt_run (id timeout task : Z) (d : delays) (ops : list tt_op) : option (Z * delays * list bool) :=
  match ops with
  | [] => Some (task, d, [])
  | TExecute :: rest =>
      match tt_execute id timeout task d with
      | None => None
      | Some (task', d', _, fired) =>
          match tt_run id timeout task' d' rest with
          | None => None
          | Some (t2, d2, outs) => Some (t2, d2, fired :: outs)
          end
      end
  | TUpdate x :: rest => match dl_step d (DUpdate x) with
                         | None => None
                         | Some (d', _) => tt_run id timeout task d' rest
                         end
  | TOther o :: rest => match dl_step d o with
                        | None => None
                        | Some (d', _) => tt_run id timeout task d' rest
                        end
  end.

(** The body of Execute as a task body (TimeoutTask.h 52-60): actions are calls of OnTimeout, the
    expressions are the constant true and the call of Wait; memory is the Delays object. *)
Inductive tt_expr := TTrue | TWait.
Definition tt_body : cmd unit tt_expr := CWhile TTrue (CSeq (CYield 56 TWait) (CAct tt)).
Definition tt_act (_ : unit) (w : option delays) : option delays := w.
Definition tt_cond (id timeout : Z) (e : tt_expr) (w : option delays) : bool * option delays :=
  match e, w with
  | TTrue, _ => (true, w)
  | TWait, None => (true, None)
  | TWait, Some d => match dl_wait (d_slots d) (d_delta d) id timeout with
                     | Some (l, b) => (b, Some (mkDelays l (d_delta d)))
                     | None => (true, None)
                     end
  end.
