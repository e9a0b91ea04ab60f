(** Task.h with the macros expanded: TaskModel.v gives their meaning, here they become C statements, and the
    [switch] jumps to a label among these.  Statements are executed in source order whatever the macros meant. *)
Require Import ZArith List Bool.
Import ListNotations.
From Verif Require Import TaskModel.
Open Scope Z_scope.

Section Macro.
Variables A E W : Type.
Variable act : A -> W -> W.
Variable cond : E -> W -> bool * W.

(** A task method as its author writes it.  Bodies of [SIf] and [SWhile] stand in braces; [SIfOne] and
    [SWhileOne] are [if (e)] and [while (e)] followed by one unbraced statement or macro. *)
Inductive src :=
| SSkip
| SAct (a : A)
| SSeq (s1 s2 : src)
| SIf (e : E) (s1 s2 : src)
| SIfOne (e : E) (s : src)
| SWhile (e : E) (s : src)
| SWhileOne (e : E) (s : src)
| SYield (line : Z) (e : E)
| SWait (line : Z) (e : E)
| SReturn.

(** The conditions and statements that come out of the preprocessor. *)
Inductive test := TPlain (e : E) | TNot (e : E) | TYieldOr (e : E).   (* e;  !(e);  _yield_ || !(e) *)
Inductive stm :=
| MAct (a : A)
| MTask (n : Z)                (* _task = n; *)
| MYield                       (* _yield_ = true; *)
| MCase (n : Z) (s : stm)      (* case n: s *)
| MSkip                        (* ; *)
| MBlock (l : list stm)        (* { l } *)
| MIf (t : test) (s1 s2 : stm)
| MWhile (e : E) (s : stm)
| MReturn (b : bool).

(** What [if] and [while] take when no brace follows: the first statement; the others come after. *)
Definition one (f : stm -> stm) (l : list stm) : list stm :=
  match l with [] => [f MSkip] | s :: rest => f s :: rest end.

Fixpoint expand (s : src) : list stm :=
  match s with
  | SSkip => []
  | SAct a => [MAct a]
  | SSeq s1 s2 => expand s1 ++ expand s2
  | SIf e s1 s2 => [MIf (TPlain e) (MBlock (expand s1)) (MBlock (expand s2))]
  | SIfOne e s1 => one (fun c => MIf (TPlain e) c MSkip) (expand s1)
  | SWhile e s1 => [MWhile e (MBlock (expand s1))]
  | SWhileOne e s1 => one (MWhile e) (expand s1)
  | SYield n e => [MYield; MTask n; MCase n (MIf (TYieldOr e) (MReturn true) MSkip)]   (* Task.h 101-108 *)
  | SWait n e => [MTask n; MCase n (MIf (TNot e) (MReturn true) MSkip)]                (* 79-85 *)
  | SReturn => [MTask 0; MReturn false]                                                   (* 91-94 *)
  end.

(** 43-50, 56-63 [Task_Begin]: the body with [case 0] before it; 68-73 [Task_End]: what follows the switch. *)
Definition method (s : src) : list stm := MCase 0 MSkip :: expand s.
Definition after : list stm := [MTask 0; MReturn false].

(** The code from label [n] on, given the code [k] that follows the statement. *)
Fixpoint find_case (n : Z) (c : stm) (k : list stm) : option (list stm) :=
  match c with
  | MCase m c1 => if m =? n then Some (c1 :: k) else find_case n c1 k
  | MBlock l => (fix go (l : list stm) : option (list stm) :=
                   match l with
                   | [] => None
                   | c1 :: r => match find_case n c1 (r ++ k) with Some x => Some x | None => go r end
                   end) l
  | MIf _ c1 c2 => match find_case n c1 k with Some r => Some r | None => find_case n c2 k end
  | MWhile e c1 => find_case n c1 (MWhile e c1 :: k)
  | _ => None
  end.

(** Inside a call ([_task], [_yield_]) and between calls. *)
Inductive mstate :=
| MRun (k : list stm) (task : Z) (y : bool) (w : W) (later : list (W -> W))
| MIdle (task : Z) (w : W) (later : list (W -> W)).

(** The value of a condition, the evaluations made for it, and memory after. *)
Definition m_test (t : test) (y : bool) (w : W) : bool * list (event A E) * W :=
  match t with
  | TPlain e => let (b, w1) := cond e w in (b, [EvTest e b], w1)
  | TNot e => let (b, w1) := cond e w in (negb b, [EvTest e b], w1)
  | TYieldOr e => if y then (true, [], w) else let (b, w1) := cond e w in (negb b, [EvTest e b], w1)
  end.

Definition m_step (body : list stm) (s : mstate) : option (list (event A E) * mstate) :=
  match s with
  | MRun [] task y w later => None
  | MRun (c :: k) task y w later =>
      match c with
      | MAct a => Some ([EvAct a], MRun k task y (act a w) later)
      | MTask n => Some ([], MRun k n y w later)
      | MYield => Some ([], MRun k task true w later)
      | MCase _ c1 => Some ([], MRun (c1 :: k) task y w later)
      | MSkip => Some ([], MRun k task y w later)
      | MBlock l => Some ([], MRun (l ++ k) task y w later)
      | MIf t c1 c2 => let '(b, tr, w1) := m_test t y w in Some (tr, MRun ((if b then c1 else c2) :: k) task y w1 later)
      | MWhile e c1 => let (b, w1) := cond e w in
                       Some ([EvTest e b], MRun (if b then c1 :: MWhile e c1 :: k else k) task y w1 later)
      | MReturn b => Some ([if b then EvPause else EvEnd], MIdle task w later)
      end
  | MIdle _ _ [] => None
  | MIdle task w (env :: later) =>
      match find_case task (MBlock body) after with
      | Some k => Some ([], MRun k task false (env w) later)
      | None => Some ([], MRun after task false (env w) later)
      end
  end.
Fixpoint m_run (n : nat) (body : list stm) (s : mstate) : option (list (event A E) * mstate) :=
  match m_step body s with
  | None => Some ([], s)
  | Some (t, s1) =>
      match n with
      | O => None
      | S m => match m_run m body s1 with None => None | Some (t2, s2) => Some (t ++ t2, s2) end
      end
  end.
End Macro.
Arguments SSkip {A E}. Arguments SAct {A E}. Arguments SSeq {A E}. Arguments SIf {A E}. Arguments SIfOne {A E}.
Arguments SWhile {A E}. Arguments SWhileOne {A E}. Arguments SYield {A E}. Arguments SWait {A E}. Arguments SReturn {A E}.
Arguments TPlain {E}. Arguments TNot {E}. Arguments TYieldOr {E}.
Arguments MAct {A E}. Arguments MTask {A E}. Arguments MYield {A E}. Arguments MCase {A E}. Arguments MSkip {A E}.
Arguments MBlock {A E}. Arguments MIf {A E}. Arguments MWhile {A E}. Arguments MReturn {A E}.
Arguments one {A E}. Arguments expand {A E}. Arguments method {A E}.
Arguments after {A E}. Arguments find_case {A E}.
Arguments MRun {A E W}. Arguments MIdle {A E W}. Arguments m_test {A E W}. Arguments m_step {A E W}. Arguments m_run {A E W}.
