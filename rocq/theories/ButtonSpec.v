(** Specification of push buttons: one state machine with the time accumulated. *)
Require Import ZArith List Bool.
Import ListNotations.
From Verif Require Import TimeModel TimeSpec TaskSpec ButtonModel.
Open Scope Z_scope.

Inductive pstate :=
| PUnknown
| POpen
| PClosed (held : Z)        (* closed for [held] so far *)
| PHold
| PBounce                   (* a change was seen, the debounce time starts at the next scan *)
| PDebounce (waited : Z).   (* debouncing for [waited] so far *)

(** [closed]: the contact is closed at this scan; [delta]: the latest clock delta. *)
Definition p_level (closed : bool) : pstate := if closed then PClosed 0 else POpen.
Definition p_scan (debounce hold : Z) (s : pstate) (closed : bool) (delta : Z) : pstate :=
  match s with
  | PUnknown => p_level closed
  | POpen => if closed then PBounce else POpen
  | PClosed h => if closed then (if hold <=? h + delta then PHold else PClosed (h + delta)) else PBounce
  | PHold => if closed then PHold else PBounce
  | PBounce => PDebounce 0
  | PDebounce w => if debounce <=? w + delta then p_level closed else PDebounce (w + delta)
  end.
(** What getState reports, and ScanButton answers true while debouncing. *)
Definition p_report (s : pstate) : Z * bool :=
  match s with
  | PUnknown => (stUnknown, false)
  | POpen => (stOpen, false)
  | PClosed _ => (stClosed, false)
  | PHold => (stHold, false)
  | PBounce | PDebounce _ => (stPending, true)
  end.
Fixpoint p_run (debounce hold : Z) (s : pstate) (inputs : list (bool * Z)) : list pstate :=
  match inputs with
  | [] => []
  | (closed, delta) :: rest => let s' := p_scan debounce hold s closed delta in s' :: p_run debounce hold s' rest
  end.

(** The contact and delta at each scan of a history. *)
Fixpoint scans (inverse : bool) (delta : Z) (ops : list pb_op) : list (bool * Z) :=
  match ops with
  | [] => []
  | PScan v :: r => (xorb v inverse, delta) :: scans inverse delta r
  | PUpdate d :: r => scans inverse d r
  | POther _ :: r => scans inverse delta r
  end.
Definition pb_ok (id : Z) (o : pb_op) : Prop :=
  match o with
  | PScan _ => True
  | PUpdate d => 0 <= d < 4294967296
  | POther o => tt_other id o
  end.

Definition reports (sts : list (Z * bool)) (i : nat) : Z := fst (nth i sts (stUnknown, false)).
(** Sum of the deltas of [k] scans from scan [i] on. *)
Definition deltas_from (inputs : list (bool * Z)) (i k : nat) : Z :=
  fold_right Z.add 0 (map snd (firstn k (skipn i inputs))).

(** Allowed changes of the reported state at one scan. *)
Definition allowed (before : Z) (closed : bool) (after : Z) : Prop :=
  (before = stUnknown /\ after = (if closed then stClosed else stOpen)) \/
  (before = stOpen /\ after = (if closed then stPending else stOpen)) \/
  (before = stClosed /\ if closed then after = stClosed \/ after = stHold else after = stPending) \/
  (before = stHold /\ after = (if closed then stHold else stPending)) \/
  (before = stPending /\ (after = stPending \/ after = (if closed then stClosed else stOpen))).

(** A push button with id [id] after being run through [ops] on a shared Delays of [n] slots, on
    which the rest of the program made the calls [pre] before. *)
Definition pb_history (n : nat) (pre : list dl_op) (id debounce hold : Z) (inverse : bool) (ops : list pb_op)
  (delta : Z) (outs : list (Z * bool)) : Prop :=
  0 < id < 65536 /\ 0 <= debounce < 4294967296 /\ 0 <= hold < 4294967296 /\
  Forall dl_ok pre /\ Forall (pb_ok id) ops /\
  exists d outs0, dl_run (dl_init n) pre = Some (d, outs0) /\ dl_waiting (d_slots d) id = false /\ d_delta d = delta /\
    pb_run id debounce hold inverse pb_init d ops = Some outs.
