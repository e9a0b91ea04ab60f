(** Specifications for the text control. *)
Require Import ZArith List Bool.
Import ListNotations.
From Verif Require Import Base ArrayModel IteratorModel UiModel EditModel.
Open Scope Z_scope.

(** An editor for [cap] places, each holding the number of one of [n] characters. *)
Record ed := mkEd { e_st : cstate; e_pos : Z; e_num : Z -> Z }.
Section Ed.
Variable cap n : Z.
Variable wrap : bool.
Definition up_num (k : Z) : Z := if wrap then (k + 1) mod n else Z.min (n - 1) (k + 1).
Definition down_num (k : Z) : Z := if wrap then (k - 1) mod n else Z.max 0 (k - 1).
Definition ed_state (e : ed) (s : cstate) : ed * bool :=
  let (s', h) := set_state KInput (e_st e) s in
  (mkEd s' (if h && active s then 0 else e_pos e) (e_num e), h).
Definition ed_nav (e : ed) (m : cmd) : ed * bool :=
  match e_st e, m with
  | Selected, Up => (mkEd Selected (e_pos e) (upd (e_num e) (e_pos e) (up_num (e_num e (e_pos e)))), true)
  | Selected, Down => (mkEd Selected (e_pos e) (upd (e_num e) (e_pos e) (down_num (e_num e (e_pos e)))), true)
  | Selected, Left => (mkEd Selected (Z.max 0 (e_pos e - 1)) (e_num e), true)
  | Selected, Right => (mkEd Selected (Z.min (cap - 1) (e_pos e + 1)) (e_num e), true)
  | Selected, Exit => (mkEd Focused 0 (e_num e), true)
  | Focused, Enter => (mkEd Selected 0 (e_num e), true)
  | _, _ => (e, false)
  end.
Definition ed_step (e : ed) (o : tc_op) : ed * bool :=
  match o with TNav m => ed_nav e m | TState s => ed_state e s | TIter _ => (e, true) end.
Fixpoint ed_run (e : ed) (ops : list tc_op) : ed * list bool :=
  match ops with
  | [] => (e, [])
  | o :: r => let (e, h) := ed_step e o in let (e, hs) := ed_run e r in (e, h :: hs)
  end.
(** Other code moves the iterator only to its places, and not while the control is selected. *)
Definition iter_ok (j : Z) : Prop := -1 <= j < n.
Fixpoint iters_ok (e : ed) (ops : list tc_op) : Prop :=
  match ops with
  | [] => True
  | o :: r => match o with TIter j => iter_ok j /\ e_st e <> Selected | _ => True end /\ iters_ok (fst (ed_step e o)) r
  end.
End Ed.
(** Control and editor show the same. *)
Definition shows (cap n : Z) (cs : Z -> Z) (t : tc) (e : ed) : Prop :=
  tc_st t = e_st e /\ tc_edit t = e_pos e /\ 0 <= e_pos e < cap /\
  (forall i, 0 <= i < cap -> 0 <= e_num e i < n /\ tc_buf t i = cs (e_num e i)).
Definition distinct (n : Z) (cs : Z -> Z) : Prop := forall i j, 0 <= i < n -> 0 <= j < n -> cs i = cs j -> i = j.
