(** Specifications for the UI framework. *)
Require Import ZArith List Bool.
Import ListNotations.
From Verif Require Import Base ArrayModel UiModel.
Open Scope Z_scope.

(** ** States.  What each class documents: labels take no focus or selection, input controls no focus
    while disabled or hidden, panels no selection; setting the same state is refused. *)
Definition allowed (k : cclass) (old new : cstate) : Prop :=
  new <> old /\
  (k = KLabel -> new <> Focused /\ new <> Selected) /\
  (k = KInput \/ k = KPanel \/ k = KPage -> new = Focused -> old <> Disabled /\ old <> Hidden) /\
  (k = KPanel \/ k = KPage -> new <> Selected).
Definition legal (k : cclass) (s : cstate) : Prop :=
  (k = KLabel -> s <> Focused /\ s <> Selected) /\ (k = KPanel \/ k = KPage -> s <> Selected).

(** A control on its own: setState, TrySelect (Enter), TryDeselect (Exit). *)
Inductive sop := SSet (s : cstate) | SSelect | SDeselect.
Definition sop1 (k : cclass) (s : cstate) (o : sop) : cstate * bool :=
  match o with SSet n => set_state k s n | SSelect => try_select k s | SDeselect => try_deselect k s end.
Definition sops (k : cclass) (s : cstate) (os : list sop) : cstate := fold_left (fun s o => fst (sop1 k s o)) os s.

(** ** Types: the class hierarchy.  Type numbers: Control 1, InputControl 2, Panel 3, Page 4. *)
Definition is_a (k : cclass) (t : Z) : bool :=
  match k with
  | KControl | KLabel => t =? 1
  | KInput => (t =? 1) || (t =? 2)
  | KPanel => (t =? 1) || (t =? 2) || (t =? 3)
  | KPage => (t =? 1) || (t =? 2) || (t =? 3) || (t =? 4)
  end.

(** ** Containers as lists: the controls behind the first occurrence, or all if there is none; the
    same before it, nearest first. *)
Fixpoint after (l : list Z) (x : Z) : option (list Z) :=
  match l with [] => None | y :: r => if y =? x then Some r else after r x end.
Fixpoint ahead (l : list Z) (x : Z) : option (list Z) :=
  match l with [] => None | y :: r => if y =? x then Some [] else match ahead r x with Some a => Some (y :: a) | None => None end end.
Definition or_null (o : option Z) : Z := match o with Some p => p | None => 0 end.
Definition list_next (is : Z -> bool) (l : list Z) (x : Z) : Z :=
  or_null (find is (match after l x with Some r => r | None => l end)).
Definition list_prev (is : Z -> bool) (l : list Z) (x : Z) : Z :=
  or_null (find is (rev (match ahead l x with Some r => r | None => l end))).
(** Asking again and again from [x], until NULL. *)
Fixpoint walk (step : Z -> Z) (x : Z) (fuel : nat) : list Z :=
  match fuel with O => [] | S k => if step x =? 0 then [] else step x :: walk step (step x) k end.

(** ** Trees *)
Fixpoint fresh (c : ctl) : Prop :=
  match c with
  | Label st _ _ => st = Normal
  | Field st _ _ _ log => st = Normal /\ log = []
  | Box _ st _ cur kids => st = Normal /\ cur = None /\ (fix all (l : list ctl) : Prop := match l with [] => True | x :: r => fresh x /\ all r end) kids
  end.
(** A control somewhere in the tree. *)
Inductive inside (b : ctl) : ctl -> Prop :=
| inside_here : inside b b
| inside_kid : forall k st p cur kids i x, nth_error kids i = Some x -> inside b x -> inside b (Box k st p cur kids).
(** Of the controls of a panel only the current one may have the focus or be selected; the current
    one is an input control. *)
Definition focus_ok (b : ctl) : Prop :=
  (forall i x, nth_error (kids_of b) i = Some x -> active (st_of x) = true -> cur_of b = Some i) /\
  (forall i, cur_of b = Some i -> exists x, nth_error (kids_of b) i = Some x /\ is_input x = true).
(** A path that leads through current controls. *)
Fixpoint current_path (c : ctl) (path : list nat) : Prop :=
  match path with
  | [] => True
  | i :: rest => cur_of c = Some i /\ match nth_error (kids_of c) i with Some x => current_path x rest | None => True end
  end.
(** Actions: the program focuses and selects, and moves inside panels, only along that path. *)
Definition act_ok (c : ctl) (a : act) : Prop :=
  match a with
  | ANav _ | AClear _ => True
  | AState path s => active s = false \/ current_path c path
  | AFirst path | ANext path | APrev path => current_path c path
  end.
Fixpoint acts_ok (c : ctl) (l : list act) : Prop :=
  match l with [] => True | a :: r => act_ok c a /\ acts_ok (act1 c a) r end.

(** What navigation must not touch: kinds, positions, texts. *)
Fixpoint skel (c : ctl) : ctl :=
  match c with
  | Label _ p t => Label Normal p t
  | Field _ p i lr _ => Field Normal p i lr []
  | Box k _ p _ kids => Box k Normal p None (map skel kids)
  end.
(** The logs of all fields, in order. *)
Fixpoint logs (c : ctl) : list (list cmd) :=
  match c with Label _ _ _ => [] | Field _ _ _ _ log => [log] | Box _ _ _ _ kids => flat_map logs kids end.
(** One log extended by one command. *)
Definition extended (a b : list (list cmd)) (m : cmd) : Prop :=
  exists x log y, a = x ++ log :: y /\ b = x ++ (log ++ [m]) :: y.
(** How many controls have the focus. *)
Fixpoint focus_count (c : ctl) : nat :=
  match c with
  | Label st _ _ => if cstate_eqb st Focused then 1 else 0
  | Field st _ _ _ _ => if cstate_eqb st Focused then 1 else 0
  | Box _ _ _ _ kids => fold_right Nat.add O (map focus_count kids)
  end%nat.

(** Positions of the input controls of a panel. *)
Fixpoint input_positions (kids : list ctl) (i : nat) : list nat :=
  match kids with [] => [] | x :: r => (if is_input x then [i] else []) ++ input_positions r (S i) end.
(** Moving among [n] places: stops at both ends; from nowhere to the first or the last. *)
Definition cursor1 (n : nat) (k : option nat) (fwd : bool) : option nat :=
  match k with
  | None => match n with O => None | S m => Some (if fwd then O else m) end
  | Some k => Some (if fwd then Nat.min (S k) (n - 1) else k - 1)%nat
  end.
Definition cursor (n : nat) (l : list bool) : option nat := fold_left (cursor1 n) l None.
Definition move (b : ctl) (fwd : bool) : ctl * bool := if fwd then set_next b else set_prev b.
Definition moves (b : ctl) (l : list bool) : ctl := fold_left (fun b d => fst (move b d)) l b.
Definition place (b : ctl) (k : option nat) : option nat :=
  match k with Some k => nth_error (input_positions (kids_of b) 0) k | None => None end.
(** The commands for back and forward. *)
Definition lr_cmd (fwd : bool) : cmd := if fwd then Right else Left.
Definition ud_cmd (fwd : bool) : cmd := if fwd then Down else Up.
Definition navs (c : ctl) (l : list cmd) : ctl := fold_left (fun c m => fst (nav m c)) l c.
(** A line of labels and fields, none of them selected. *)
Definition plain (x : ctl) : Prop := match x with Box _ _ _ _ _ => False | _ => st_of x <> Selected end.
(** A page whose current line is horizontal and has a current field. *)
Definition page_at (st : cstate) (p : Z) (i : nat) (lines : list ctl) (lst : cstate) (lp : Z) (j : nat) (fields : list ctl) (f : ctl) : Prop :=
  nth_error lines i = Some (Box Horizontal lst lp (Some j) fields) /\ nth_error fields j = Some f.
Definition put_field (lines : list ctl) (i : nat) (j : nat) (f : ctl) : list ctl :=
  update lines i (fun line => match line with Box k s p c fields => Box k s p c (update fields j (fun _ => f)) | _ => line end).
