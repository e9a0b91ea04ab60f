(** What a page of text controls should do. *)
Require Import ZArith List Bool.
Import ListNotations.
From Verif Require Import Base HdModel HdSpec UiModel UiSpec EditModel EditSpec PageModel PageSpec FormModel.
Open Scope Z_scope.

(** Controls without the commands their fields took. *)
Fixpoint forget (c : ctl) : ctl :=
  match c with
  | Label st p t => Label st p t
  | Field st p id lr _ => Field st p id lr []
  | Box k st p cur kids => Box k st p cur (map forget kids)
  end.

(** Page controllers and horizontal panels over pages of horizontal lines of labels and fields. *)
Definition leaf (c : ctl) : Prop := match c with Box _ _ _ _ _ => False | _ => True end.
Definition flat_line (c : ctl) : Prop := match c with Box Horizontal _ _ _ kids => Forall leaf kids | _ => False end.
Fixpoint pages_of_lines (c : ctl) : Prop :=
  match c with
  | Box PageK _ _ _ kids => Forall flat_line kids
  | Box Vertical _ _ _ _ => False
  | Box _ _ _ _ kids => (fix all (l : list ctl) : Prop := match l with [] => True | x :: r => pages_of_lines x /\ all r end) kids
  | _ => True
  end.
(** No field is selected; only a field reached through current controls is selected. *)
Fixpoint quiet (c : ctl) : Prop :=
  match c with
  | Label _ _ _ => True
  | Field st _ _ _ _ => st <> Selected
  | Box _ _ _ _ kids => (fix all (l : list ctl) : Prop := match l with [] => True | x :: r => quiet x /\ all r end) kids
  end.
Fixpoint one_selected (c : ctl) : Prop :=
  match c with
  | Box _ _ _ cur kids =>
      (fix all (l : list ctl) (i : option nat) {struct l} : Prop :=
         match l with
         | [] => True
         | x :: r => match i with Some O => one_selected x | _ => quiet x end /\ all r (match i with Some (S j) => Some j | _ => None end)
         end) kids cur
  | _ => True
  end.

(** ** Editors in the places of the fields.  [st]: the state of the field after the command; [cap]: the
    length of its text. *)
Definition editing (m : cmd) : bool := match m with Up | Down | Left | Right => true | _ => false end.
Definition field_step (n : Z) (wrap : bool) (m : cmd) (cap : Z) (st : cstate) (e : ed) : ed :=
  if cstate_eqb (e_st e) Selected && editing m then fst (ed_nav cap n wrap e m) else fst (ed_state e st).
Fixpoint field_states (c : ctl) : list cstate :=
  match c with Label _ _ _ => [] | Field st _ _ _ _ => [st] | Box _ _ _ _ kids => flat_map field_states kids end.
Fixpoint steps (n : Z) (wrap : bool) (m : cmd) (sts : list cstate) (es : list (Z * ed)) : list (Z * ed) :=
  match sts, es with
  | st :: sts, e :: es => (fst e, field_step n wrap m (fst e) st (snd e)) :: steps n wrap m sts es
  | _, _ => []
  end.
(** The states are those of the panels of UiModel.v. *)
Fixpoint editors (n : Z) (wrap : bool) (ms : list cmd) (c : ctl) (es : list (Z * ed)) : list (Z * ed) :=
  match ms with
  | [] => es
  | m :: r => let c := fst (nav m c) in editors n wrap r c (steps n wrap m (field_states c) es)
  end.
(** A text control shows what its editor does; the iterator is where the selected one needs it. *)
Definition field_ok (n : Z) (cs : Z -> Z) (it : Z) (q : Z * Z * tc) (e : Z * ed) : Prop :=
  let '(_, M, t) := q in
  fst e = M /\ 1 <= M <= 255 /\ shows M n cs t (snd e) /\ (e_st (snd e) = Selected -> it = e_num (snd e) (e_pos (snd e))).

(** Bounds only: the edit position is in the text, and everything outside the text is as before. *)
Definition in_bounds (q : Z * Z * tc) : Prop := let '(_, M, t) := q in 0 <= M <= 32766 /\ 0 <= tc_edit t < Z.max 1 (u8 M).
Definition kept (q q' : Z * Z * tc) : Prop :=
  let '(id, M, t) := q in let '(id', M', t') := q' in
  id' = id /\ M' = M /\ forall i, ~ 0 <= i < Z.max 1 (u8 M) -> tc_buf t' i = tc_buf t i.

(** A command changes no text but that of a selected control, at the position being edited, by Up or Down. *)
Definition touched (m : cmd) (q q' : Z * Z * tc) : Prop :=
  let '(_, _, t) := q in let '(_, _, t') := q' in
  forall i, tc_buf t' i <> tc_buf t i -> tc_st t = Selected /\ i = tc_edit t /\ (m = Up \/ m = Down).

(** ** On the display *)
Fixpoint all_visible (c : ctl) : Prop :=
  st_of c <> Hidden /\
  match c with
  | Box _ _ _ _ kids => (fix all (l : list ctl) : Prop := match l with [] => True | x :: r => all_visible x /\ all r end) kids
  | _ => True
  end.
(** Room for the texts of the controls. *)
Definition blank (f : form) (id : Z) : list Z := match field_of f id with Some (_, M, _) => repeat 32 (Z.to_nat M) | None => [] end.
Definition form_fits (rows : Z) (f : form) : Prop :=
  all_visible (plain_of f) /\ page_fits (blank f) rows (plain_of f) /\
  (forall line x, In line (kids_of (plain_of f)) -> In x (kids_of line) -> pos_of x < width rows).
Definition terminated (q : Z * Z * tc) : Prop := let '(_, M, t) := q in tc_buf t M = 0.
Definition printable_set (n : Z) (cs : Z -> Z) : Prop := forall i, 0 <= i < n -> 0 < cs i < 256 /\ cs i <> 10 /\ cs i <> 13.
(** The text of an editor for [cap] places. *)
Definition letters (cs : Z -> Z) (e : Z * ed) : list Z := map (fun i => cs (e_num (snd e) (Z.of_nat i))) (seq 0 (Z.to_nat (fst e))).
Definition number_of (q : Z * Z * tc) : Z := fst (fst q).
Definition text_of (cs num : Z -> Z) (M : Z) : list Z := map (fun i => cs (num (Z.of_nat i))) (seq 0 (Z.to_nat M)).
(** The cursor is at the current control of the current line, for a text control on the character being edited
    but always in the top row: the finding of C65. *)
Definition cursor_at (f : form) (d : lcd) : Prop :=
  match current_line (plain_of f), current_input (plain_of f) with
  | Some line, Some z => curs d = true /\ blink d = is_selected z /\ ac d = cell_address (if edits z then 0 else pos_of line) (pos_of z + edit_of (form_edit f) z)
  | _, _ => curs d = false
  end.

(** ** TextBox.ino: the numbers of the characters of the text after k rounds. *)
Definition after_rounds (n k : Z) (num : Z -> Z) (i : Z) : Z :=
  if i =? 0 then Z.min (n - 1) (num 0 + 3 * k) else if i =? 1 then Z.min (n - 1) (num 1 + 4 * k) else num i.
