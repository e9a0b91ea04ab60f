(** What a page should look like on the display. *)
Require Import ZArith List Bool.
Import ListNotations.
From Verif Require Import Base HdModel HdSpec UiModel PageModel.
Open Scope Z_scope.

Section S.
Variable text : Z -> list Z.
Variable edit : Z -> Z.
Definition shown (c : ctl) : list Z := match c with Label _ _ t => t | Field _ _ i _ _ => text i | Box _ _ _ _ _ => [] end.
(** A piece of text on the screen: row, column, characters. *)
Definition piece : Type := Z * Z * list Z.
(** The texts of the visible controls on the visible lines, in order. *)
Definition line_pieces (line : ctl) : list piece :=
  map (fun x => (pos_of line, pos_of x, shown x)) (filter (fun x => visible (st_of x)) (kids_of line)).
Definition page_pieces (page : ctl) : list piece :=
  flat_map line_pieces (filter (fun x => visible (st_of x)) (kids_of page)).
(** Later pieces cover earlier ones. *)
Definition inside (q : piece) (r c : Z) : bool :=
  let '(l, p, t) := q in (r =? l) && (p <=? c) && (c <? p + Z.of_nat (length t)).
Definition char_at (q : piece) (c : Z) : Z := let '(_, p, t) := q in nth (Z.to_nat (c - p)) t 0.
Definition put_piece (cells : Z -> Z -> Z) (q : piece) : Z -> Z -> Z :=
  fun r c => if inside q r c then char_at q c else cells r c.
Definition picture (cells : Z -> Z -> Z) (qs : list piece) : Z -> Z -> Z := fold_left put_piece qs cells.

(** Lines of labels and fields with texts that fit on the screen. *)
Definition printable (t : list Z) : Prop := Forall (fun ch => 0 < ch < 256 /\ ch <> 10 /\ ch <> 13) t.
Definition control_fits (rows : Z) (x : ctl) : Prop :=
  match x with Box _ _ _ _ _ => False | _ => True end /\
  (visible (st_of x) = true ->
   0 <= pos_of x /\ pos_of x + Z.of_nat (length (shown x)) <= width rows /\ printable (shown x)).
Definition line_fits (rows : Z) (line : ctl) : Prop :=
  match line with
  | Box Horizontal _ _ _ kids => Forall (control_fits rows) kids
  | _ => False
  end /\ (visible (st_of line) = true -> 0 <= pos_of line < rows).
Definition page_fits (rows : Z) (page : ctl) : Prop :=
  match page with Box PageK _ _ _ lines => Forall (line_fits rows) lines | _ => False end.

(** Where the cursor belongs: at the current control of the current line, on the character being
    edited if it is a text control that has the focus or is selected; blinking when selected. *)
Definition current_line (page : ctl) : option ctl :=
  match cur_of page with Some i => nth_error (kids_of page) i | None => None end.
Definition edits (f : ctl) : bool := match f with Field st _ _ lr _ => lr && active st | _ => false end.
Definition edit_of (f : ctl) : Z := match f with Field _ _ i _ _ => if edits f then edit i else 0 | _ => 0 end.
Definition cursor_fits (rows : Z) (page : ctl) : Prop :=
  forall line f, current_line page = Some line -> current_input page = Some f ->
    0 <= pos_of line < rows /\ 0 <= pos_of f < width rows /\ 0 <= edit_of f /\ pos_of f + edit_of f < width rows.
End S.

(** Controller register and display agree, and the display takes text from left to right. *)
Definition in_step (iw r : Z) (d : lcd) : Prop :=
  0 <= r < 256 /\ ctl_get iw r 0 = Some (blink d) /\ ctl_get iw r 1 = Some (curs d) /\ ctl_get iw r 2 = Some (disp d) /\
  cg d = false /\ inc d = true /\ shift d = false.
(** The characters on the screen. *)
Definition on_screen (d : lcd) : Z -> Z -> Z := fun r c => mem d (cell_address r c).

(** Lines added to an empty page, one after the other. *)
Definition page_adds (n : Z) (lines : list ctl) : list ctl := fold_left (page_add n) lines [].
(** Calls that send the display-control command. *)
Definition control_call (o : cop) : Prop :=
  match o with CBlink _ | CCursor _ | CDisplay _ | CControl _ _ _ => True | _ => False end.
(** Pages displayed one after the other. *)
Fixpoint draw_all (iw rows : Z) (s : Z * view) (pages : list (ctl * (Z -> list Z) * (Z -> Z))) : option (Z * view * list dop) :=
  match pages with
  | [] => Some (fst s, snd s, [])
  | (page, text, edit) :: rest =>
      bindo (dw_run iw rows s (display text edit DNormal page)) (fun a =>
      bindo (draw_all iw rows (fst a) rest) (fun b => Some (fst b, snd a ++ snd b)))
  end.
Definition all_pieces (pages : list (ctl * (Z -> list Z) * (Z -> Z))) : list piece :=
  flat_map (fun q => let '(page, text, _) := q in page_pieces text page) pages.
Definition all_fit (rows : Z) (q : ctl * (Z -> list Z) * (Z -> Z)) : Prop :=
  let '(page, text, edit) := q in page_fits text rows page /\ cursor_fits edit rows page.

(** ** Panels in panels
    The pieces of a control displayed with the writer at row [r] and column [c], and the row the writer is
    on afterwards: a vertical panel puts its controls at the start of their rows, a horizontal panel at
    their columns of the row the writer is on.  A panel itself is a piece without text. *)
Fixpoint layout (text : Z -> list Z) (r c : Z) (x : ctl) {struct x} : list piece * Z :=
  match x with
  | Label _ _ t => ([(r, c, t)], r)
  | Field _ _ i _ _ => ([(r, c, text i)], r)
  | Box k _ _ cur kids =>
      let walk := fix walk (r : Z) (l : list ctl) : list piece * Z :=
        match l with
        | [] => ([], r)
        | y :: rest =>
            if visible (st_of y) then
              let (qs, r1) := match k with Horizontal => layout text r (pos_of y) y | _ => layout text (pos_of y) 0 y end in
              let (more, r2) := walk r1 rest in (qs ++ more, r2)
            else walk r rest
        end in
      let one := fix one (l : list ctl) (i : nat) : list piece * Z :=
        match l, i with [], _ => ([], r) | y :: _, O => layout text r c y | _ :: rest, S j => one rest j end in
      let (qs, r1) := match k with
                      | Pages => match cur with Some i => one kids i | None => ([], r) end
                      | _ => walk r kids
                      end in
      ((r, c, []) :: qs, r1)
  end.
Definition piece_fits (rows : Z) (q : piece) : Prop :=
  let '(l, p, t) := q in 0 <= l < rows /\ 0 <= p /\ p + Z.of_nat (length t) <= width rows /\ printable t.
(** No page inside. *)
Fixpoint no_page (x : ctl) : Prop :=
  match x with
  | Box k _ _ _ kids => match k with PageK => False | _ => True end /\
      (fix all (l : list ctl) : Prop := match l with [] => True | y :: rest => no_page y /\ all rest end) kids
  | _ => True
  end.
Definition tree_fits (text : Z -> list Z) (rows : Z) (page : ctl) : Prop :=
  match page with Box PageK _ _ _ lines => Forall no_page lines | _ => False end /\
  Forall (piece_fits rows) (fst (layout text 0 0 page)).
(** The label or field at the end of the current controls. *)
Fixpoint deepest (x : ctl) : option ctl :=
  match x with
  | Box _ _ _ cur kids =>
      let one := fix one (l : list ctl) (i : nat) : option ctl :=
        match l, i with [], _ => None | y :: _, O => deepest y | _ :: rest, S j => one rest j end in
      match cur with Some i => one kids i | None => None end
  | _ => Some x
  end.
Definition tree_cursor_fits (edit : Z -> Z) (rows : Z) (page : ctl) : Prop :=
  forall line f, current_line page = Some line -> current_input page = Some f ->
    0 <= pos_of line < rows /\ 0 <= pos_of f < width rows /\
    forall g, deepest f = Some g -> edits g = true -> 0 <= pos_of g /\ 0 <= edit_of edit g /\ pos_of g + edit_of edit g < width rows.
(** The field below [f] that places the cursor itself. *)
Definition own_cursor (f : ctl) : option ctl := match deepest f with Some g => if edits g then Some g else None | None => None end.
