(** Pages and panels whose input controls are TextControls (TextControl.h) that share one
    CharacterIterator: the controls of UiModel.v with the text controls of EditModel.v in their places.
    [None]: undefined, as in EditModel.v.  [it] is the position of the iterator. *)
Require Import ZArith List Bool.
Import ListNotations.
From Verif Require Import Base ArrayModel IteratorModel UiModel EditModel HdModel TextModel PageModel SketchModel.
Open Scope Z_scope.

(** The string of a text control is a FixedString<M>; [id] only tells the controls apart. *)
Inductive form :=
| FLabel (st : cstate) (pos : Z) (text : list Z)
| FText (pos id M : Z) (t : tc)
| FBox (k : pkind) (st : cstate) (pos : Z) (cur : option nat) (kids : list form).
(** The controls without their texts. *)
Fixpoint plain_of (f : form) : ctl :=
  match f with
  | FLabel st p t => Label st p t
  | FText p id _ t => Field (tc_st t) p id true []
  | FBox k st p cur kids => Box k st p cur (map plain_of kids)
  end.

Section Form.
Variable n : Z.            (* number of characters *)
Variable wrap : bool.
Variable cs : Z -> Z.
Definition at_it (it : Z) (t : tc) : tc := mkTc (tc_st t) (tc_buf t) (tc_edit t) it.
Definition fbind {A B} (o : option (Z * A)) (f : Z -> A -> option (Z * B)) : option (Z * B) :=
  match o with Some (it, a) => f it a | None => None end.

(** setState of a control. *)
Definition fset_st (new : cstate) (it : Z) (f : form) : option (Z * form) :=
  match f with
  | FLabel s p t => Some (it, FLabel (fst (set_state KLabel s new)) p t)
  | FText p id M t => match tc_set_state M n cs (at_it it t) new with
                      | Some (t, _) => Some (tc_it t, FText p id M t)
                      | None => None
                      end
  | FBox k s p cur kids => Some (it, FBox k (fst (set_state (class_of (plain_of f)) s new)) p cur kids)
  end.
Fixpoint fupdate (l : list form) (i : nat) (g : Z -> form -> option (Z * form)) (it : Z) : option (Z * list form) :=
  match l, i with
  | [], _ => Some (it, [])
  | x :: r, O => fbind (g it x) (fun it x => Some (it, x :: r))
  | x :: r, S j => fbind (fupdate r j g it) (fun it r => Some (it, x :: r))
  end.
(** Panel.h 50-65 [setCurrentControl]. *)
Definition fset_current (it : Z) (b : form) (new : option nat) : option (Z * form) :=
  match b with
  | FBox k st p cur kids =>
      let cl := class_of (plain_of b) in
      fbind (match cur with
             | Some i => fbind (fupdate kids i (fset_st Normal) it) (fun it kids => Some (it, (fst (set_state cl st Normal), kids)))
             | None => Some (it, (st, kids))
             end)
        (fun it q =>
           match new with
           | Some j => fbind (fupdate (snd q) j (fset_st Focused) it)
                         (fun it kids => Some (it, FBox k (fst (set_state cl (fst q) Focused)) p new kids))
           | None => Some (it, FBox k (fst q) p None (snd q))
           end)
  | _ => Some (it, b)
  end.
(** PanelControlContainer.h 46-86; the search for the control as in UiModel.v. *)
Definition fgo (it : Z) (b : form) (j : option nat) : option (Z * (form * bool)) :=
  match j with Some j => fbind (fset_current it b (Some j)) (fun it b => Some (it, (b, true))) | None => Some (it, (b, false)) end.
Definition fset_next (it : Z) (b : form) := fgo it b (next_input (kids_of (plain_of b)) (cur_of (plain_of b))).
Definition fset_prev (it : Z) (b : form) := fgo it b (prev_input (kids_of (plain_of b)) (cur_of (plain_of b))).

(** OnNavigationCommand: TextControl.h 76-95 (EditModel.v), Panel.h 82-90, HorizontalPanel.h 57-76,
    VerticalPanel.h 56-69, Page.h 118-138, PageController.h 57-76. *)
Fixpoint fnav (m : cmd) (it : Z) (f : form) {struct f} : option (Z * (form * bool)) :=
  match f with
  | FLabel _ _ _ => Some (it, (f, false))
  | FText p id M t => match tc_nav M n wrap cs (at_it it t) m with
                      | Some (t, h) => Some (tc_it t, (FText p id M t, h))
                      | None => None
                      end
  | FBox k st p cur kids =>
      let nav_at := fix nav_at (l : list form) (i : nat) (it : Z) {struct l} : option (Z * (list form * bool)) :=
        match l, i with
        | [], _ => Some (it, ([], false))
        | x :: r, O => fbind (fnav m it x) (fun it q => Some (it, (fst q :: r, snd q)))
        | x :: r, S j => fbind (nav_at r j it) (fun it q => Some (it, (x :: fst q, snd q)))
        end in
      let base := match cur with
                  | None => Some (it, (f, false))
                  | Some i => fbind (nav_at kids i it) (fun it q => Some (it, (FBox k st p cur (fst q), snd q)))
                  end in
      match k with
      | Horizontal =>
          fbind base (fun it q => if snd q then Some (it, q)
                                  else match m with Left => fset_prev it (fst q) | Right => fset_next it (fst q) | _ => Some (it, q) end)
      | Vertical => match m with Up => fset_prev it f | Down => fset_next it f | _ => base end
      | PageK =>
          fbind (match m with
                 | Up => if may_leave (plain_of f) then fset_prev it f else Some (it, (f, false))
                 | Down => if may_leave (plain_of f) then fset_next it f else Some (it, (f, false))
                 | _ => Some (it, (f, false))
                 end)
            (fun it q => if snd q then Some (it, q) else base)
      | Pages =>
          fbind base (fun it q => if snd q then Some (it, q)
                                  else match m with Up => fset_prev it (fst q) | Down => fset_next it (fst q) | _ => Some (it, q) end)
      end
  end.
Fixpoint fnavs (ms : list cmd) (it : Z) (f : form) : option (Z * form) :=
  match ms with [] => Some (it, f) | m :: r => fbind (fnav m it f) (fun it q => fnavs r it (fst q)) end.

(** The text controls of a form: number, size of the string, control. *)
Fixpoint fields (f : form) : list (Z * Z * tc) :=
  match f with FLabel _ _ _ => [] | FText _ id M t => [(id, M, t)] | FBox _ _ _ _ kids => flat_map fields kids end.
(** ToString: the bytes before the terminator. *)
Fixpoint string_at (k : nat) (buf : Z -> Z) (i : Z) : list Z :=
  match k with O => [] | S k => if buf i =? 0 then [] else buf i :: string_at k buf (i + 1) end.
Definition field_of (f : form) (id : Z) : option (Z * Z * tc) := find (fun q => fst (fst q) =? id) (fields f).
Definition form_text (f : form) (id : Z) : list Z :=
  match field_of f id with Some (_, M, t) => string_at (Z.to_nat (M + 1)) (tc_buf t) 0 | None => [] end.
Definition form_edit (f : form) (id : Z) : Z := match field_of f id with Some (_, _, t) => tc_edit t | None => 0 end.
(** Display of a page. *)
Definition form_draw (f : form) : tcall := TDraw (display (form_text f) (form_edit f) DNormal (plain_of f)).

(** TextBox.ino 44-82: after setup, each command is followed by Display. *)
Fixpoint form_loop (ms : list cmd) (it : Z) (f : form) : option (Z * form * list tcall) :=
  match ms with
  | [] => Some (it, f, [])
  | m :: r => match fnav m it f with
              | None => None
              | Some (it, (f, _)) =>
                  match form_loop r it f with Some (it, f', cs) => Some (it, f', form_draw f :: cs) | None => None end
              end
  end.
Definition form_sketch (ms : list cmd) (it : Z) (f : form) : option (Z * form * list tcall) :=
  match fnav Down it f with
  | None => None
  | Some (it, (f', _)) =>
      match form_loop ms it f' with
      | Some (it, f'', cs) => Some (it, f'', TInit :: TCtl (CDisplay true) :: form_draw f :: cs)
      | None => None
      end
  end.
End Form.

(** TextBox.ino 28-46 and 66: its page, with the texts of the labels, the column and size of the text and the
    contents of textBuffer; the commands of one round.  The second line is given row 1 by Page.h 89-99. *)
Definition textbox (l1 l2 : list Z) (col M : Z) (buf : Z -> Z) : form :=
  FBox PageK Normal 0 None
    [FBox Horizontal Normal 0 None [FLabel Normal 0 l1; FText col 0 M (mkTc Normal buf 0 0)];
     FBox Horizontal Normal 1 None [FLabel Normal 0 l2]].
Definition textbox_round : list cmd := [Up; Right; Enter; Up; Up; Up; Right; Up; Up; Up; Up; Exit; Down].
