(** Display of controls: LabelControl.h, UpDownControl.h, TextControl.h, Panel.h, HorizontalPanel.h,
    VerticalPanel.h, Page.h; and HD44780_DisplayWriter.h as the writer: translated code.  The tree of
    controls is that of UiModel. *)
Require Import ZArith List Bool.
Import ListNotations.
From Verif Require Import Base HdModel UiModel.
Open Scope Z_scope.

(** Calls of a DisplayWriter; DontCare is 255. *)
Inductive wcall := WText (t : list Z) | WGoTo (l c : Z) | WCursor (l c : Z) (edit : bool).
Inductive dmode := DNormal | DCursor.

Section Draw.
(** What ToString of a field answers, as bytes before the terminator, and _editIndex of a TextControl,
    by the number of the field. *)
Variable text : Z -> list Z.
Variable edit : Z -> Z.

(** A label without text (NULL) is a label with the empty text. *)
Fixpoint display (m : dmode) (c : ctl) {struct c} : list wcall :=
  match c with
  | Label _ _ t => match m with DCursor => [] | DNormal => [WText t] end          (* LabelControl.h 57-65 *)
  | Field st p i lr _ =>                                  (* UpDownControl.h 53-59, TextControl.h 62-70 *)
      match m with
      | DNormal => [WText (text i)]
      | DCursor => if lr && active st then [WCursor 255 (u8 (p + edit i)) (cstate_eqb st Selected)] else []
      end
  | Box k st p cur kids =>
      let current := fix current (m : dmode) (l : list ctl) (i : nat) : list wcall :=
        match l, i with
        | [], _ => []
        | x :: _, O => display m x
        | _ :: r, S j => current m r j
        end in
      (* Panel.h 71-77 *)
      let panel (m : dmode) := match cur with Some i => current m kids i | None => [] end in
      (* VerticalPanel.h 78-96 and HorizontalPanel.h 85-103 *)
      let rows := (fix rows (l : list ctl) : list wcall :=
        match l with
        | [] => []
        | x :: r => (if visible (st_of x) then WGoTo (pos_of x) 0 :: display DNormal x else []) ++ rows r
        end) kids in
      let columns := (fix columns (l : list ctl) : list wcall :=
        match l with
        | [] => []
        | x :: r => (if visible (st_of x) then WGoTo 255 (pos_of x) :: display DNormal x else []) ++ columns r
        end) kids in
      match k with
      | Pages => panel m
      | Horizontal => match m with DCursor => panel DCursor | DNormal => columns end
      | Vertical => match m with DCursor => panel DCursor | DNormal => rows end
      | PageK =>                                          (* Page.h 107-111, 210-225 *)
          rows ++
          match current_input c with
          | Some f =>
              match cur with
              | Some i => match nth_error kids i with
                          | Some line => WCursor (pos_of line) (pos_of f) (is_selected f) :: panel DCursor
                          | None => []
                          end
              | None => []
              end
          | None => [WCursor 255 255 false]
          end
      end
  end.
End Draw.

(** Page.h 89-99 [Add]; ControlContainer.h 106-111 keeps at most [n] lines. *)
Definition set_pos (p : Z) (c : ctl) : ctl :=
  match c with
  | Label s _ t => Label s p t
  | Field s _ i lr log => Field s p i lr log
  | Box k s _ cur kids => Box k s p cur kids
  end.
Definition page_add (n : Z) (lines : list ctl) (line : ctl) : list ctl :=
  let count := Z.of_nat (length lines) in
  let line := if pos_of line =? 0 then set_pos (u8 count) line else line in
  if count <? n then lines ++ [line] else lines.

(** ** HD44780_DisplayWriter.h over TextWriter, view and controller.  The Write of a text is TextWriter.h
    57-66: each character goes to the view. *)
Definition dw_call (iw rows : Z) (s : Z * view) (w : wcall) : option (Z * view * list dop) :=
  match w with
  | WText t => bindo (view_run rows (snd s) (map VChar t)) (fun a => Some (fst s, fst a, snd a))
  | WGoTo l c => bindo (dw_goto rows (snd s) l c) (fun a => Some (fst s, fst a, snd a))
  | WCursor l c e => dw_cursor iw rows (fst s) (snd s) l c e
  end.
Fixpoint dw_run (iw rows : Z) (s : Z * view) (ws : list wcall) : option (Z * view * list dop) :=
  match ws with
  | [] => Some (fst s, snd s, [])
  | w :: rest => bindo (dw_call iw rows s w) (fun a => bindo (dw_run iw rows (fst a) rest) (fun b => Some (fst b, snd a ++ snd b)))
  end.
