(** Control.h, LabelControl.h, InputControl.h, UpDownControl.h, ControlContainer.h, Panel.h,
    PanelControlContainer.h, HorizontalPanel.h, VerticalPanel.h, Page.h, PageController.h:
    translated code.  LabelControl.h, ControlContainer.h and PageController.h name enum values that
    do not exist (Control::modeNormal, typeControl, Up); they are read as the values meant. *)
Require Import ZArith List Bool.
Import ListNotations.
From Verif Require Import Base ArrayModel.
Open Scope Z_scope.

(** ** States (Control.h 53-68) and BeforeChangeState *)
Inductive cstate := Normal | Hidden | Disabled | Focused | Selected.
Definition cstate_eqb (a b : cstate) : bool :=
  match a, b with
  | Normal, Normal | Hidden, Hidden | Disabled, Disabled | Focused, Focused | Selected, Selected => true
  | _, _ => false
  end.
(** Control.h 133-160. *)
Definition enabled (s : cstate) : bool := negb (cstate_eqb s Disabled) && negb (cstate_eqb s Hidden).
Definition active (s : cstate) : bool := cstate_eqb s Focused || cstate_eqb s Selected.
Definition visible (s : cstate) : bool := negb (cstate_eqb s Hidden).

(** Classes as far as states and types are concerned; UpDownControl and TextControl are KInput. *)
Inductive cclass := KControl | KLabel | KInput | KPanel | KPage.
(** Control.h 227-230, InputControl.h 108-120, LabelControl.h 87-92, Panel.h 113-117. *)
Definition before_control (s new : cstate) : bool := negb (cstate_eqb s new).
Definition before_input (s new : cstate) : bool :=
  if negb (before_control s new) then false
  else if cstate_eqb new Focused && negb (enabled s) then false else true.
Definition before (k : cclass) (s new : cstate) : bool :=
  match k with
  | KControl => before_control s new
  | KLabel => negb (cstate_eqb new Focused) && negb (cstate_eqb new Selected) && before_control s new
  | KInput => before_input s new
  | KPanel | KPage => negb (cstate_eqb new Selected) && before_input s new
  end.
(** Control.h 175-183. *)
Definition set_state (k : cclass) (s new : cstate) : cstate * bool :=
  if before k s new then (new, true) else (s, false).

(** InputControl.h 64-85. *)
Definition try_select (k : cclass) (s : cstate) : cstate * bool :=
  if cstate_eqb s Focused then (fst (set_state k s Selected), true) else (s, false).
Definition try_deselect (k : cclass) (s : cstate) : cstate * bool :=
  if cstate_eqb s Selected then (fst (set_state k s Focused), true) else (s, false).

(** ** Types: Control.h 35-48, 197-212; InputControl.h 91-95; Panel.h 96-99; Page.h 144-147. *)
Definition is_of_type (k : cclass) (t : Z) : bool :=
  let control := Z.land t 1 =? 1 in
  let input := (Z.land 2 t =? 2) || control in
  let panel := (Z.land 3 t =? 3) || input in
  match k with
  | KControl | KLabel => control
  | KInput => input
  | KPanel => panel
  | KPage => (Z.land 4 t =? 4) || panel
  end.

(** ** ControlContainer.h over Collection<FixedArray<Control*, MaxItems>>; pointers are numbers, 0 is
    NULL.  [is] is IsOfType of the control for the type asked for. *)
Section Container.
Variable MaxItems : Z.
Variable is : Z -> bool.
Definition cont_get (c : coll Z) (i : Z) : option Z := coll_get 0 MaxItems c i.
(** The loops 61-70 and 91-100 with [d] = 1 or -1; the index is an int8_t. *)
Fixpoint cont_loop (c : coll Z) (d index : Z) (fuel : nat) : option Z :=
  match fuel with
  | O => None
  | S k => if (index >=? 0) && (index <? c_count c)
           then match cont_get c index with
                | None => None
                | Some p => if negb (p =? 0) && is p then Some p else cont_loop c d (s8 (index + d)) k
                end
           else Some 0
  end.
(** 48-71. *)
Definition cont_next (c : coll Z) (cur : Z) : option Z :=
  match coll_index_of Z.eqb 0 MaxItems c cur with
  | None => None
  | Some index =>
      let index := if negb (index =? -1) then s8 (index + 1) else if c_count c >? 0 then 0 else index in
      cont_loop c 1 index 256
  end.
(** 78-101. *)
Definition cont_prev (c : coll Z) (cur : Z) : option Z :=
  match coll_index_of Z.eqb 0 MaxItems c cur with
  | None => None
  | Some index =>
      let index := if negb (index =? -1) then s8 (index - 1) else if c_count c >? 0 then s8 (c_count c - 1) else index in
      cont_loop c (-1) index 256
  end.
(** 106-111. *)
Definition cont_add (c : coll Z) (p : Z) : option (coll Z) :=
  if p =? 0 then Some c else coll_step MaxItems c (CAdd p).
Fixpoint cont_adds (c : coll Z) (ps : list Z) : option (coll Z) :=
  match ps with
  | [] => Some c
  | p :: rest => match cont_add c p with Some c => cont_adds c rest | None => None end
  end.
End Container.

(** ** Navigation.  Controls form a tree; a panel's current control is the index of one of its own
    controls.  Each control is in one container, at most 127 in each, so that getNext and getPrevious
    are the searches proved under C49.
    A field records the commands its value consumed; [lr] tells a TextControl, which also takes Left
    and Right, from a plain UpDownControl. *)
Inductive cmd := NNone | Up | Down | Left | Right | Enter | Exit.
Inductive pkind := Horizontal | Vertical | PageK | Pages.
Inductive ctl :=
| Label (st : cstate) (pos : Z) (text : list Z)
| Field (st : cstate) (pos : Z) (id : Z) (lr : bool) (log : list cmd)
| Box (k : pkind) (st : cstate) (pos : Z) (cur : option nat) (kids : list ctl).

Definition st_of (c : ctl) : cstate := match c with Label s _ _ | Field s _ _ _ _ | Box _ s _ _ _ => s end.
Definition pos_of (c : ctl) : Z := match c with Label _ p _ | Field _ p _ _ _ | Box _ _ p _ _ => p end.
Definition class_of (c : ctl) : cclass :=
  match c with Label _ _ _ => KLabel | Field _ _ _ _ _ => KInput | Box PageK _ _ _ _ => KPage | Box _ _ _ _ _ => KPanel end.
(** setState of a control of the tree. *)
Definition set_st (new : cstate) (c : ctl) : ctl :=
  let s := fst (set_state (class_of c) (st_of c) new) in
  match c with
  | Label _ p t => Label s p t
  | Field _ p i lr log => Field s p i lr log
  | Box k _ p cur kids => Box k s p cur kids
  end.
Definition is_input (c : ctl) : bool := is_of_type (class_of c) 2.

Fixpoint update {A} (l : list A) (i : nat) (f : A -> A) : list A :=
  match l, i with
  | [], _ => []
  | x :: r, O => f x :: r
  | x :: r, S j => x :: update r j f
  end.
(** getNext and getPrevious for InputControl, as indices. *)
Fixpoint first_input (kids : list ctl) (i : nat) : option nat :=
  match kids with [] => None | x :: r => if is_input x then Some i else first_input r (S i) end.
Fixpoint last_input (kids : list ctl) (i : nat) : option nat :=
  match kids with
  | [] => None
  | x :: r => match last_input r (S i) with Some j => Some j | None => if is_input x then Some i else None end
  end.
Definition next_input (kids : list ctl) (cur : option nat) : option nat :=
  match cur with Some i => first_input (skipn (S i) kids) (S i) | None => first_input kids 0 end.
Definition prev_input (kids : list ctl) (cur : option nat) : option nat :=
  match cur with Some i => last_input (firstn i kids) 0 | None => last_input kids 0 end.

(** Panel.h 50-65 [setCurrentControl]. *)
Definition set_current (b : ctl) (new : option nat) : ctl :=
  match b with
  | Box k st p cur kids =>
      let cl := class_of b in
      let (st, kids) := match cur with
                        | Some i => (fst (set_state cl st Normal), update kids i (set_st Normal))
                        | None => (st, kids)
                        end in
      match new with
      | Some j => Box k (fst (set_state cl st Focused)) p new (update kids j (set_st Focused))
      | None => Box k st p None kids
      end
  | _ => b
  end.
(** PanelControlContainer.h 46-86. *)
Definition kids_of (b : ctl) : list ctl := match b with Box _ _ _ _ kids => kids | _ => [] end.
Definition cur_of (b : ctl) : option nat := match b with Box _ _ _ cur _ => cur | _ => None end.
Definition go (b : ctl) (j : option nat) : ctl * bool :=
  match j with Some j => (set_current b (Some j), true) | None => (b, false) end.
Definition set_first (b : ctl) : ctl * bool := go b (next_input (kids_of b) None).
Definition set_next (b : ctl) : ctl * bool := go b (next_input (kids_of b) (cur_of b)).
Definition set_prev (b : ctl) : ctl * bool := go b (prev_input (kids_of b) (cur_of b)).

(** Page.h 184-202 [getCurrentInputControl]. *)
Definition current_input (b : ctl) : option ctl :=
  match cur_of b with
  | Some i => match nth_error (kids_of b) i with
              | Some line => match cur_of line with Some j => nth_error (kids_of line) j | None => None end
              | None => None
              end
  | None => None
  end.
Definition is_selected (c : ctl) : bool := cstate_eqb (st_of c) Selected.
(** Page.h 152-179: may the line change? *)
Definition may_leave (b : ctl) : bool := match current_input b with None => true | Some c => negb (is_selected c) end.

(** TextControl.h 76-95, UpDownControl.h 65-84, InputControl.h 46-59. *)
Definition field_nav (st : cstate) (lr : bool) (log : list cmd) (m : cmd) : cstate * list cmd * bool :=
  let input := match m with
               | Enter => let (s, h) := try_select KInput st in (s, log, h)
               | Exit => let (s, h) := try_deselect KInput st in (s, log, h)
               | _ => (st, log, false)
               end in
  let consume := if cstate_eqb st Selected then (st, log ++ [m], true) else input in
  match m with
  | Left | Right => if lr then consume else input
  | Up | Down => consume
  | _ => input
  end.

(** OnNavigationCommand: Panel.h 82-90, HorizontalPanel.h 57-76, VerticalPanel.h 56-69,
    Page.h 118-138, PageController.h 57-76. *)
Fixpoint nav (m : cmd) (c : ctl) {struct c} : ctl * bool :=
  match c with
  | Label _ _ _ => (c, false)
  | Field st p i lr log => let '(st, log, h) := field_nav st lr log m in (Field st p i lr log, h)
  | Box k st p cur kids =>
      let nav_at := fix nav_at (l : list ctl) (i : nat) : list ctl * bool :=
        match l, i with
        | [], _ => ([], false)
        | x :: r, O => let (x, h) := nav m x in (x :: r, h)
        | x :: r, S j => let (r, h) := nav_at r j in (x :: r, h)
        end in
      let base := match cur with
                  | None => (c, false)
                  | Some i => let (kids, h) := nav_at kids i in (Box k st p cur kids, h)
                  end in
      match k with
      | Horizontal =>
          let (c, h) := base in
          if h then (c, true) else match m with Left => set_prev c | Right => set_next c | _ => (c, false) end
      | Vertical =>
          match m with Up => set_prev c | Down => set_next c | _ => base end
      | PageK =>
          let (c', h) := match m with
                         | Up => if may_leave c then set_prev c else (c, false)
                         | Down => if may_leave c then set_next c else (c, false)
                         | _ => (c, false)
                         end in
          if h then (c', true) else base
      | Pages =>
          let (c, h) := base in
          if h then (c, true) else match m with Up => set_prev c | Down => set_next c | _ => (c, false) end
      end
  end.

(** What a program may do: navigate, change the state of a control, set the current control of a
    panel.  A path leads from the root to a control. *)
Inductive act :=
| ANav (m : cmd) | AState (path : list nat) (s : cstate)
| AFirst (path : list nat) | ANext (path : list nat) | APrev (path : list nat) | AClear (path : list nat).
Fixpoint at_path (path : list nat) (f : ctl -> ctl) (c : ctl) : ctl :=
  match path with
  | [] => f c
  | i :: rest => match c with Box k st p cur kids => Box k st p cur (update kids i (at_path rest f)) | _ => c end
  end.
Definition act1 (c : ctl) (a : act) : ctl :=
  match a with
  | ANav m => fst (nav m c)
  | AState path s => at_path path (set_st s) c
  | AFirst path => at_path path (fun b => fst (set_first b)) c
  | ANext path => at_path path (fun b => fst (set_next b)) c
  | APrev path => at_path path (fun b => fst (set_prev b)) c
  | AClear path => at_path path (fun b => set_current b None) c
  end.
Definition acts (c : ctl) (l : list act) : ctl := fold_left act1 l c.
