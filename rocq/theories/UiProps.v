(** C47-C50: UI controls, containers, panels and pages, the text control. *)
Require Import ZArith List Bool Lia.
Import ListNotations.
From Verif Require Import Base ArrayModel UiModel UiSpec UiProofs UiTreeProofs EditModel EditSpec EditProofs.
Open Scope Z_scope.

(** C47: setState answers true exactly for the changes the class allows, and only then the state is
    the new one. *)
Theorem ui_set_state : forall k s new,
  (snd (set_state k s new) = true <-> allowed k s new) /\
  fst (set_state k s new) = if snd (set_state k s new) then new else s.
Proof. exact set_state_l. Qed.

(** C47: whatever setState, TrySelect and TryDeselect calls are made, labels are never focused or
    selected and panels never selected. *)
Theorem ui_state_history : forall k os, legal k (sops k Normal os).
Proof. intros k os. apply legal_run, legal_normal. Qed.

(** C47: unless the program itself calls setState(Selected), a control becomes selected only by
    TrySelect while it has the focus. *)
Theorem ui_select : forall k s o, o <> SSet Selected -> s <> Selected -> fst (sop1 k s o) = Selected -> s = Focused /\ o = SSelect.
Proof. exact selected_l. Qed.

(** C47 fails: setState(Selected) selects a disabled or hidden input control; TrySelect on a focused
    panel answers true though nothing changes. *)
Theorem ui_select_refuted :
  set_state KInput Disabled Selected = (Selected, true) /\ set_state KInput Hidden Selected = (Selected, true) /\
  try_select KPanel Focused = (Focused, true).
Proof. repeat split. Qed.

(** C47: IsOfType follows the class hierarchy for the types Control, InputControl and Page. *)
Theorem ui_types : forall k t, t = 1 \/ t = 2 \/ t = 4 -> is_of_type k t = is_a k t.
Proof. exact types_l. Qed.
(** C47 fails for Panel (type number 3): every control, a label too, says it is a panel. *)
Theorem ui_types_refuted : (forall k, is_of_type k 3 = true) /\ is_a KLabel 3 = false /\ is_a KInput 3 = false.
Proof. split; [exact types_panel|split; reflexivity]. Qed.

(** C49: in a container of at most 127 places getNext and getPrevious answer the neighbour in the
    list of the controls added (NULL is not added), NULL behind the ends, and the first or last one
    for a control that is not in the list. *)
Theorem ui_container : forall n ps m is, 0 <= n <= 127 ->
  exists c, cont_adds n (mkColl m 0) ps = Some c /\
    let l := firstn (Z.to_nat n) (filter (fun p => negb (p =? 0)) ps) in
    forall x, cont_next n is c x = Some (list_next is l x) /\ cont_prev n is c x = Some (list_prev is l x).
Proof. exact container_l. Qed.
(** C49: asking for the next one from NULL on until NULL lists the controls of the type, each once,
    in order; asking for the previous one lists them backwards. *)
Theorem ui_walk : forall is l, NoDup l -> Forall (fun p => p <> 0) l ->
  walk (list_next is l) 0 (S (length l)) = filter is l /\ walk (list_prev is l) 0 (S (length l)) = rev (filter is l).
Proof. intros is l N F. split; [apply walk_next_l|apply walk_prev_l]; assumption. Qed.
(** C49: getPrevious undoes getNext. *)
Theorem ui_prev_next : forall is l x, NoDup l -> Forall (fun p => p <> 0) l -> In x l -> is x = true ->
  list_next is l x <> 0 -> list_prev is l (list_next is l x) = x.
Proof. exact prev_next_l. Qed.
(** C49 fails for a control added twice (the walk never ends, the last control is never reached) and
    for more than 127 controls. *)
Theorem ui_container_refuted :
  (exists c, cont_adds 4 (mkColl (fun _ => 0) 0) [10; 20; 10; 30] = Some c /\
     cont_next 4 (fun _ => true) c 10 = Some 20 /\ cont_next 4 (fun _ => true) c 20 = Some 10) /\
  (exists c, cont_adds 200 (mkColl (fun _ => 0) 0) (map Z.of_nat (seq 1 130)) = Some c /\
     cont_next 200 (fun _ => true) c 128 = Some 0 /\ cont_prev 200 (fun _ => true) c 0 = Some 0).
Proof.
  split; (destruct (cont_adds _ _ _) as [c|] eqn:E; [|lazy in E; discriminate]); exists c; (split; [reflexivity|]);
    lazy in E; injection E as <-; split; lazy; reflexivity.
Qed.

(** C48: whatever commands are given and states set, in every panel of the tree only the current
    control can be focused or selected, the current control is an input control, and no label is
    focused or selected.  The program itself focuses or selects, and moves inside panels, only along
    the current path. *)
Theorem ui_focus : forall c l b, fresh c -> acts_ok c l -> inside b (acts c l) ->
  focus_ok b /\ (class_of b = KLabel -> active (st_of b) = false).
Proof. exact focus_l. Qed.
(** C48: without that care it fails: calling SetFirstInputControl on two lines of a page leaves a
    line focused that is not the current one. *)
Theorem ui_focus_refuted : exists c l, fresh c /\ ~ focus_ok (acts c l) /\ l = [AFirst [0%nat]; AFirst [1%nat]].
Proof.
  exists (Box PageK Normal 0 None [Box Horizontal Normal 0 None [Field Normal 0 1 false []]; Box Horizontal Normal 1 None [Field Normal 0 2 false []]]).
  eexists. split; [|split; [|reflexivity]].
  - cbn. tauto.
  - intros [A _]. cbn in A. specialize (A 0%nat _ eq_refl eq_refl). discriminate.
Qed.

(** C48: navigation leaves kinds, positions and texts alone; at most one field takes the command
    as editing, and then the answer is true and the command is Up, Down, Left or Right. *)
Theorem ui_nav_frame : forall m c,
  skel (fst (nav m c)) = skel c /\
  (logs (fst (nav m c)) = logs c \/
   extended (logs c) (logs (fst (nav m c))) m /\ snd (nav m c) = true /\ m <> Enter /\ m <> Exit /\ m <> NNone).
Proof. exact tame_nav. Qed.

(** C48: moving back and forth in a panel without current control goes through its input controls in
    order and stops at both ends; the answer tells whether the current control changed. *)
Theorem ui_moves : forall l b, cur_of b = None ->
  cur_of (moves b l) = place b (cursor (length (input_positions (kids_of b) 0)) l) /\
  (cursor (length (input_positions (kids_of b) 0)) l <> None -> cur_of (moves b l) <> None).
Proof. intros l b H. exact (proj2 (moves_l l b H)). Qed.
Theorem ui_move_answer : forall b fwd k, cur_of b = place b k -> (k <> None -> place b k <> None) ->
  let k' := cursor1 (length (input_positions (kids_of b) 0)) k fwd in
  snd (move b fwd) = negb (match k, k' with Some x, Some y => Nat.eqb x y | None, None => true | _, _ => false end) /\
  cur_of (fst (move b fwd)) = place b k'.
Proof. intros b fwd k H1 H2. destruct (move_l b fwd k H1 H2) as (A & _ & B & _). split; assumption. Qed.
(** C48: SetFirstInputControl makes the first input control current, if there is one. *)
Theorem ui_first : forall b,
  snd (set_first b) = negb (Nat.eqb (length (input_positions (kids_of b) 0)) 0) /\
  cur_of (fst (set_first b)) = match input_positions (kids_of b) 0 with [] => cur_of b | i :: _ => Some i end.
Proof. exact first_cur_l. Qed.
Print Assumptions ui_first.
(** C47: what the state means. *)
Theorem ui_getters : forall s,
  (visible s = true <-> s <> Hidden) /\ (enabled s = true <-> s <> Hidden /\ s <> Disabled) /\
  (active s = true <-> s = Focused \/ s = Selected).
Proof. intros []; cbn; intuition congruence. Qed.
Print Assumptions ui_getters.
(** C48: Left and Right do this in a horizontal panel of labels and fields of which none is selected,
    Up and Down in a vertical panel. *)
Theorem ui_horizontal : forall l st p kids, Forall plain kids ->
  navs (Box Horizontal st p None kids) (map lr_cmd l) = moves (Box Horizontal st p None kids) l.
Proof. exact horizontal_walk_l. Qed.
Theorem ui_vertical : forall l st p kids,
  navs (Box Vertical st p None kids) (map ud_cmd l) = moves (Box Vertical st p None kids) l.
Proof. exact vertical_walk_l. Qed.

(** C48: on a page, Enter and Exit reach the current field of the current line and nothing else; a
    selected field takes Up and Down (and Left and Right if it edits a text) and nothing else
    changes; without selection Up and Down change the line, if there is one. *)
Theorem ui_page_enter : forall st p i lines lst lp j fields f m, page_at st p i lines lst lp j fields f -> m = Enter \/ m = Exit ->
  nav m (Box PageK st p (Some i) lines) = (Box PageK st p (Some i) (put_field lines i j (fst (nav m f))), snd (nav m f)).
Proof. exact page_enter_l. Qed.
Theorem ui_page_selected : forall st p i lines lst lp j fields fp id lr log m,
  page_at st p i lines lst lp j fields (Field Selected fp id lr log) -> m = Up \/ m = Down \/ (lr = true /\ (m = Left \/ m = Right)) ->
  nav m (Box PageK st p (Some i) lines) = (Box PageK st p (Some i) (put_field lines i j (Field Selected fp id lr (log ++ [m]))), true).
Proof. exact page_selected_l. Qed.
Theorem ui_page_lines : forall st p i lines lst lp j fields f fwd,
  page_at st p i lines lst lp j fields f -> st_of f <> Selected -> snd (move (Box PageK st p (Some i) lines) fwd) = true ->
  nav (ud_cmd fwd) (Box PageK st p (Some i) lines) = move (Box PageK st p (Some i) lines) fwd.
Proof. exact page_move_l. Qed.

(** A page of two lines with a field each. *)
Definition two_lines : ctl :=
  Box PageK Normal 0 None
    [Box Horizontal Normal 0 None [Label Normal 0 [65]; Field Normal 2 1 false []];
     Box Horizontal Normal 1 None [Field Normal 0 2 true []]].
(** C48 fails across lines: after Down, Right, Down, Right two fields have the focus. *)
Theorem ui_focus_lines_refuted : focus_count (navs two_lines [Down; Right]) = 1%nat /\ focus_count (navs two_lines [Down; Right; Down; Right]) = 2%nat.
Proof. split; reflexivity. Qed.
(** C48 fails for controls that are disabled or hidden: moving lands on them, without any focus, and
    moving away makes them normal. *)
Theorem ui_disabled_refuted : exists c c1 c2 : ctl,
  c = Box Horizontal Normal 0 None [Field Normal 0 1 false []; Field Disabled 1 2 false []; Field Hidden 2 3 false []] /\
  navs c [Right; Right] = c1 /\ cur_of c1 = Some 1%nat /\ focus_count c1 = 0%nat /\
  navs c [Right; Right; Right; Left] = c2 /\ map st_of (kids_of c2) = [Normal; Focused; Normal].
Proof. do 3 eexists. repeat split; try reflexivity. Qed.
(** C48 fails for editing outside pages: a vertical panel never passes Up and Down to a selected
    field; in a horizontal panel Left and Right take the selection away from a field that does not
    use them. *)
Theorem ui_edit_refuted :
  let v := Box Vertical Normal 0 None [Field Normal 0 1 false []; Field Normal 1 2 false []] in
  let h := Box Horizontal Normal 0 None [Field Normal 0 1 false []; Field Normal 1 2 false []] in
  map st_of (kids_of (navs v [Down; Enter])) = [Selected; Normal] /\
  map st_of (kids_of (navs v [Down; Enter; Down])) = [Normal; Focused] /\ logs (navs v [Down; Enter; Down]) = [[]; []] /\
  map st_of (kids_of (navs h [Right; Enter])) = [Selected; Normal] /\
  map st_of (kids_of (navs h [Right; Enter; Right])) = [Normal; Focused].
Proof. repeat split. Qed.

(** C50: with any character set of 1 to 127 characters and any text, every history of commands,
    state changes and foreign iterator moves is well-defined; the edit position stays below the
    capacity (or is 0) and all other bytes, the terminator among them, keep their values. *)
Theorem ui_edit_safe : forall M n wrap cs t ops, 0 <= M <= 32766 -> 1 <= n <= 127 -> tc_edit t = 0 -> -1 <= tc_it t < n ->
  (forall j, In (TIter j) ops -> iter_ok n j) ->
  exists t' hs, tc_run M n wrap cs t ops = Some (t', hs) /\
    0 <= tc_edit t' < Z.max 1 (fs_capacity M) /\ (forall i, ~ 0 <= i < Z.max 1 (fs_capacity M) -> tc_buf t' i = tc_buf t i).
Proof. exact edit_safe_l. Qed.
(** C50: a text over a set of distinct characters behaves as the abstract editor, answers included. *)
Theorem ui_edit : forall M n wrap cs t e ops, 0 <= M <= 32766 -> 1 <= n <= 127 -> distinct n cs ->
  shows (fs_capacity M) n cs t e -> -1 <= tc_it t < n -> e_st e <> Selected -> iters_ok (fs_capacity M) n wrap e ops ->
  exists t', tc_run M n wrap cs t ops = Some (t', snd (ed_run (fs_capacity M) n wrap e ops)) /\
    shows (fs_capacity M) n cs t' (fst (ed_run (fs_capacity M) n wrap e ops)).
Proof. exact edit_l. Qed.
(** C50: seen from a panel the text control is a field that takes Left and Right. *)
Theorem ui_text_field : forall M n wrap cs t m log t' h, tc_nav M n wrap cs t m = Some (t', h) ->
  let '(s, _, h') := field_nav (tc_st t) true log m in tc_st t' = s /\ h = h'.
Proof. exact text_field_l. Qed.
(** C50 fails outside those bounds.  Character set "ABC" (65, 66, 67):
    with capacity 0 the terminator is overwritten; Down on a blank text writes a zero byte; a
    character outside the set is not where editing starts, but where the iterator was left; with 256
    characters the search for a foreign character never ends. *)
Definition abc (i : Z) : Z := 65 + i.
Theorem ui_edit_refuted_chars :
  let blank := mkTc Focused (fun _ => 0) 0 (-1) in
  let odd := mkTc Focused (fun i => if i =? 0 then 66 else if i =? 1 then 120 else 0) 0 (-1) in
  let text M o := option_map (fun r => cells (tc_buf (fst r)) 0 (Z.to_nat (M + 1))) o in
  text 0 (tc_run 0 3 false abc blank [TNav Enter; TNav Up]) = Some [65] /\
  text 2 (tc_run 2 3 false abc blank [TNav Enter; TNav Down]) = Some [0; 0; 0] /\
  text 2 (tc_run 2 3 false abc odd [TNav Enter; TNav Right; TNav Up]) = Some [66; 67; 0] /\
  tc_run 2 256 false (fun i => i mod 2) odd [TNav Enter] = None.
Proof. lazy. repeat split. Qed.

(** The hypotheses are satisfiable: examples. *)
Example ui_focus_ex : fresh two_lines /\ acts_ok two_lines [AFirst []; AFirst [0%nat]; ANav Enter; AState [0%nat; 1%nat] Selected; ANav Up; AClear [1%nat]].
Proof. split; [cbn; tauto|]. cbn. repeat split; auto. Qed.
Example ui_page_ex : exists i lines lst lp j fields f,
  navs two_lines [Down; Right; Enter] = Box PageK Focused 0 (Some i) lines /\ page_at Focused 0 i lines lst lp j fields f /\ st_of f = Selected.
Proof. do 7 eexists. split; [lazy; reflexivity|]. split; [split; reflexivity|reflexivity]. Qed.
Example ui_walk_ex :
  let h := Box Horizontal Normal 0 None [Label Normal 0 [65]; Field Normal 1 1 false []; Label Normal 2 []; Field Normal 3 2 true []] in
  Forall plain (kids_of h) /\ map (fun l => cur_of (navs h (map lr_cmd l))) [[]; [true]; [true; true]; [true; true; true]; [false]; [false; false; false]]
    = [None; Some 1%nat; Some 3%nat; Some 3%nat; Some 3%nat; Some 1%nat].
Proof. split; [|reflexivity]. cbn [kids_of]. repeat (apply Forall_cons || apply Forall_nil); cbn; discriminate. Qed.
Example ui_edit_ex :
  let t := mkTc Focused (fun i => if i =? 0 then 66 else if i =? 1 then 65 else 0) 0 (-1) in
  distinct 3 abc /\ shows (fs_capacity 2) 3 abc t (mkEd Focused 0 (fun i => if i =? 0 then 1 else 0)) /\
  option_map (fun r => cells (tc_buf (fst r)) 0 3) (tc_run 2 3 false abc t [TNav Enter; TNav Up; TNav Right; TNav Down; TNav Up; TNav Right; TNav Up; TNav Exit]) = Some [67; 67; 0].
Proof.
  cbv zeta. split; [intros i j _ _; unfold abc; lia|]. split; [|lazy; reflexivity].
  split; [reflexivity|]. split; [reflexivity|]. change (fs_capacity 2) with 2. split; [cbn; lia|].
  intros i Hi. cbn [e_num tc_buf]. assert (i = 0 \/ i = 1) as [->| ->] by lia; cbn; unfold abc; lia.
Qed.

Print Assumptions ui_set_state.
Print Assumptions ui_state_history.
Print Assumptions ui_select.
Print Assumptions ui_select_refuted.
Print Assumptions ui_types.
Print Assumptions ui_types_refuted.
Print Assumptions ui_container.
Print Assumptions ui_walk.
Print Assumptions ui_prev_next.
Print Assumptions ui_container_refuted.
Print Assumptions ui_focus.
Print Assumptions ui_focus_refuted.
Print Assumptions ui_nav_frame.
Print Assumptions ui_moves.
Print Assumptions ui_move_answer.
Print Assumptions ui_horizontal.
Print Assumptions ui_vertical.
Print Assumptions ui_page_enter.
Print Assumptions ui_page_selected.
Print Assumptions ui_page_lines.
Print Assumptions ui_focus_lines_refuted.
Print Assumptions ui_disabled_refuted.
Print Assumptions ui_edit_refuted.
Print Assumptions ui_edit_safe.
Print Assumptions ui_edit.
Print Assumptions ui_text_field.
Print Assumptions ui_edit_refuted_chars.
