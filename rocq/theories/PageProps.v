(** C65: a page on the display. *)
Require Import ZArith List Bool Lia.
Import ListNotations.
From Verif Require Import Base HdModel HdSpec HdProofs UiModel PageModel PageSpec PageProofs PageTreeProofs.
Open Scope Z_scope.

(** C65: displaying a page whose texts fit shows every text of a visible control of a visible line at
    the row of the line and the column of the control, later ones over earlier ones, and leaves every
    other cell, the scroll position and the display switch alone.  Register and display stay in step. *)
Theorem page_draw : forall iw rows text edit page r v d, 8 <= iw -> rows_ok rows ->
  page_fits text rows page -> cursor_fits edit rows page -> in_step iw r d ->
  exists r' v' ds, dw_run iw rows (r, v) (display text edit DNormal page) = Some (r', v', ds) /\ Forall whole ds /\
    let d' := exec_all d (map byte_of ds) in
    in_step iw r' d' /\ disp d' = disp d /\ off d' = off d /\
    forall y x, 0 <= y < rows -> 0 <= x < width rows -> on_screen d' y x = picture (on_screen d) (page_pieces text page) y x.
Proof.
  intros iw rows text edit page r v d Hw Hr F C S.
  destruct (page_draw_l iw rows Hw Hr text edit page r v d F C S) as (r' & v' & ds & E & W & A1 & A2 & A3 & A4 & _).
  exists r', v', ds. auto 7.
Qed.

(** C65: afterwards the cursor is on at the current control of the current line (on the character being
    edited, for a text control), blinking exactly when the control is selected; without current control
    it is off.  For a text control that has the focus or is selected this holds on the top line only. *)
Theorem page_cursor : forall iw rows text edit page r v d, 8 <= iw -> rows_ok rows ->
  page_fits text rows page -> cursor_fits edit rows page -> in_step iw r d ->
  exists r' v' ds, dw_run iw rows (r, v) (display text edit DNormal page) = Some (r', v', ds) /\
    let d' := exec_all d (map byte_of ds) in
    match current_line page, current_input page with
    | Some line, Some f => curs d' = true /\ blink d' = is_selected f /\
        (edits f = false \/ pos_of line = 0 -> ac d' = cell_address (pos_of line) (pos_of f + edit_of edit f))
    | _, _ => curs d' = false
    end.
Proof.
  intros iw rows text edit page r v d Hw Hr F C S.
  destruct (page_draw_l iw rows Hw Hr text edit page r v d F C S) as (r' & v' & ds & E & W & A1 & A2 & A3 & A4 & A5).
  exists r', v', ds. split; [exact E|]. cbv zeta. destruct (current_line page) as [line|]; [|apply A5].
  destruct (current_input page) as [f|]; [|apply A5]. destruct A5 as (B1 & B2 & B3). split; [exact B1|]. split; [exact B2|].
  intros Q. rewrite B3. unfold cursor_row. destruct (edits f); [|reflexivity]. destruct Q as [Q|Q]; [discriminate|]. rewrite Q. reflexivity.
Qed.

(** C65 fails: on any line but the top one the cursor of a text control that has the focus or is
    selected appears on the top line.  (TextControl passes DontCare as the line, and
    HD44780_DisplayWriter::SetCursor takes a single DontCare as line 255.) *)
Theorem page_cursor_refuted : forall iw rows text edit page r v d line f, 8 <= iw -> rows_ok rows ->
  page_fits text rows page -> cursor_fits edit rows page -> in_step iw r d ->
  current_line page = Some line -> current_input page = Some f -> edits f = true -> pos_of line <> 0 ->
  exists r' v' ds, dw_run iw rows (r, v) (display text edit DNormal page) = Some (r', v', ds) /\
    let d' := exec_all d (map byte_of ds) in
    ac d' = cell_address 0 (pos_of f + edit_of edit f) /\ ac d' <> cell_address (pos_of line) (pos_of f + edit_of edit f).
Proof.
  intros iw rows text edit page r v d line f Hw Hr F C S El Ef Ee Hp.
  destruct (page_draw_l iw rows Hw Hr text edit page r v d F C S) as (r' & v' & ds & E & W & A1 & A2 & A3 & A4 & A5).
  exists r', v', ds. split; [exact E|]. cbv zeta. rewrite El, Ef in A5. destruct A5 as (B1 & B2 & B3).
  unfold cursor_row in B3. rewrite Ee in B3. split; [exact B3|]. rewrite B3. destruct (C line f El Ef) as (C1 & C2 & C3 & C4).
  intros X. apply (cell_inj rows) in X; auto; try lia.
Qed.

(** C65: the same for any number of pages displayed one after the other. *)
Theorem page_history : forall iw rows, 8 <= iw -> rows_ok rows -> forall pages r v d, Forall (all_fit rows) pages -> in_step iw r d ->
  exists r' v' ds, draw_all iw rows (r, v) pages = Some (r', v', ds) /\ Forall whole ds /\
    let d' := exec_all d (map byte_of ds) in
    in_step iw r' d' /\
    forall y x, 0 <= y < rows -> 0 <= x < width rows -> on_screen d' y x = picture (on_screen d) (all_pieces pages) y x.
Proof. exact draw_all_l. Qed.

(** C65: register and display are in step once Initialize(true) and a call that sends the
    display-control command were made, whatever the display showed before. *)
Theorem page_start : forall iw, 8 <= iw -> forall d os, os <> [] -> Forall control_call os ->
  exists r ds, ctl_run iw 0 (CEntry true false :: os) = Some (r, ds) /\ Forall whole ds /\
    in_step iw r (exec_all (exec_all d [(false, 40); (false, 1); (false, 2)]) (map byte_of ds)).
Proof. exact start_l. Qed.

(** C65: over the parallel driver exactly those bytes reach the display. *)
Theorem page_wire : forall lo l ds, 0 <= lo < 16 -> en l = true -> Forall whole ds ->
  exists l', en l' = true /\ watch lo l M4 (par_run l ds) = (l', M4, map byte_of ds).
Proof. exact wire_l. Qed.

(** C65: a page controller displays its current page only. *)
Theorem page_controller : forall text edit m st p cur pages, display text edit m (Box Pages st p cur pages) =
  match cur with Some i => match nth_error pages i with Some x => display text edit m x | None => [] end | None => [] end.
Proof. intros text edit m st p [i|] pages; cbn [display]; [rewrite current_at|]; reflexivity. Qed.

(** C65: lines added without a position get the rows 0, 1, 2, ... *)
Theorem page_add_rows : forall n lines, Z.of_nat (length lines) <= n <= 255 -> Forall (fun x => pos_of x = 0) lines ->
  map pos_of (page_adds n lines) = map Z.of_nat (seq 0 (length lines)) /\
  page_adds n lines = map (fun q => set_pos (Z.of_nat (fst q)) (snd q)) (combine (seq 0 (length lines)) lines).
Proof. exact adds_l. Qed.

Definition at_row (p : Z) (kids : list ctl) (cur : option nat) : ctl := Box Horizontal Normal p cur kids.
(** C65 fails when positions are given for some lines: two lines get the same row. *)
Theorem page_add_rows_refuted : map pos_of (page_adds 2 [at_row 1 [] None; at_row 0 [] None]) = [1; 1].
Proof. reflexivity. Qed.

(** C65 fails: hiding a control leaves its text on the display. *)
Theorem page_hidden_refuted :
  let page s := Box PageK Normal 0 None [at_row 0 [Label s 3 [65; 66]] None] in
  let no_text (_ : Z) := @nil Z in let no_edit (_ : Z) := 0 in
  match draw_all 16 2 (0, {| row := 0; col := 0 |}) [(page Normal, no_text, no_edit); (page Hidden, no_text, no_edit)] with
  | Some (_, _, ds) => let d := exec_all lcd_new (map byte_of ds) in (on_screen d 0 3, on_screen d 0 4) = (65, 66)
  | None => False
  end.
Proof. lazy. reflexivity. Qed.
(** C65 fails: when a selected control was displayed and then a page without current control, the
    cursor is off but the display keeps blinking. *)
Theorem page_blink_refuted :
  let page cur := Box PageK Normal 0 (Some 0%nat) [at_row 0 [Field Selected 3 1 false []] cur] in
  let one_text (_ : Z) := [65] in let no_edit (_ : Z) := 0 in
  match draw_all 16 2 (0, {| row := 0; col := 0 |}) [(page (Some 0%nat), one_text, no_edit); (page None, one_text, no_edit)] with
  | Some (_, _, ds) => let d := exec_all lcd_new (map byte_of ds) in (curs d, blink d) = (false, true)
  | None => False
  end.
Proof. lazy. reflexivity. Qed.

(** C65: panels in panels to any depth.  The display shows what [layout] says, later pieces over earlier
    ones, and nothing else changes; the cursor is at the current control of the current line, or, when a
    text control below it has the focus or is selected, on the top line at the character being edited. *)
Theorem page_tree : forall iw rows text edit page r v d, 8 <= iw -> rows_ok rows ->
  tree_fits text rows page -> tree_cursor_fits edit rows page -> in_step iw r d ->
  exists r' v' ds, dw_run iw rows (r, v) (display text edit DNormal page) = Some (r', v', ds) /\ Forall whole ds /\
    let d' := exec_all d (map byte_of ds) in
    in_step iw r' d' /\ disp d' = disp d /\ off d' = off d /\
    (forall y x, 0 <= y < rows -> 0 <= x < width rows ->
       on_screen d' y x = picture (on_screen d) (fst (layout text 0 0 page)) y x) /\
    match current_line page, current_input page with
    | Some line, Some f => curs d' = true /\
        match own_cursor f with
        | Some g => blink d' = is_selected g /\ ac d' = cell_address 0 (pos_of g + edit_of edit g)
        | None => blink d' = is_selected f /\ ac d' = cell_address (pos_of line) (pos_of f)
        end
    | _, _ => curs d' = false /\ blink d' = blink d
    end.
Proof. intros iw rows text edit page r v d Hw Hr. exact (tree_draw_l iw rows Hw Hr text edit page r v d). Qed.

(** C65 fails for a vertical panel inside a line: what follows it on the line appears on the row where the
    panel ended ("b" on row 1), and the cursor stays on the row of the line although the current field is
    on another row. *)
Definition tall (cur : option nat) : ctl := Box Vertical Normal 0 cur [Label Normal 0 [97]; Field Focused 1 7 false []].
Theorem page_tree_refuted :
  let page := Box PageK Normal 0 (Some 0%nat) [at_row 0 [tall (Some 1%nat); Label Normal 5 [98]] (Some 0%nat)] in
  let text (_ : Z) := [99] in let no_edit (_ : Z) := 0 in
  tree_fits text 2 page /\ tree_cursor_fits no_edit 2 page /\
  match draw_all 16 2 (0, {| row := 0; col := 0 |}) [(page, text, no_edit)] with
  | Some (_, _, ds) => let d := exec_all lcd_new (map byte_of ds) in
      on_screen d 0 0 = 97 /\ on_screen d 1 0 = 99 /\ on_screen d 0 5 = 32 /\ on_screen d 1 5 = 98 /\
      curs d = true /\ ac d = cell_address 0 0
  | None => False
  end.
Proof.
  cbv zeta. split; [|split].
  - split; [repeat constructor|]. cbn. repeat (apply Forall_cons || apply Forall_nil); unfold piece_fits, width; cbn;
      repeat (apply conj || apply Forall_cons || apply Forall_nil || lia).
  - intros line f E1 E2. injection E1 as <-. injection E2 as <-. cbn. unfold width. cbn. repeat split; try lia.
    all: intros; lia || (match goal with H : Some _ = Some _ |- _ => injection H as <-; discriminate end).
  - lazy. repeat split.
Qed.

(** Examples: a page of two lines; Down, Right and Enter, displayed. *)
Definition demo : ctl :=
  Box PageK Normal 0 None
    [Box Horizontal Normal 0 None [Label Normal 0 [65; 61]; Field Normal 2 1 false []];
     Box Horizontal Normal 1 None [Label Hidden 0 [66]; Field Normal 5 2 true []]].
Definition demo_text (i : Z) : list Z := if i =? 1 then [49; 50] else [97; 98; 99].
Definition nav_all (c : ctl) (l : list cmd) : ctl := fold_left (fun c m => fst (nav m c)) l c.
Example page_fits_ex : forall l, In l [[]; [Down; Right; Enter]; [Down; Down; Right; Enter]] ->
  page_fits demo_text 2 (nav_all demo l) /\ cursor_fits (fun _ => 2) 2 (nav_all demo l).
Proof.
  intros l H. cbn [In] in H. destruct H as [<-|[<-|[<-|[]]]]; (split;
    [cbn; repeat (apply Forall_cons || apply Forall_nil); unfold line_fits, control_fits; cbn;
       repeat (split || apply Forall_cons || apply Forall_nil || intros ?); (auto || discriminate || (unfold width; cbn; lia) || idtac)
    |intros line f; cbn; intros E1 E2; try discriminate; injection E1 as <-; injection E2 as <-; cbn; unfold width; cbn; lia]).
Qed.
Example page_start_ex : in_step 16 4 (exec_all lcd_new [(false, 12)]).
Proof. repeat split; (reflexivity || lia). Qed.
Example page_demo_ex :
  match dw_run 16 2 (4, {| row := 0; col := 0 |}) (display demo_text (fun _ => 2) DNormal (nav_all demo [Down; Right; Enter])) with
  | Some (_, _, ds) =>
      let d := exec_all lcd_new ((false, 12) :: map byte_of ds) in
      (map (on_screen d 0) [0; 1; 2; 3; 4], map (on_screen d 1) [0; 4; 5; 6; 7], curs d, blink d, ac d)
        = ([65; 61; 49; 50; 32], [32; 32; 97; 98; 99], true, true, cell_address 0 2)
  | None => False
  end.
Proof. lazy. reflexivity. Qed.
(** The text control on the second line: its cursor is on the first. *)
Example page_demo2_ex :
  let page := nav_all demo [Down; Down; Right; Enter] in
  option_map pos_of (current_line page) = Some 1 /\
  match dw_run 16 2 (4, {| row := 0; col := 0 |}) (display demo_text (fun _ => 2) DNormal page) with
  | Some (_, _, ds) => ac (exec_all lcd_new ((false, 12) :: map byte_of ds)) = cell_address 0 7
  | None => False
  end.
Proof. lazy. split; reflexivity. Qed.

(** A text control in a vertical panel in a line, with the focus: the cursor goes to its character, on
    the top line. *)
Example page_tree_ex :
  let page := Box PageK Normal 0 (Some 0%nat)
    [at_row 1 [Label Normal 5 [98]; Box Vertical Normal 2 (Some 0%nat) [Field Focused 1 7 true []]] (Some 1%nat)] in
  let text (_ : Z) := [99; 100] in let edit (_ : Z) := 1 in
  option_map pos_of (match current_input page with Some f => own_cursor f | None => None end) = Some 1 /\
  match draw_all 16 2 (0, {| row := 0; col := 0 |}) [(page, text, edit)] with
  | Some (_, _, ds) => let d := exec_all lcd_new (map byte_of ds) in
      on_screen d 1 0 = 99 /\ on_screen d 1 1 = 100 /\ on_screen d 1 5 = 98 /\ curs d = true /\ ac d = cell_address 0 2
  | None => False
  end.
Proof. lazy. repeat split. Qed.

Print Assumptions page_draw.
Print Assumptions page_cursor.
Print Assumptions page_cursor_refuted.
Print Assumptions page_history.
Print Assumptions page_start.
Print Assumptions page_wire.
Print Assumptions page_controller.
Print Assumptions page_add_rows.
Print Assumptions page_add_rows_refuted.
Print Assumptions page_hidden_refuted.
Print Assumptions page_blink_refuted.
Print Assumptions page_tree.
Print Assumptions page_tree_refuted.
