(** C43-C46, C60: the HD44780 display drivers, controller, view, viewport and display writer. *)
Require Import ZArith List Bool Lia.
Import ListNotations.
From Verif Require Import Base BitModel HdModel HdSpec HdIfProofs HdProofs HdCtlProofs.
Open Scope Z_scope.

(** C43: over the parallel pins the display takes exactly the nibbles the calls stand for, with the
    right register select, RS and data stable at each falling edge of enable. *)
Theorem hd_parallel : forall lo os l, en l = true -> Forall dop_ok os ->
  exists l', delivers lo l (par_run l os) (all_nibs (rs l) os) l'.
Proof. intros lo os l. apply par_run_d. Qed.

(** C43: the same over I2C, from the constructor on and whatever the board's lines were; R/W stays
    low and the last byte sent carries the backlight state last asked for. *)
Theorem hd_i2c : forall lo iw os, 8 <= iw -> Forall iop_ok os -> os <> [] ->
  exists r0 r tr, i2c_new iw = Some r0 /\ i2c_run iw r0 os = Some (r, tr) /\
    Forall (fun b => 0 <= b < 256 /\ Z.testbit b 1 = false) tr /\
    Z.testbit (last tr 0) 3 = final_light true os /\
    forall l, delivers lo l (map i2c_lines tr) (all_inibs false os) (i2c_lines r).
Proof. exact hd_i2c_l. Qed.

(** C43: the same through a shared shift register, for any distinct bit positions; the bits of other
    devices never change.  (What Serial3WireOutput::Write does with the values is C41.) *)
Theorem hd_3wire : forall lo iw w ix os r, 1 <= w <= iw ->
  Forall (fun i => 0 <= i < w) (index_list ix) -> NoDup (index_list ix) -> 0 <= r < 2 ^ w -> Forall dop_ok os ->
  exists r0 r1 tr, w3_attach iw w ix r = Some (r0, [r0]) /\ w3_run iw w ix r0 os = Some (r1, tr) /\
    others w ix r r0 /\ Forall (others w ix r) tr /\
    delivers lo (w3_lines ix r0) (map (w3_lines ix) tr) (all_nibs false os) (w3_lines ix r1).
Proof. exact hd_w3_l. Qed.

(** C43: a display in 4-bit mode turns the nibbles of whole-byte calls into exactly those bytes. *)
Theorem hd_bytes : forall lo, 0 <= lo < 16 -> forall os r, Forall whole os ->
  edges lo M4 (all_nibs r os) = (M4, map byte_of os).
Proof. intros lo _. exact (whole_edges lo). Qed.

(** C43: with RS low the initialisation brings a display in any state into 4-bit mode, and the calls
    after it arrive as whole bytes. *)
Theorem hd_initialise : forall lo, 0 <= lo < 16 -> forall m os, mode_ok m -> Forall whole os ->
  exists ts, edges lo m (all_nibs false (init_ops ++ os)) = (M4, ts ++ map byte_of os).
Proof. exact init_then. Qed.

(** C43: the same for the controller's Initialize(true): after its commands 0x28, 1 and 2 the calls
    arrive as whole bytes. *)
Theorem hd_controller_initialise : forall iw lo r m os, 0 <= lo < 16 -> mode_ok m -> Forall whole os ->
  exists ds ts, ctl_op iw r (CInit true) = Some (r, ds) /\
    edges lo m (all_nibs false (ds ++ os)) = (M4, ts ++ [(false, 40); (false, 1); (false, 2)] ++ map byte_of os).
Proof. exact ctl_init_l. Qed.

(** C43, finding: Initialize does not lower RS.  After a WriteData a display that is out of step by
    one nibble stays out of step. *)
Theorem hd_initialise_refuted : forall lo, 0 <= lo < 16 -> forall h, 0 <= h < 16 ->
  fst (edges lo (M4half h) (all_nibs true (init_ops ++ [DCmd 40; DCmd 1; DCmd 2]))) = M4half 2.
Proof. intros lo _. exact (init_rs_high lo). Qed.

(** C44: after any history of controller calls (other than a full Initialize, which is C43) the
    getters and the display agree with the settings last asked for. *)
Theorem hd_settings : forall iw, 8 <= iw -> forall os, Forall no_init os -> Forall cop_ok os ->
  exists r ds, ctl_run iw 0 os = Some (r, ds) /\ Forall whole ds /\
    let s := set_all settings_new os in let d := exec_all lcd_new (map byte_of ds) in
    ctl_get iw r 0 = Some (s_blink s) /\ ctl_get iw r 1 = Some (s_curs s) /\ ctl_get iw r 2 = Some (s_disp s) /\
    ctl_get iw r 3 = Some (s_shift s) /\ ctl_get iw r 4 = Some (s_left s) /\
    disp d = s_disp s /\ curs d = s_curs s /\ blink d = s_blink s /\ shift d = s_shift s.
Proof. exact ctl_settings_l. Qed.

(** C44: each controller call has exactly the effect on the display that it is named for. *)
Theorem hd_controller : forall iw, 8 <= iw -> forall os, Forall no_init os -> Forall cop_ok os ->
  exists r ds, ctl_run iw 0 os = Some (r, ds) /\ Forall whole ds /\
    exec_all lcd_new (map byte_of ds) = snd (fold_left lcd_call os (settings_new, lcd_new)).
Proof. exact hd_controller_l. Qed.

(** C44: the text direction of the display agrees too, once an entry-mode setter was called and as
    long as the display is not cleared. *)
Theorem hd_direction : forall iw, 8 <= iw -> forall os o os2,
  Forall no_init (os ++ o :: os2) -> Forall cop_ok (os ++ o :: os2) -> entry_call o -> Forall no_clear os2 ->
  exists r ds, ctl_run iw 0 (os ++ o :: os2) = Some (r, ds) /\
    inc (exec_all lcd_new (map byte_of ds)) = s_left (set_all settings_new (os ++ o :: os2)).
Proof. exact ctl_entry_l. Qed.

(** C44, finding: the first setEnableDisplayShift turns a new display to decrement, because the
    register starts at 0; and ClearDisplay puts the display back to increment while the controller
    keeps the other direction. *)
Theorem hd_direction_refuted :
  (exists r ds, ctl_run 16 0 [CShift false] = Some (r, ds) /\
    inc lcd_new = true /\ inc (exec_all lcd_new (map byte_of ds)) = false) /\
  (exists r ds, ctl_run 16 0 [CEntry false false; CClear] = Some (r, ds) /\
    ctl_get 16 r 4 = Some false /\ inc (exec_all lcd_new (map byte_of ds)) = true).
Proof. split; eexists; eexists; (split; [reflexivity|]); split; reflexivity. Qed.

(** C45: from a view whose tracked position is the origin, Initialize(true) and any calls that stay on
    the screen, over the parallel driver and from any display state: the tracked position is that of
    the screen and the display memory shows the screen's characters at the address of each cell. *)
Theorem hd_view : forall lo rows os l m d, 0 <= lo < 16 -> rows_ok rows -> mode_ok m -> en l = true -> rs l = false ->
  scr_fits rows blank os ->
  exists v ops, view_run rows {| row := 0; col := 0 |} (VInit true :: os) = Some (v, ops) /\
    let '(l', m', ts) := watch lo l m (par_run l ops) in
    m' = M4 /\ en l' = true /\ row v = srow (scr_final blank os) /\ col v = scol (scr_final blank os) /\
    forall r c, 0 <= r < rows -> 0 <= c < width rows -> mem (exec_all d ts) (cell_address r c) = cell (scr_final blank os) r c.
Proof. exact view_end_to_end. Qed.

(** C45: cells of a screen are different memory cells. *)
Theorem hd_cells_distinct : forall rows r c r' c', rows_ok rows ->
  0 <= r < rows -> 0 <= c < width rows -> 0 <= r' < rows -> 0 <= c' < width rows ->
  cell_address r c = cell_address r' c' -> r = r' /\ c = c'.
Proof. exact cell_inj. Qed.

(** C45, findings.  Writing past the end of a row: the tracked position lags behind the display by one
    character.  A line feed on the last row: two are needed to leave it, while the display is at row 0
    already.  Initialize leaves the tracked position alone.  With three rows cells overlap. *)
Theorem hd_view_refuted :
  (exists v ops, view_run 2 {| row := 0; col := 0 |} [VCursor 0 39; VChar 97; VChar 98] = Some (v, ops) /\
    v = {| row := 1; col := 0 |} /\ ac (exec_all lcd_new (map byte_of ops)) = cell_address 1 1) /\
  (exists v ops, view_run 2 {| row := 0; col := 0 |} [VCursor 1 0; VChar 10] = Some (v, ops) /\
    row v = 2 /\ ac (exec_all lcd_new (map byte_of ops)) = cell_address 0 0) /\
  (exists v ops, view_run 2 {| row := 1; col := 7 |} [VInit true; VChar 10] = Some (v, ops) /\
    v = {| row := 2; col := 7 |}) /\
  cell_address 0 20 = cell_address 2 0.
Proof.
  split; [eexists; eexists; split; [reflexivity|split; reflexivity]|].
  split; [eexists; eexists; split; [reflexivity|split; reflexivity]|].
  split; [eexists; eexists; split; reflexivity|reflexivity].
Qed.

(** Columns of the one row are counted up to 80. *)
Example view_one_row :
  view_op 1 {| row := 0; col := 79 |} (VChar 97) = Some ({| row := 0; col := 80 |}, [DData 97]) /\
  view_op 1 {| row := 0; col := 80 |} (VChar 97) = Some ({| row := 1; col := 0 |}, [DData 97]).
Proof. split; reflexivity. Qed.

(** C46: from the start position no history of scroll calls scrolls: each answers false, sends
    nothing and leaves the offset 0. *)
Theorem hd_viewport_refuted : forall ops total, 0 <= total ->
  scroll_run total 0 ops = (0, map (fun _ => false) ops, []).
Proof. exact scroll_l. Qed.

(** C46: where a scroll call does scroll, the offset and the display move by one. *)
Theorem hd_viewport_right : forall o d, 0 < o < 256 -> exists ds, scroll_right o = (o - 1, true, ds) /\
  exec_all d (map byte_of ds) = lcd_scrolled d (-1).
Proof. exact scroll_right_l. Qed.
Theorem hd_viewport_left : forall total o d, 0 <= total < o -> o < 255 -> exists ds, scroll_left total o = (o + 1, true, ds) /\
  exec_all d (map byte_of ds) = lcd_scrolled d 1.
Proof. exact scroll_left_l. Qed.

(** C60: GoTo goes to the given line and column, keeping the current one for DontCare. *)
Theorem hd_writer_goto : forall rows v l c, rows_ok rows ->
  let l' := if l =? 255 then row v else l in let c' := if c =? 255 then col v else c in
  0 <= l' < rows -> 0 <= c' <= width rows ->
  dw_goto rows v l c = Some ({| row := l'; col := c' |}, [DCmd (128 + cell_address l' c')]).
Proof. exact dw_goto_l. Qed.

(** C60: after any controller history SetCursor shows the cursor at the cell, blinking exactly in edit
    mode, and changes nothing else of the display. *)
Theorem hd_writer_cursor : forall iw rows os v l c edit, 8 <= iw -> rows_ok rows ->
  Forall no_init os -> Forall cop_ok os -> 0 <= l < rows -> 0 <= c < width rows ->
  exists r ds r' ds', ctl_run iw 0 os = Some (r, ds) /\
    dw_cursor iw rows r v l c edit = Some (r', {| row := l; col := c |}, ds') /\
    let d := exec_all lcd_new (map byte_of ds) in let d' := exec_all d (map byte_of ds') in
    curs d' = true /\ blink d' = edit /\ disp d' = disp d /\ inc d' = inc d /\ mem d' = mem d /\ ac d' = cell_address l c /\
    shift d' = shift d /\ off d' = off d.
Proof. exact dw_cursor_history. Qed.

(** C60: SetCursor with two DontCares hides the cursor and changes nothing else. *)
Theorem hd_writer_hide : forall iw, 8 <= iw -> forall rows os v edit, Forall no_init os -> Forall cop_ok os ->
  exists r ds r' ds', ctl_run iw 0 os = Some (r, ds) /\ dw_cursor iw rows r v 255 255 edit = Some (r', v, ds') /\
    ctl_get iw r' 1 = Some false /\
    let d := exec_all lcd_new (map byte_of ds) in
    exec_all d (map byte_of ds') =
      {| mem := mem d; ac := ac d; cg := cg d; inc := inc d; shift := shift d;
         disp := disp d; curs := false; blink := blink d; off := off d |}.
Proof. exact dw_hide_l. Qed.

(** C60, finding: a single DontCare is taken as a line or column number. *)
Theorem hd_writer_cursor_refuted :
  exists r' v' ds, dw_cursor 16 2 0 {| row := 1; col := 5 |} 255 5 false = Some (r', v', ds) /\
    v' = {| row := 255; col := 5 |} /\ ac (exec_all lcd_new (map byte_of ds)) = cell_address 0 5.
Proof. eexists; eexists; eexists; split; [reflexivity|split; reflexivity]. Qed.

Definition idle : lines := {| rs := false; en := true; d4 := false; d5 := false; d6 := false; d7 := false |}.
Example hd_ex_parallel : snd (watch 15 idle M4 (par_run idle [DCmd 40; DData 65])) = [(false, 40); (true, 65)].
Proof. reflexivity. Qed.
Example hd_ex_i2c : match i2c_run 16 12 [IOp (DData 65); ILight false] with
  | Some (_, tr) => snd (watch 0 idle M4 (map i2c_lines tr)) = [(true, 65)] /\ last tr 0 = 5
  | None => False end.
Proof. lazy. split; reflexivity. Qed.
Example hd_ex_w3 : match w3_run 16 16 {| irs := 9; ien := 0; i4 := 3; i5 := 5; i6 := 4; i7 := 12 |} 257 [DCmd 1; DData 90] with
  | Some (r, tr) => snd (watch 0 idle M4 (map (w3_lines {| irs := 9; ien := 0; i4 := 3; i5 := 5; i6 := 4; i7 := 12 |}) tr)) = [(false, 1); (true, 90)]
                    /\ Z.testbit r 8 = true
  | None => False end.
Proof. lazy. split; reflexivity. Qed.
Example hd_ex_init : snd (edges 0 (M4half 9) (all_nibs false (init_ops ++ [DCmd 40]))) = [(false, 147); (false, 51); (false, 32); (false, 40)].
Proof. reflexivity. Qed.
Example hd_ex_settings : match ctl_run 16 0 [CControl true false true; CCursor true; CEntry true false] with
  | Some (_, ds) => ds = [DCmd 13; DCmd 15; DCmd 6] | None => False end.
Proof. reflexivity. Qed.
Example hd_ex_move : match ctl_run 16 0 [CAddress 66; CMove false false; CMove true true] with
  | Some (_, ds) => let d := exec_all lcd_new (map byte_of ds) in (ac d, off d) = (65, -1) | None => False end.
Proof. reflexivity. Qed.
Example hd_ex_view : match view_run 4 {| row := 0; col := 0 |} [VInit true; VCursor 2 3; VChar 72; VChar 105; VChar 10; VChar 33] with
  | Some (v, ds) => v = {| row := 3; col := 6 |} /\ let d := exec_all lcd_new (skipn 4 (map byte_of ds)) in
                    (mem d 23, mem d 24, mem d (cell_address 3 5)) = (72, 105, 33)
  | None => False end.
Proof. lazy. split; reflexivity. Qed.
Example hd_ex_fits : scr_fits 4 blank [VCursor 2 3; VChar 72; VChar 105; VChar 10; VChar 33; VHome; VChar 13].
Proof. cbn. unfold width. repeat split; try (vm_compute; congruence); vm_compute; reflexivity. Qed.

Print Assumptions hd_parallel.
Print Assumptions hd_i2c.
Print Assumptions hd_3wire.
Print Assumptions hd_bytes.
Print Assumptions hd_initialise.
Print Assumptions hd_initialise_refuted.
Print Assumptions hd_settings.
Print Assumptions hd_direction.
Print Assumptions hd_direction_refuted.
Print Assumptions hd_view.
Print Assumptions hd_cells_distinct.
Print Assumptions hd_view_refuted.
Print Assumptions hd_viewport_refuted.
Print Assumptions hd_writer_goto.
Print Assumptions hd_writer_cursor.
Print Assumptions hd_writer_cursor_refuted.
Print Assumptions hd_controller_initialise.
Print Assumptions hd_controller.
Print Assumptions hd_viewport_right.
Print Assumptions hd_viewport_left.
Print Assumptions hd_writer_hide.
