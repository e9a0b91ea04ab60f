(** The display under the controller's calls. *)
Require Import ZArith List Bool Lia ZifyBool.
Import ListNotations.
From Verif Require Import Base BaseFacts BitModel ShiftProofs HdModel HdSpec HdIfProofs HdProofs.
Open Scope Z_scope.

Section C.
Variable iw : Z.
Hypothesis iw8 : 8 <= iw.

Definition dev_of (s : settings) : lcd :=
  {| mem := fun _ => 32; ac := 0; cg := false; inc := true; shift := s_shift s;
     disp := s_disp s; curs := s_curs s; blink := s_blink s; off := 0 |}.

Lemma exec_dc : forall s r d, ctl_rel s r -> exec_all d (map byte_of [DCmd (display_control r)]) = lcd_control s d.
Proof.
  intros s r d (R & B0 & B1 & B2 & B3 & B4). destruct (dc_bits r R) as (D & D0 & D1 & D2).
  cbn [map byte_of exec_all fold_left]. rewrite exec_ctrl by lia. unfold lcd_control. rewrite D0, D1, D2, B0, B1, B2. reflexivity.
Qed.
Lemma exec_em : forall s r d, ctl_rel s r -> exec_all d (map byte_of [DCmd (entry_mode r)]) = lcd_entry s d.
Proof.
  intros s r d (R & B0 & B1 & B2 & B3 & B4). destruct (em_bits r R) as (D & D0 & D1).
  cbn [map byte_of exec_all fold_left]. rewrite exec_entry by lia. unfold lcd_entry. rewrite D0, D1, B3, B4. reflexivity.
Qed.

Lemma ctl_op_exec : forall s r d o, ctl_rel s r -> no_init o -> cop_ok o ->
  exists r' ds, ctl_op iw r o = Some (r', ds) /\ ctl_rel (set_op s o) r' /\ Forall whole ds /\
    exec_all d (map byte_of ds) = snd (lcd_call (s, d) o).
Proof.
  intros s r d o K N O.
  assert (V : dev_rel s (dev_of s)) by (repeat split).
  destruct (ctl_op_l iw iw8 s r (dev_of s) o K V N O) as (r' & ds & E & K' & W & _).
  exists r', ds. split; [exact E|]. split; [exact K'|]. split; [exact W|]. unfold lcd_call. cbn [fst snd].
  destruct o as [full| | |v|v|v|dd cc bb|lf|v|lf v|a|a|dd rt]; cbn [ctl_op] in E;
    repeat match type of E with context [bindo (put8 ?i ?r ?j ?v) _] =>
             let F := fresh "F" in destruct (put8 i r j v) eqn:F; cbn [bindo] in E; [|discriminate] end;
    injection E as <- <-; try (apply exec_dc; exact K'); try (apply exec_em; exact K').
  - destruct full; [contradiction|]. reflexivity.
  - reflexivity.
  - reflexivity.
  - cbn [cop_ok] in O. rewrite lor128 by lia. assert (0 <= a mod 128 < 128) by (apply Z.mod_pos_bound; lia).
    cbn [map byte_of exec_all fold_left]. rewrite exec_addr by (clear - H; lia). unfold lcd_at. f_equal. clear; lia.
  - cbn [cop_ok] in O. rewrite lor64 by lia. assert (0 <= a mod 64 < 64) by (apply Z.mod_pos_bound; lia).
    cbn [map byte_of exec_all fold_left]. rewrite exec_cg by (clear - H; lia). unfold lcd_at. f_equal. clear; lia.
  - destruct dd, rt; reflexivity.
Qed.

Lemma ctl_run_exec : forall os s r d, ctl_rel s r -> Forall no_init os -> Forall cop_ok os ->
  exists r' ds, ctl_run iw r os = Some (r', ds) /\ ctl_rel (set_all s os) r' /\ Forall whole ds /\
    exec_all d (map byte_of ds) = snd (fold_left lcd_call os (s, d)).
Proof.
  induction os as [|o os IH]; intros s r d K N O; cbn [ctl_run].
  - exists r, []. split; [reflexivity|]. split; [exact K|]. split; [constructor|reflexivity].
  - inversion N; subst. inversion O; subst.
    destruct (ctl_op_exec s r d o K ltac:(assumption) ltac:(assumption)) as (r1 & d1 & E1 & K1 & W1 & X1). rewrite E1. cbn [bindo fst snd].
    destruct (IH (set_op s o) r1 (exec_all d (map byte_of d1)) K1 ltac:(assumption) ltac:(assumption)) as (r2 & d2 & E2 & K2 & W2 & X2).
    rewrite E2. cbn [bindo fst snd]. exists r2, (d1 ++ d2). split; [reflexivity|]. split; [exact K2|]. split; [apply Forall_app; auto|].
    rewrite map_app, exec_all_app, X2, X1. cbn [fold_left]. reflexivity.
Qed.

Lemma hd_controller_l : forall os, Forall no_init os -> Forall cop_ok os ->
  exists r ds, ctl_run iw 0 os = Some (r, ds) /\ Forall whole ds /\
    exec_all lcd_new (map byte_of ds) = snd (fold_left lcd_call os (settings_new, lcd_new)).
Proof.
  intros os N O. assert (K0 : ctl_rel settings_new 0) by (repeat split; lia).
  destruct (ctl_run_exec os settings_new 0 lcd_new K0 N O) as (r & ds & E & _ & W & X). exists r, ds. auto.
Qed.

(** Initialize(true) of the controller. *)
Lemma ctl_init_l : forall lo r m os, 0 <= lo < 16 -> mode_ok m -> Forall whole os ->
  exists ds ts, ctl_op iw r (CInit true) = Some (r, ds) /\
    edges lo m (all_nibs false (ds ++ os)) = (M4, ts ++ [(false, 40); (false, 1); (false, 2)] ++ map byte_of os).
Proof.
  intros lo r m os Hlo Hm W.
  destruct (init_then lo Hlo m (DCmd 40 :: DCmd 1 :: DCmd 2 :: os) Hm) as (ts & E).
  { constructor; [cbn; lia|]. constructor; [cbn; lia|]. constructor; [cbn; lia|exact W]. }
  exists [DNib 3; DNib 3; DNib 3; DNib 2; DCmd 40; DCmd 1; DCmd 2], ts. split; [reflexivity|]. exact E.
Qed.

(** SetCursor with two DontCares. *)
Lemma dw_hide_l : forall rows os v edit, Forall no_init os -> Forall cop_ok os ->
  exists r ds r' ds', ctl_run iw 0 os = Some (r, ds) /\ dw_cursor iw rows r v 255 255 edit = Some (r', v, ds') /\
    ctl_get iw r' 1 = Some false /\
    let d := exec_all lcd_new (map byte_of ds) in
    exec_all d (map byte_of ds') =
      {| mem := mem d; ac := ac d; cg := cg d; inc := inc d; shift := shift d;
         disp := disp d; curs := false; blink := blink d; off := off d |}.
Proof.
  intros rows os v edit N O. assert (K0 : ctl_rel settings_new 0) by (repeat split; lia).
  assert (V0 : dev_rel settings_new lcd_new) by (repeat split).
  destruct (ctl_run_l iw iw8 os settings_new 0 lcd_new K0 V0 N O) as (r & ds & E & K & W & V & _).
  destruct (ctl_op_exec _ r (exec_all lcd_new (map byte_of ds)) (CCursor false) K I I) as (r' & ds' & E' & K' & _ & X).
  exists r, ds, r', ds'. split; [exact E|]. unfold dw_cursor. change ((255 =? 255) && (255 =? 255)) with true. cbv iota.
  rewrite E'. cbn [bindo fst snd]. split; [reflexivity|].
  destruct K' as (R & _ & B1 & _). split; [unfold ctl_get; rewrite ba_true_ok by lia; f_equal; exact B1|].
  cbv zeta. rewrite X. cbn [lcd_call snd fst set_op]. unfold lcd_control. cbn [s_disp s_curs s_blink].
  destruct V as (V1 & V2 & V3 & V4). rewrite V1, V3. reflexivity.
Qed.
End C.

(** A scroll step away from the ends. *)
Lemma scroll_right_l : forall o d, 0 < o < 256 -> exists ds, scroll_right o = (o - 1, true, ds) /\
  exec_all d (map byte_of ds) = lcd_scrolled d (-1).
Proof.
  intros o d H. unfold scroll_right. replace (o >? 0) with true by lia. unfold u8. rewrite Z.mod_small by lia.
  eexists. split; [reflexivity|]. reflexivity.
Qed.
Lemma scroll_left_l : forall total o d, 0 <= total < o -> o < 255 -> exists ds, scroll_left total o = (o + 1, true, ds) /\
  exec_all d (map byte_of ds) = lcd_scrolled d 1.
Proof.
  intros total o d H H1. unfold scroll_left. replace (o >? total) with true by lia. unfold u8. rewrite Z.mod_small by lia.
  eexists. split; [reflexivity|]. reflexivity.
Qed.
