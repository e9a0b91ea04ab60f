(** C82: the distance sensor over serial ports. *)
Require Import ZArith List Bool Lia.
Import ListNotations.
From Verif Require Import Base ArduinoModel UrmModel UrmSpec UrmLinkModel UrmLinkSpec UrmLinkProofs.
Open Scope Z_scope.

(** Whatever the order in which commands are given, the sensor answers, bytes arrive and the program polls: as
    long as no byte is lost in the port, the distances delivered are those the sensor measured for the first
    commands, in order, except those with a byte of 255; once everything has arrived and was polled, for all the
    commands the sensor has taken. *)
Theorem urm_link : forall cap t m, Z.of_nat cap < 65536 -> (forall n, byte (fst (m n)) /\ byte (snd (m n))) ->
  forall ops, Forall uop_ok ops -> let s := u_run cap t m ops in s_lost (u_rx s) = [] ->
  exists j, (j <= u_taken s <= begun ops)%nat /\ distances s = measured m j /\
    (s_in (u_rx s) = [] -> u_line s = [] -> j = u_taken s).
Proof. exact link_l. Qed.
Print Assumptions urm_link.

(** A program that has at most [k] measurements open loses nothing if the port holds 4 bytes for each. *)
Theorem urm_link_no_loss : forall cap t m, Z.of_nat cap < 65536 -> (forall n, byte (fst (m n)) /\ byte (snd (m n))) ->
  (forall n, deliverable (m n) = true) ->
  forall k ops, (4 * k <= cap)%nat -> Forall uop_ok ops -> open_at_most cap t m k ops ->
  s_lost (u_rx (u_run cap t m ops)) = [].
Proof. intros cap t m C M D k ops K F O. exact (proj1 (no_loss_l cap t m C M D k ops K F O)). Qed.
Print Assumptions urm_link_no_loss.

(** A program that begins a measurement only after the distance of the one before has been delivered gets from
    EndDistance the distance of the latest command. *)
Theorem urm_link_fresh : forall cap t m, Z.of_nat cap < 65536 -> (forall n, byte (fst (m n)) /\ byte (snd (m n))) ->
  (forall n, deliverable (m n) = true) ->
  forall ops, (4 <= cap)%nat -> Forall uop_ok ops -> open_at_most cap t m 1 ops ->
  forall d r, u_reports (u_run cap t m (ops ++ [UEnd])) = u_reports (u_run cap t m ops) ++ [(r, Some d)] ->
  (1 <= begun ops)%nat /\ d = centimetres (m (begun ops - 1)%nat).
Proof. exact fresh_l. Qed.
Print Assumptions urm_link_fresh.
Example urm_link_example : let ops := [UBegin; UEnd; USense; UArrive; UArrive; UEnd; UArrive; UArrive; UEnd; UBeginDeg 90; USense;
    UArrive; UArrive; UArrive; UArrive; UEnd] in
  u_reports (u_run 63 (0, 0) (fun n => (Z.of_nat n, 7)) ops) =
    [(RNone, None); (RPending, None); (RSuccess, Some 7); (RSuccess, Some 263)].
Proof. lazy. reflexivity. Qed.

(** Finding: a program that gives up waiting and begins anew gets the old distance for the new command. *)
Theorem urm_link_stale_refuted : forall t, exists m ops, (forall n, reading (m n) /\ deliverable (m n) = true) /\ Forall uop_ok ops /\
  begun ops = 2%nat /\ last (u_reports (u_run 63 t m ops)) (RNone, None) = (RSuccess, Some (centimetres (m 0%nat))) /\
  centimetres (m 0%nat) <> centimetres (m 1%nat).
Proof.
  intro t. exists (fun n => (0, match n with O => 10 | _ => 200 end)), [UBeginDeg 0; UEnd; UBeginDeg 180; USense; UArrive; UArrive; UArrive; UArrive; UEnd].
  split; [|split; [|split; [|split]]].
  - intro n. destruct n; split; try reflexivity; split; cbn [fst snd]; unfold byte; lia.
  - repeat (constructor; [cbn [uop_ok]; try exact Logic.I; lia|]). constructor.
  - reflexivity.
  - lazy. reflexivity.
  - cbv. discriminate.
Qed.
Print Assumptions urm_link_stale_refuted.
(** Finding: a failed measurement is answered like an empty port, so a program waiting for its result waits
    for ever. *)
Theorem urm_link_failed_refuted : forall t m n, m 0%nat = (255, 255) ->
  u_reports (u_run 63 t m ([UBegin; USense; UArrive; UArrive; UArrive; UArrive] ++ repeat UEnd n)) = repeat (RNone, None) n.
Proof.
  intros t m n M. unfold u_run. rewrite fold_left_app. set (s := fold_left (u_step 63 t m) [UBegin; USense; UArrive; UArrive; UArrive; UArrive] u_start).
  assert (E : s = mkUrm [34; 0; 0; 34] 1 [] (mkSerial [34; 255; 255; 32] [] []) []).
  { unfold s. cbn [fold_left u_step u_start u_out u_taken app map]. change (u8 34) with 34. lazy. rewrite M. reflexivity. }
  rewrite E. clear s E. destruct n as [|n]; [reflexivity|]. cbn [repeat fold_left].
  assert (E1 : u_step 63 t m (mkUrm [34; 0; 0; 34] 1 [] (mkSerial [34; 255; 255; 32] [] []) []) UEnd = mkUrm [34; 0; 0; 34] 1 [] (mkSerial [] [] []) [(RNone, None)])
    by reflexivity.
  rewrite E1. assert (G : forall k reps, fold_left (u_step 63 t m) (repeat UEnd k) (mkUrm [34; 0; 0; 34] 1 [] (mkSerial [] [] []) reps) =
    mkUrm [34; 0; 0; 34] 1 [] (mkSerial [] [] []) (reps ++ repeat (RNone, None) k)).
  { induction k as [|k IH]; intro reps; [cbn [repeat fold_left]; rewrite app_nil_r; reflexivity|]. cbn [repeat fold_left].
    change (u_step 63 t m (mkUrm [34; 0; 0; 34] 1 [] (mkSerial [] [] []) reps) UEnd) with (mkUrm [34; 0; 0; 34] 1 [] (mkSerial [] [] []) (reps ++ [(RNone, None)])).
    rewrite IH, <- app_assoc. reflexivity. }
  rewrite G. reflexivity.
Qed.
Print Assumptions urm_link_failed_refuted.
