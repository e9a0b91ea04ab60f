(** Properties of the interrupt driven streams when a cursor is accessed byte by byte. *)
Require Import ZArith List Bool Lia.
Import ListNotations.
From Verif Require Import Base RingModel StreamSpec TearModel TearSpec TearProofs TearRxProofs.
Open Scope Z_scope.

(** C80, transmit.  For both byte orders, any address and any size, and every schedule that runs the handler
    at most once while memory holds a cursor that is neither the old nor the final one: no access is
    out of bounds; the bytes sent so far are a prefix of the bytes accepted (counting the Write in
    progress); at most Size-1 are in flight; between Writes the length is exact and the interrupt
    is on whenever something is queued. *)
Theorem tear_tx_fifo : forall lf sf B Size m evs, 1 <= Size <= 65535 ->
  bt_polite lf sf B Size (bt_init m) false evs = true ->
  exists s, bt_run lf sf B Size (bt_init m) evs = Some s /\
    exists rest, accepted (bt_done s) ++ bt_pending (bt_pc s) = bt_sent s ++ rest /\
      Z.of_nat (length rest) <= Size - 1 /\
      (bt_pc s = BIdle -> ring_length Size (bt_ring s) = Z.of_nat (length rest) /\
                          (rest <> [] -> bt_ien s = true)).
Proof. intros lf sf B Size m evs HS. exact (bt_fifo_l lf sf B Size HS m evs). Qed.
Print Assumptions tear_tx_fifo.

(** C80, transmit, progress. *)
Theorem tear_tx_drains : forall lf sf B Size m evs s, 1 <= Size <= 65535 ->
  bt_polite lf sf B Size (bt_init m) false evs = true ->
  bt_run lf sf B Size (bt_init m) evs = Some s -> bt_pc s = BIdle ->
  exists n s', bt_run lf sf B Size (bt_init m) (evs ++ repeat BtIsr n) = Some s' /\
    bt_sent s' = accepted (bt_done s) /\ bt_done s' = bt_done s /\ bt_ien s' = false.
Proof. intros lf sf B Size m evs s HS. exact (bt_drains_l lf sf B Size HS m evs s). Qed.
Print Assumptions tear_tx_drains.

(** C80, transmit, up to 256 bytes: a Write is refused only if the buffer was full when it began,
    whatever runs meanwhile. *)
Theorem tear_tx_refused : forall lf sf B Size m evs s v es s', 1 <= Size <= 256 ->
  bt_polite lf sf B Size (bt_init m) false evs = true ->
  bt_run lf sf B Size (bt_init m) evs = Some s -> bt_pc s = BIdle ->
  bt_run lf sf B Size s (BtStart v :: es) = Some s' ->
  bt_done s' = bt_done s ++ [(u8 v, false)] ->
  ring_length Size (bt_ring s) = Size - 1.
Proof.
  intros lf sf B Size m evs s v es s' HS. exact (bt_refused_l lf sf B Size ltac:(lia) m evs s v es s' ltac:(lia)).
Qed.
Print Assumptions tear_tx_refused.

(** C80, receive.  Mirror image: the bytes the handler stored are, in order, those returned by
    Read, the one being returned, and those still queued. *)
Theorem tear_rx_fifo : forall lf sf B Size m evs, 1 <= Size <= 65535 ->
  br_polite lf sf B Size (br_init m) false evs = true ->
  exists s, br_run lf sf B Size (br_init m) evs = Some s /\
    exists rest, br_acc s = delivered (br_got s) ++ br_pending (br_pc s) ++ rest /\
      Z.of_nat (length rest) <= Size - 1 /\
      (br_pc s = CIdle -> ring_length Size (br_ring s) = Z.of_nat (length rest)).
Proof. intros lf sf B Size m evs HS. exact (br_fifo_l lf sf B Size HS m evs). Qed.
Print Assumptions tear_rx_fifo.

(** C80, receive, up to 256 bytes: a Read that begins with something queued does not answer -1,
    however many characters arrive meanwhile. *)
Theorem tear_rx_not_empty : forall lf sf B Size m evs s es s', 1 <= Size <= 256 -> 0 <= B -> B + Size <= 65536 ->
  br_polite lf sf B Size (br_init m) false evs = true ->
  br_run lf sf B Size (br_init m) evs = Some s -> br_pc s = CIdle ->
  ring_length Size (br_ring s) > 0 ->
  br_run lf sf B Size s (BrStart :: es) = Some s' ->
  br_got s' <> br_got s ++ [-1].
Proof.
  intros lf sf B Size m evs s es s' HS. exact (br_not_empty_l lf sf B Size ltac:(lia) m evs s es s' ltac:(lia)).
Qed.
Print Assumptions tear_rx_not_empty.

(** C80, receive, up to 256 bytes: a character is dropped only when at least Size-1 bytes wait for delivery. *)
Theorem tear_rx_dropped : forall lf sf B Size m evs s x, 1 <= Size <= 256 ->
  br_polite lf sf B Size (br_init m) false evs = true ->
  br_polite lf sf B Size (br_init m) false (evs ++ [BrIsr x true]) = true ->
  br_run lf sf B Size (br_init m) evs = Some s -> br_ien s = true ->
  exists s', br_step lf sf B Size s (BrIsr x true) = Some s' /\
    (br_acc s' = br_acc s ++ [u8 x] \/
     br_acc s' = br_acc s /\
     Z.of_nat (length (br_acc s)) - Z.of_nat (length (delivered (br_got s))) >= Size - 1).
Proof.
  intros lf sf B Size m evs s x HS. exact (br_dropped_l lf sf B Size ltac:(lia) m evs s x ltac:(lia)).
Qed.
Print Assumptions tear_rx_dropped.

(** C80, the values offered are those of the Write calls begun, and only characters received without error and with
    the interrupt on are stored. *)
Theorem tear_tx_calls : forall lf sf B Size m evs s, bt_run lf sf B Size (bt_init m) evs = Some s ->
  bt_offered s = map u8 (bt_calls lf sf B Size (bt_init m) evs).
Proof. exact (fun lf sf B Size m evs s => bt_calls_run lf sf B Size evs (bt_init m) s). Qed.
Print Assumptions tear_tx_calls.
Theorem tear_rx_stores : forall lf sf B Size s e s', br_step lf sf B Size s e = Some s' ->
  br_acc s' = br_acc s \/ exists x, e = BrIsr x true /\ br_ien s = true /\ br_acc s' = br_acc s ++ [u8 x].
Proof. exact br_stores_l. Qed.
Print Assumptions tear_rx_stores.

(** C80, receive: an undisturbed Read of an empty buffer answers -1 and leaves the interrupt enabled. *)
Theorem tear_rx_enabled : forall lf sf B Size m evs s, 1 <= Size <= 65535 ->
  br_polite lf sf B Size (br_init m) false evs = true ->
  br_run lf sf B Size (br_init m) evs = Some s -> br_pc s = CIdle -> ring_length Size (br_ring s) = 0 ->
  exists s', br_run lf sf B Size s br_read = Some s' /\ br_got s' = br_got s ++ [-1] /\ br_ien s' = true /\ br_acc s' = br_acc s.
Proof.
  intros lf sf B Size m evs s HS HP HR HI HL. eexists. split; [exact (br_enabled_l lf sf B Size HS m evs s HP HR HI HL)|].
  split; [reflexivity|]. split; reflexivity.
Qed.
Print Assumptions tear_rx_enabled.
(** Before, the handler does not run. *)
Example tear_rx_disabled : forall lf sf m x, br_run lf sf 0 8 (br_init m) [BrIsr x true] = Some (br_init m).
Proof. reflexivity. Qed.

(** ** Findings: each of the last three fails for larger buffers, after a single interrupt. *)

(** A buffer of 512 bytes with at most 256 of them in use refuses a Write: the byte is lost. *)
Theorem tear_tx_refused_refuted : forall lf sf, exists evs s s',
  bt_polite lf sf 255 512 (bt_init (fun _ => 0)) false (evs ++ tx_tail) = true /\
  bt_run lf sf 255 512 (bt_init (fun _ => 0)) evs = Some s /\ bt_pc s = BIdle /\
  bt_run lf sf 255 512 s tx_tail = Some s' /\ bt_done s' = bt_done s ++ [(9, false)] /\
  ring_length 512 (bt_ring s) <= 256.
Proof.
  intros lf sf. exists (tx_fill lf).
  assert (C : match bt_run lf sf 255 512 (bt_init (fun _ => 0)) (tx_fill lf) with
    | Some s => match bt_run lf sf 255 512 s tx_tail with
        | Some s' => bt_polite lf sf 255 512 (bt_init (fun _ => 0)) false (tx_fill lf ++ tx_tail) &&
            (match bt_pc s with BIdle => true | _ => false end) && (ring_length 512 (bt_ring s) <=? 256) &&
            (match skipn (length (bt_done s)) (bt_done s') with [(v, b)] => (v =? 9) && negb b | _ => false end)
        | None => false end
    | None => false end = true).
  { destruct lf, sf; lazy; reflexivity. }
  destruct (bt_run lf sf 255 512 (bt_init (fun _ => 0)) (tx_fill lf)) as [s|] eqn:E1; [|discriminate].
  destruct (bt_run lf sf 255 512 s tx_tail) as [s'|] eqn:E2; [|discriminate].
  apply andb_prop in C. destruct C as [C C4]. apply andb_prop in C. destruct C as [C C3]. apply andb_prop in C. destruct C as [C1 C2].
  exists s, s'. split; [exact C1|]. split; [reflexivity|]. split; [destruct (bt_pc s); try discriminate; reflexivity|].
  split; [exact E2|]. split; [|apply Z.leb_le; exact C3].
  destruct (bt_done_run _ _ _ _ _ _ _ E2) as [ext Ex]. rewrite Ex in C4 |- *. rewrite skipn_app, skipn_all, Nat.sub_diag in C4.
  cbn [app skipn] in C4. destruct ext as [|[v []] [|? ?]]; try discriminate; cbn [negb] in C4; rewrite ?andb_false_r, ?andb_true_r in C4; try discriminate.
  apply Z.eqb_eq in C4. subst v. reflexivity.
Qed.
Print Assumptions tear_tx_refused_refuted.

(** A Read answers -1 although at least 255 bytes are queued. *)
Theorem tear_rx_not_empty_refuted : forall lf sf, exists evs s s',
  br_polite lf sf 0 512 (br_init (fun _ => 0)) false (evs ++ rx_tail) = true /\
  br_run lf sf 0 512 (br_init (fun _ => 0)) evs = Some s /\ br_pc s = CIdle /\
  br_run lf sf 0 512 s rx_tail = Some s' /\ br_got s' = br_got s ++ [-1] /\
  255 <= ring_length 512 (br_ring s).
Proof.
  intros lf sf. exists (rx_fill lf).
  assert (C : match br_run lf sf 0 512 (br_init (fun _ => 0)) (rx_fill lf) with
    | Some s => match br_run lf sf 0 512 s rx_tail with
        | Some s' => br_polite lf sf 0 512 (br_init (fun _ => 0)) false (rx_fill lf ++ rx_tail) &&
            (match br_pc s with CIdle => true | _ => false end) && (255 <=? ring_length 512 (br_ring s)) &&
            (match skipn (length (br_got s)) (br_got s') with [v] => v =? -1 | _ => false end)
        | None => false end
    | None => false end = true).
  { destruct lf, sf; lazy; reflexivity. }
  destruct (br_run lf sf 0 512 (br_init (fun _ => 0)) (rx_fill lf)) as [s|] eqn:E1; [|discriminate].
  destruct (br_run lf sf 0 512 s rx_tail) as [s'|] eqn:E2; [|discriminate].
  apply andb_prop in C. destruct C as [C C4]. apply andb_prop in C. destruct C as [C C3]. apply andb_prop in C. destruct C as [C1 C2].
  exists s, s'. split; [exact C1|]. split; [reflexivity|]. split; [destruct (br_pc s); try discriminate; reflexivity|].
  split; [exact E2|]. split; [|apply Z.leb_le; exact C3].
  destruct (br_got_run _ _ _ _ _ _ _ E2) as [ext Ex]. rewrite Ex in C4 |- *. rewrite skipn_app, skipn_all, Nat.sub_diag in C4.
  cbn [app skipn] in C4. destruct ext as [|v [|? ?]]; try discriminate. apply Z.eqb_eq in C4. subst v. reflexivity.
Qed.
Print Assumptions tear_rx_not_empty_refuted.

(** A character is dropped although at most 256 bytes wait in a buffer of 512. *)
Theorem tear_rx_dropped_refuted : forall lf sf, exists evs s s',
  br_polite lf sf 255 512 (br_init (fun _ => 0)) false (evs ++ [BrIsr 9 true]) = true /\
  br_run lf sf 255 512 (br_init (fun _ => 0)) evs = Some s /\ br_ien s = true /\
  br_step lf sf 255 512 s (BrIsr 9 true) = Some s' /\ br_acc s' = br_acc s /\
  Z.of_nat (length (br_acc s)) - Z.of_nat (length (delivered (br_got s))) <= 256.
Proof.
  intros lf sf. exists (rx_fill2 sf).
  assert (C : match br_run lf sf 255 512 (br_init (fun _ => 0)) (rx_fill2 sf) with
    | Some s => match br_step lf sf 255 512 s (BrIsr 9 true) with
        | Some s' => br_polite lf sf 255 512 (br_init (fun _ => 0)) false (rx_fill2 sf ++ [BrIsr 9 true]) &&
            br_ien s && (Z.of_nat (length (br_acc s)) - Z.of_nat (length (delivered (br_got s))) <=? 256) &&
            Nat.eqb (length (br_acc s)) (length (br_acc s'))
        | None => false end
    | None => false end = true).
  { destruct lf, sf; lazy; reflexivity. }
  destruct (br_run lf sf 255 512 (br_init (fun _ => 0)) (rx_fill2 sf)) as [s|] eqn:E1; [|discriminate].
  destruct (br_step lf sf 255 512 s (BrIsr 9 true)) as [s'|] eqn:E2; [|discriminate].
  apply andb_prop in C. destruct C as [C C4]. apply andb_prop in C. destruct C as [C C3]. apply andb_prop in C. destruct C as [C1 C2].
  exists s, s'. split; [exact C1|]. split; [reflexivity|]. split; [exact C2|]. split; [exact E2|].
  split; [|apply Z.leb_le; exact C3].
  apply Nat.eqb_eq in C4. cbn [br_step] in E2. unfold br_isr in E2. rewrite C2 in E2. cbn [andb] in E2.
  destruct (ring_write 512 (br_ring s) (u8 9)) as [[r [|]]|]; [| |discriminate]; injection E2 as <-; [|reflexivity].
  cbn [br_acc] in C4. rewrite app_length in C4. cbn [length] in C4. lia.
Qed.
Print Assumptions tear_rx_dropped_refuted.
