(** C87: the interrupt driven streams in any order of accesses a compiler may choose. *)
Require Import ZArith List Bool Lia Permutation.
Import ListNotations.
From Verif Require Import Base RingModel StreamSpec TearModel TearSpec OptModel OptSpec OptProofs OptRefProofs.
Open Scope Z_scope.

(** Transmit, with pointers loaded and stored at once, or byte by byte in a buffer inside one page of 256 bytes: the
    bytes come out as they went in, under every schedule, exactly if the item is stored before the cursor. *)
Theorem opt_tx_fifo : forall whole order, Permutation order (wsteps whole) ->
  (before WItem (wcur whole) order <->
   forall lf B Size m evs, 1 <= Size <= 65535 -> placed whole B Size ->
     exists s rest, o_run whole lf order B Size (o_init m) evs = Some s /\ o_fifo whole Size s rest).
Proof.
  intros whole order H. split.
  - intros BO lf B Size m evs HS P. destruct (o_fifo_l whole lf order B Size HS P H BO m evs) as (s & rest & E & F & _). eauto.
  - intros A. destruct (beforeb WItem (wcur whole) order) eqn:E; [apply beforeb_l; exact E|]. exfalso.
    apply (bad_l _ _ _ _ _ _ (early_l whole true order H E)). apply A; [lia|]. right. reflexivity.
Qed.
Print Assumptions opt_tx_fifo.
(** If so, between Writes the interrupt is on whenever something is queued exactly if it is switched on after the cursor
    was stored. *)
Theorem opt_tx_awake : forall whole order, Permutation order (wsteps whole) -> before WItem (wcur whole) order ->
  (before (wcur whole) WOn order <->
   forall lf B Size m evs s, 1 <= Size <= 65535 -> placed whole B Size ->
     o_run whole lf order B Size (o_init m) evs = Some s -> o_pc s = OIdle -> ring_length Size (o_ring s) <> 0 -> o_ien s = true).
Proof.
  intros whole order H BO. split.
  - intros BL lf B Size m evs s HS P E Ep N. destruct (o_fifo_l whole lf order B Size HS P H BO m evs) as (s' & rest & E' & (_ & _ & L) & I). rewrite E in E'. injection E' as <-.
    apply (I BL Ep). intros ->. apply N. exact L.
  - intros A. destruct (beforeb (wcur whole) WOn order) eqn:E; [apply beforeb_l; exact E|]. exfalso. pose proof (asleep_l whole true order H E) as X. unfold o_stuck in X.
    destruct (o_run whole true order 0 4 (o_init (fun _ => 0)) (asleep whole order)) as [s|] eqn:R; [|discriminate]. apply andb_prop in X. destruct X as [X L]. apply andb_prop in X. destruct X as [Ep I].
    assert (Ep' : o_pc s = OIdle) by (destruct (o_pc s); [reflexivity|discriminate|discriminate|discriminate]). apply Z.eqb_eq in L.
    rewrite (A true 0 4 (fun _ => 0) (asleep whole order) s) in I; [discriminate|lia|right; reflexivity|exact R|exact Ep'|lia].
Qed.
Print Assumptions opt_tx_awake.
(** And then the handler alone, run often enough, sends everything and switches its interrupt off. *)
Theorem opt_tx_drains : forall whole lf order B Size m evs s, 1 <= Size <= 65535 -> placed whole B Size -> Permutation order (wsteps whole) ->
  before WItem (wcur whole) order -> before (wcur whole) WOn order -> o_run whole lf order B Size (o_init m) evs = Some s -> o_pc s = OIdle ->
  exists n s', o_run whole lf order B Size (o_init m) (evs ++ repeat OIsr n) = Some s' /\ o_sent s' = accepted (o_done s) /\ o_done s' = o_done s /\ o_ien s' = false.
Proof. intros whole lf order B Size m evs s HS P H BO BL. apply o_drains_l; assumption. Qed.
Print Assumptions opt_tx_drains.
(** A Write is refused only if the buffer was full when it began, whatever runs meanwhile. *)
Theorem opt_tx_refused : forall whole lf order B Size m evs s v more s', 1 <= Size <= 65535 -> placed whole B Size -> Permutation order (wsteps whole) ->
  before WItem (wcur whole) order -> o_run whole lf order B Size (o_init m) evs = Some s -> o_pc s = OIdle -> ring_length Size (o_ring s) < Size - 1 ->
  Forall no_start more -> o_run whole lf order B Size s (OStart v :: more) = Some s' -> o_pc s' = OIdle -> o_done s' = o_done s ++ [(u8 v, true)].
Proof. intros whole lf order B Size m evs s v more s' HS P H BO. apply o_refused_l; assumption. Qed.
Print Assumptions opt_tx_refused.

(** Receive: right under every schedule in every order, because one cell of the buffer is always free.  The handler drops
    a byte only if Size - 1 are queued. *)
Theorem opt_rx_fifo : forall whole lf once order B Size m evs, 1 <= Size <= 65535 -> placed whole B Size -> Permutation order (rsteps whole) ->
  exists s rest, q_run whole lf once order B Size (q_init m) evs = Some s /\ q_fifo Size s rest /\
  forall data ok, exists s', q_step whole lf once order B Size s (QIsr data ok) = Some s' /\
    q_acc s' = (if q_ien s && ok && (Z.of_nat (length rest) <? Size - 1) then q_acc s ++ [u8 data] else q_acc s).
Proof. intros whole lf once order B Size m evs HS P H. apply q_fifo_l; assumption. Qed.
Print Assumptions opt_rx_fifo.
(** A Read that begins when something is queued delivers a byte, whatever arrives meanwhile. *)
Theorem opt_rx_answers : forall whole lf once order B Size m evs s more s', 1 <= Size <= 65535 -> placed whole B Size -> Permutation order (rsteps whole) ->
  q_run whole lf once order B Size (q_init m) evs = Some s -> q_pc s = QIdle -> ring_length Size (q_ring s) > 0 -> Forall no_read more ->
  q_run whole lf once order B Size s (QStart :: more) = Some s' -> q_pc s' = QIdle -> exists x, 0 <= x /\ q_got s' = q_got s ++ [x].
Proof. intros whole lf once order B Size m evs s more s' HS P H. apply q_answers_l; assumption. Qed.
Print Assumptions opt_rx_answers.
(** Undisturbed Reads deliver everything stored. *)
Theorem opt_rx_drains : forall whole lf once order B Size m evs s, 1 <= Size <= 65535 -> placed whole B Size -> Permutation order (rsteps whole) ->
  q_run whole lf once order B Size (q_init m) evs = Some s -> q_pc s = QIdle ->
  exists n s', q_run whole lf once order B Size (q_init m) (evs ++ times n q_read) = Some s' /\ q_pc s' = QIdle /\ q_acc s' = q_acc s /\ delivered (q_got s') = q_acc s.
Proof. intros whole lf once order B Size m evs s HS P H. apply q_drains_l; assumption. Qed.
Print Assumptions opt_rx_drains.

(** Finding: byte by byte, with a page boundary inside the buffer, no order is right. *)
Theorem opt_tx_page_refuted : exists B Size, 1 <= Size <= 65535 /\ forall lf order, Permutation order (wsteps false) ->
  exists m evs, ~ exists s rest, o_run false lf order B Size (o_init m) evs = Some s /\ o_fifo false Size s rest.
Proof. exists 255, 2. split; [lia|]. intros lf order H. exists (fun _ => 0), (torn order). apply bad_l. apply torn_l. exact H. Qed.
Print Assumptions opt_tx_page_refuted.
Theorem opt_rx_page_refuted : exists B Size, 1 <= Size <= 65535 /\ forall lf once order, Permutation order (rsteps false) ->
  exists m evs s, q_run false lf once order B Size (q_init m) evs = Some s /\ q_pc s = QIdle /\ ring_length Size (q_ring s) = 0 /\ q_acc s <> delivered (q_got s).
Proof.
  exists 255, 2. split; [lia|]. intros lf once order H. pose proof (rtorn_l lf once order H) as X. unfold q_bad in X. exists (fun _ => 0), (rtorn once order).
  destruct (q_run false lf once order 255 2 (q_init (fun _ => 0)) (rtorn once order)) as [s|]; [|discriminate]. apply andb_prop in X. destruct X as [X N]. apply andb_prop in X. destruct X as [Ep L].
  exists s. split; [reflexivity|]. split; [destruct (q_pc s); [reflexivity|discriminate|discriminate|discriminate|discriminate]|]. split; [apply Z.eqb_eq; exact L|].
  intros E. rewrite E, Nat.eqb_refl in N. discriminate.
Qed.
Print Assumptions opt_rx_page_refuted.

(** The order of the source, in a buffer of 256 bytes at address 512. *)
Example opt_source_order : before WItem WLo (wsteps false) /\ before WLo WOn (wsteps false) /\ placed false 512 256.
Proof. split; [exists [], [], [WHi; WOn]; reflexivity|]. split; [exists [WItem], [WHi], []; reflexivity|]. right. reflexivity. Qed.
(** A byte written while the handler runs between all accesses. *)
Example opt_tx_example :
  option_map (fun s => (o_sent s, o_done s)) (o_run false true [WItem; WHi; WLo; WOn] 512 2 (o_init (fun _ => 0))
    (o_write 10 ++ OIsr :: OStart 20 :: flat_map (fun _ => [OStep; OIsr]) [1; 2; 3; 4; 5; 6; 7])) = Some ([10; 20], [(10, true); (20, true)]).
Proof. lazy. reflexivity. Qed.
Example opt_rx_example :
  option_map (fun s => (q_got s, q_acc s)) (q_run true true false [RAll; RItem] 0 2 (q_init (fun _ => 0))
    (q_read ++ [QIsr 1 true; QStart; QStep; QStep; QStep; QIsr 2 true; QIsr 3 true; QStep; QStep] ++ q_read)) = Some ([-1; 1; 2], [1; 2]).
Proof. lazy. reflexivity. Qed.
