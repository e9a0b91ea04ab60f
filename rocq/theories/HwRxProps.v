(** C95: the hardware receive buffer below UsartReceive and UsartInputStream. *)
Require Import ZArith List Bool Lia.
Import ListNotations.
From Verif Require Import Base RingModel StreamModel HwRxModel HwRxSpec HwRxProofs.
Open Scope Z_scope.

(** For any traffic on the line and any readings of UDR: every character is read, still unread, or
    lost; they come in order; a character carries the overrun flag iff the one right before it was
    lost; and one is lost for each start bit that comes with three characters unread. *)
Theorem hw_rx_account : forall evs u taken, uart_run uart_init evs = (u, taken) ->
  exists o, map fst o = chars false evs /\ taken ++ unread u = deliver false o /\
    length (filter (fun c => negb (snd c)) o) = losses 0 false evs /\ (length (unread u) <= 3)%nat.
Proof. exact hw_account_l. Qed.
Print Assumptions hw_rx_account.

(** As long as no start bit comes with three characters unread, nothing is lost or flagged. *)
Theorem hw_rx_prompt : forall evs u taken, uart_run uart_init evs = (u, taken) -> losses 0 false evs = 0%nat ->
  taken ++ unread u = map (fun d => (d, false)) (chars false evs).
Proof. exact hw_prompt_l. Qed.
Print Assumptions hw_rx_prompt.

(** In time: nothing is lost if a character takes at least [B] and is read less than [L <= 2 B] after it
    is complete, that is if interrupts are never held up for two characters... *)
Theorem hw_rx_latency : forall B L now evs u taken, 0 <= B -> L <= 2 * B ->
  paced B now None evs = true -> served L [] false evs = true -> uart_run uart_init (map snd evs) = (u, taken) ->
  taken ++ unread u = map (fun d => (d, false)) (chars false (map snd evs)).
Proof. exact (fun B L now evs u taken HB HL P V E => hw_prompt_l _ _ _ E (hw_latency_l B L now evs HB HL P V)). Qed.
Print Assumptions hw_rx_latency.

(** ... and this is the limit: one unit later a character can be lost. *)
Theorem hw_rx_latency_tight : forall B, 0 <= B -> exists evs,
  paced B 0 None evs = true /\ served (2 * B + 1) [] false evs = true /\ losses 0 false (map snd evs) = 1%nat.
Proof. exact (fun B HB => ex_intro _ (hw_tight B) (hw_tight_l B HB)). Qed.
Print Assumptions hw_rx_latency_tight.

(** What is found after [ds] came in and nobody read: up to three characters all of them; of more,
    the first two, and the last with the overrun flag. *)
Theorem hw_rx_asleep : forall ds, let (u, taken) := uart_run uart_init (arrive ds) in
  taken = [] /\ unread u = if (length ds <=? 3)%nat then map (fun d => (d, false)) ds
    else map (fun d => (d, false)) (firstn 2 ds) ++ [(last ds 0, true)].
Proof. exact hw_asleep_l. Qed.
Print Assumptions hw_rx_asleep.

(** TryRead, after any traffic, answers the oldest unread character and takes it; false and NotReady
    only when there is none; DataOverRun iff that character is flagged. *)
Theorem hw_try_read_next : forall evs u taken, uart_run uart_init evs = (u, taken) ->
  let (u', a) := hw_try_read u in
  a = match unread u with
      | [] => (false, 0, HNotReady)
      | (d, over) :: _ => (true, d, if over then HDataOverRun else HSuccess)
      end /\ unread u' = tl (unread u).
Proof. exact hw_next_l. Qed.
Print Assumptions hw_try_read_next.

(** UsartInputStream, whatever the schedule of start bits, characters, handler runs and steps of Read
    (at most one handler run while Read has its cursor past the end): no access outside the buffer;
    the values Read answered, the one it is about to answer and those queued are what the handler
    stored; it stores unflagged characters only, in order, and all of them while they fit. *)
Theorem hw_stream_account : forall Size m evs, 1 <= Size <= 65535 -> port_polite Size (port_init m) false evs = true ->
  exists p queued o, port_run Size (port_init m) evs = Some p /\
    r_acc (p_rx p) = filter (fun v => 0 <=? v) (r_got (p_rx p))
                     ++ (match r_pc (p_rx p) with RWrap v => [v] | _ => [] end) ++ queued /\
    Z.of_nat (length queued) <= Size - 1 /\ in_ring Size (p_rx p) queued /\
    map fst o = chars false (wire Size (port_init m) evs) /\
    p_taken p ++ unread (p_uart p) = deliver false o /\
    length (filter (fun c => negb (snd c)) o) = losses 0 false (wire Size (port_init m) evs) /\
    sub (r_acc (p_rx p)) (map u8 (fine (p_taken p))) /\
    (Z.of_nat (length (fine (p_taken p))) <= Size - 1 -> r_acc (p_rx p) = map u8 (fine (p_taken p))).
Proof. exact (fun Size m evs HS => port_all Size HS m evs). Qed.
Print Assumptions hw_stream_account.

(** End to end: if no start bit comes with three characters unread and the ring buffer refused none
    (or could not, being large enough), the characters sent are, in order, those Read answered, the
    one it is about to answer, those in the ring buffer and those in the hardware. *)
Theorem hw_stream_lossless : forall Size m evs, 1 <= Size <= 65535 -> port_polite Size (port_init m) false evs = true ->
  losses 0 false (wire Size (port_init m) evs) = 0%nat ->
  exists p, port_run Size (port_init m) evs = Some p /\
    (length (r_acc (p_rx p)) = length (p_taken p) \/ Z.of_nat (length (p_taken p)) <= Size - 1 ->
     exists queued, in_ring Size (p_rx p) queued /\ map u8 (chars false (wire Size (port_init m) evs)) =
       filter (fun v => 0 <=? v) (r_got (p_rx p)) ++ (match r_pc (p_rx p) with RWrap v => [v] | _ => [] end) ++
       queued ++ map (fun c => u8 (fst c)) (unread (p_uart p))).
Proof. exact (fun Size m evs HS => port_lossless_l Size HS m evs). Qed.
Print Assumptions hw_stream_lossless.

(** An overrun costs a character more than the hardware lost: the one after it is intact, but both
    Read and the handler drop what is flagged. *)
Theorem hw_overrun_costs_more : forall evs u taken, uart_run uart_init evs = (u, taken) -> u_line u = None ->
  (0 < losses 0 false evs)%nat ->
  (length (fine (taken ++ unread u)) + losses 0 false evs + 1 <= length (chars false evs))%nat.
Proof. exact hw_overrun_l. Qed.
Print Assumptions hw_overrun_costs_more.

Definition hw_tape : list uev := arrive [1; 2; 3; 4] ++ [UTake; UTake; UTake] ++ arrive [5] ++ [UTake].
Example hw_tape_example :
  uart_run uart_init hw_tape = (uart_init, [(1, false); (2, false); (4, true); (5, false)]) /\
  losses 0 false hw_tape = 1%nat /\ chars false hw_tape = [1; 2; 3; 4; 5] /\
  fine (snd (uart_run uart_init hw_tape)) = [1; 2; 5].
Proof. repeat split. Qed.

(** The interrupt is off until the first Read: three characters wait for it. *)
Definition hw_read : list pev := PRead :: repeat PStep 7.
Definition hw_boot : list pev :=
  [PStart; PStop 65; PStart; PStop 66; PStart; PStop 67; PIsr] ++ hw_read ++ [PIsr; PIsr; PIsr] ++
  hw_read ++ hw_read ++ [PStart; PStop 68; PIsr] ++ hw_read ++ hw_read ++ hw_read.
Example hw_boot_example :
  port_polite 8 (port_init (fun _ => 0)) false hw_boot = true /\
  option_map (fun p => r_got (p_rx p)) (port_run 8 (port_init (fun _ => 0)) hw_boot) = Some [-1; 65; 66; 67; 68; -1] /\
  losses 0 false (wire 8 (port_init (fun _ => 0)) hw_boot) = 0%nat.
Proof. repeat split. Qed.

(** Before the first Read a fourth character costs two. *)
Definition hw_late : list pev :=
  [PStart; PStop 65; PStart; PStop 66; PStart; PStop 67; PStart; PStop 68] ++ hw_read ++ [PIsr; PIsr; PIsr] ++
  hw_read ++ hw_read ++ hw_read.
Example hw_late_example :
  port_polite 8 (port_init (fun _ => 0)) false hw_late = true /\
  option_map (fun p => r_got (p_rx p)) (port_run 8 (port_init (fun _ => 0)) hw_late) = Some [-1; 65; 66; -1] /\
  losses 0 false (wire 8 (port_init (fun _ => 0)) hw_late) = 1%nat.
Proof. repeat split. Qed.
