(** C106: text written on one board is read on the other. *)
Require Import ZArith List Bool Lia.
Import ListNotations.
From Verif Require Import Base AvrModel AvrSpec WireModel WireSpec RingModel StreamModel StreamSpec HwRxModel HwRxSpec HwTxModel HwTxSpec
  WireLinkModel TextModel TextSpec PrintModel PrintSpec PrintProps PromptModel PromptProps TextWireModel TextWireSpec TextWireProofs.
Open Scope Z_scope.
Notation y_tx := HwTxModel.y_tx.

(** Whatever the schedule of calls, steps, handler runs and ends of characters (at most one handler run while Write has its
    cursor past the end): nothing is undefined.  If the buffer refused no character, the texts of the calls so far are what
    is on the line, no more than the buffer and the hardware can hold, and what the call in progress has not written yet. *)
Theorem text_sent : forall iw p s f Size m evs ys z', iw = 16 \/ iw = 32 -> 24 <= p -> p + 5 <= s -> format_ok f -> 1 <= Size <= 65535 ->
  Forall (tev_ok iw p s f) evs -> z_steps iw p s f Size (z_start m) evs = (ys, z') -> xport_polite Size (xport_init m) false ys = true ->
  exists z ts, z' = Some z /\ Forall2 (call_shows p s f) (z_calls z) ts /\
    (Forall (fun d => snd d = true) (t_done (y_tx (z_port z))) ->
     exists waiting, concat ts = x_line (y_utx (z_port z)) ++ waiting ++ z_todo z /\ Z.of_nat (length waiting) <= Size + 2).
Proof.
  intros iw p s f Size m evs ys z' Hi Hp Hs Hf HS OK E P. destruct (z_sends_l iw p s f Hi Hp Hs Hf Size HS m evs ys z' OK E P) as (z & ts & A & B & _ & C).
  exists z, ts. auto.
Qed.
(** A program that calls only when, with what getLength answers, the text fits into a buffer of at most 256 has no character
    refused. *)
Theorem text_fits : forall iw p s f Size m evs ys z, iw = 16 \/ iw = 32 -> 24 <= p -> p + 5 <= s -> format_ok f -> 1 <= Size <= 256 ->
  Forall (tev_ok iw p s f) evs -> z_steps iw p s f Size (z_start m) evs = (ys, Some z) -> xport_polite Size (xport_init m) false ys = true ->
  z_fits iw p s f Size (z_start m) evs = true -> Forall (fun d => snd d = true) (t_done (y_tx (z_port z))).
Proof.
  intros iw p s f Size m evs ys z Hi Hp Hs Hf HS OK E PO FT. exact (z_fits_start iw p s f Hi Hp Hs Hf Size ltac:(lia) m evs ys z OK E PO (proj2 HS) FT).
Qed.
(** In any larger buffer getLength answers 0 when 256 characters wait, since it returns a uint8_t: a text that then seems to
    fit is cut off. *)
Theorem text_length_refuted : forall Size m, 257 <= Size <= 65535 ->
  exists ys z, z_steps 16 24 149 default_format Size (z_start m) (TvCall (PText (TStr (repeat 65 256))) :: repeat TvStep (6 * 256)) = (ys, Some z) /\
    z_ready z = true /\ ring_length Size (t_ring (y_tx (z_port z))) = 256 /\ out_length Size (z_port z) = 0.
Proof. exact text_length_l. Qed.
(** Otherwise: of a text written while no handler runs, the buffer takes as many characters as there is room for, and the
    rest is dropped. *)
Theorem text_cut : forall iw p s f Size m evs ys z c t, iw = 16 \/ iw = 32 -> 24 <= p -> p + 5 <= s -> format_ok f -> 1 <= Size <= 65535 ->
  Forall (tev_ok iw p s f) evs -> z_steps iw p s f Size (z_start m) evs = (ys, Some z) -> xport_polite Size (xport_init m) false ys = true ->
  z_ready z = true -> tev_ok iw p s f (TvCall c) -> call_text iw p s f c = Some t ->
  exists ys' z', z_steps iw p s f Size z (TvCall c :: repeat TvStep (6 * length t)) = (ys', Some z') /\
    z_calls z' = z_calls z ++ [c] /\ z_ready z' = true /\
    accepted (t_done (y_tx (z_port z'))) = accepted (t_done (y_tx (z_port z))) ++
      firstn (Z.to_nat (Size - 1 - ring_length Size (t_ring (y_tx (z_port z))))) t /\
    ring_length Size (t_ring (y_tx (z_port z'))) = Z.min (Size - 1) (ring_length Size (t_ring (y_tx (z_port z))) + Z.of_nat (length t)).
Proof. intros iw p s f Size m evs ys z c t Hi Hp Hs Hf HS. exact (text_cut_l iw p s f Hi Hp Hs Hf Size HS m evs ys z c t). Qed.

(** From board to board: [z] is a program that only writes lines, on a board whose transmitter makes the levels of the line;
    the program on the other board calls Read, and splits what it gets into lines.  No line it has is a wrong one, and once
    everything has been sent, heard and read it has all of them.  The premises are those of C105. *)
Theorem text_wire : forall iw p s f F G c1 c2 id1 id2 m1 m2 cs a t0 sched Size m evs ys z,
  iw = 16 \/ iw = 32 -> 24 <= p -> p + 5 <= s -> format_ok f -> readable f ->
  1 <= F -> 1 <= G -> id1 = 0 \/ id1 = 1 -> id2 = 0 \/ id2 = 1 -> c_bits c1 = 3 -> c_bits c2 = 3 -> c_par c2 = c_par c1 ->
  0 <= c_ubrr c1 < 65536 -> 0 <= c_ubrr c2 < 65536 -> c_div c1 = 8 \/ c_div c1 = 16 -> c_div c2 = 8 \/ c_div c2 = 16 ->
  tolerable (speed_samples (c_div c2)) (speed_middle (c_div c2)) (last_bit 8 (c_par c1))
    (bit_time G (c_div c1) (c_ubrr c1)) (sample_time F (c_ubrr c2)) ->
  WireSpec.spaced (frame_time G c1) t0 cs -> a - sample_time F (c_ubrr c2) < t0 ->
  1 <= Size <= 65535 -> Forall (tev_ok iw p s f) evs -> z_steps iw p s f Size (z_start m) evs = (ys, Some z) ->
  tx_prompt Size (xport_init m) false ys = true -> tx_quick Size (xport_init m) false ys = true ->
  Forall (fun d => snd d = true) (t_done (y_tx (z_port z))) ->
  only_lines (z_calls z) -> Forall (one_line f) (line_items (z_calls z)) ->
  map snd cs = x_line (y_utx (z_port z)) -> Forall (fun sw => forallb software sw = true) sched ->
  let B := c_div c2 * (match c_par c1 with POff => 9 | _ => 10 end) in
  exists tevs, receiving F G (opened m1 id1 c1) id1 (opened m2 id2 c2) id2 cs a sched = Some tevs /\
    forall Size' m', 1 <= Size' <= 65535 -> rx_prompt (port_step Size') (port_init m') false (map snd tevs) = true ->
      rx_brief (port_step Size') B (port_init m') (-1) tevs = true ->
      HwRxSpec.served (2 * B) [] false (timed Size' (port_init m') tevs) = true ->
      exists r, port_run Size' (port_init m') (map snd tevs) = Some r /\
        (length (r_acc (p_rx r)) = length (p_taken r) \/ Z.of_nat (length (p_taken r)) <= Size' - 1 ->
         exists n, (n <= length (line_items (z_calls z)))%nat /\
           Forall2 (fun i t => same_item p s f i (read_as f i t)) (firstn n (line_items (z_calls z)))
             (lines_of (f_newline f) 0 [] (filter (fun v => 0 <=? v) (r_got (p_rx r)))) /\
           (z_ready z = true -> ring_length Size (t_ring (y_tx (z_port z))) = 0 -> outstanding (y_utx (z_port z)) = [] ->
            Forall (fun fr => fst fr + frame_time G c1 <= a + (Z.of_nat (length sched) - 1) * sample_time F (c_ubrr c2)) cs ->
            r_pc (p_rx r) = RIdle -> ring_length Size' (r_ring (p_rx r)) = 0 -> unread (p_uart r) = [] ->
            n = length (line_items (z_calls z)))).
Proof.
  intros iw p s f F G c1 c2 id1 id2 m1 m2 cs a t0 sched Size m evs ys z Hi Hp Hs Hf Hr.
  exact (text_wire_l iw p s f Hi Hp Hs Hf Hr F G c1 c2 id1 id2 m1 m2 cs a t0 sched Size m evs ys z).
Qed.

(** ** Without room *)
Definition tw_steps (n : nat) : list tev := repeat TvStep n.
Definition tw_drain (n : nat) : list tev := concat (repeat [TvIsr; TvTick] n).
(** A buffer of four: of WriteLine(12345) three digits are taken; when they have been sent, WriteLine(6) is.  Nothing answers
    that something was lost, and who reads the line reads 1236. *)
Definition tw_cut : list tev := TvCall (PLine (TU16 12345)) :: tw_steps 42 ++ tw_drain 5 ++ TvCall (PLine (TU16 6)) :: tw_steps 18 ++ tw_drain 5.
Theorem text_cut_refuted : exists ys z, Forall (tev_ok 16 24 149 default_format) tw_cut /\ z_steps 16 24 149 default_format 4 (z_start (fun _ => 0)) tw_cut = (ys, Some z) /\
  xport_polite 4 (xport_init (fun _ => 0)) false ys = true /\ z_calls z = [PLine (TU16 12345); PLine (TU16 6)] /\ z_ready z = true /\
  ring_length 4 (t_ring (y_tx (z_port z))) = 0 /\ outstanding (y_utx (z_port z)) = [] /\
  map (read_as default_format (TU16 0)) (lines_of (f_newline default_format) 0 [] (x_line (y_utx (z_port z)))) = [RNum 1236].
Proof.
  assert (C : (let (ys, z') := z_steps 16 24 149 default_format 4 (z_start (fun _ => 0)) tw_cut in (xport_polite 4 (xport_init (fun _ => 0)) false ys, option_map (fun z =>
      (z_calls z, z_ready z, ring_length 4 (t_ring (y_tx (z_port z))), outstanding (y_utx (z_port z)),
       map (read_as default_format (TU16 0)) (lines_of (f_newline default_format) 0 [] (x_line (y_utx (z_port z)))))) z')) =
    (true, Some ([PLine (TU16 12345); PLine (TU16 6)], true, 0, [], [RNum 1236]))) by (lazy; reflexivity).
  assert (OK : Forall (tev_ok 16 24 149 default_format) tw_cut).
  { unfold tw_cut, tw_steps, tw_drain. cbn [repeat concat app]. repeat (apply Forall_cons; [try exact Logic.I; cbn; lia|]). apply Forall_nil. }
  destruct (z_steps 16 24 149 default_format 4 (z_start (fun _ => 0)) tw_cut) as [ys [z|]]; [|discriminate].
  cbn [option_map] in C. exists ys, z. split; [exact OK|]. split; [reflexivity|]. repeat split; congruence.
Qed.
(** With a buffer of eight and the same program nothing is lost. *)
Example text_room : option_map (fun z => map (read_as default_format (TU16 0)) (lines_of (f_newline default_format) 0 [] (x_line (y_utx (z_port z)))))
  (snd (z_steps 16 24 149 default_format 8 (z_start (fun _ => 0)) (TvCall (PLine (TU16 12345)) :: tw_steps 42 ++ tw_drain 9 ++ TvCall (PLine (TU16 6)) :: tw_steps 18 ++ tw_drain 5)))
  = Some [RNum 12345; RNum 6].
Proof. lazy; reflexivity. Qed.

(** ** WriteLine(7) from board to board *)
Definition tw_send : list tev := TvCall (PLine (TU8 7)) :: tw_steps 6 ++ [TvIsr; TvIsr] ++ tw_steps 6 ++ TvIsr :: tw_steps 6 ++
  [TvTick; TvIsr; TvTick; TvIsr; TvTick].
Definition tw_sched : list (list pev) := pr_read :: repeat [PIsr] 490 ++ [pr_read ++ pr_read ++ pr_read ++ pr_read].
Definition tw_events : option (list (Z * pev)) :=
  receiving 16000000 8000000 (opened (fun _ => 0) 0 (mkCfg 16 103 3 POff false)) 0
    (opened (fun _ => 0) 1 (mkCfg 16 51 3 POff false)) 1 [(1, 55); (133120000001, 10); (266240000001, 13)] 0 tw_sched.
Example text_wire_example :
  z_fits 16 24 149 default_format 8 (z_start (fun _ => 0)) tw_send = true /\
  (let (ys, z') := z_steps 16 24 149 default_format 8 (z_start (fun _ => 0)) tw_send in
   (tx_prompt 8 (xport_init (fun _ => 0)) false ys, tx_quick 8 (xport_init (fun _ => 0)) false ys,
    option_map (fun z => (z_calls z, z_ready z, x_line (y_utx (z_port z)), outstanding (y_utx (z_port z)))) z'))
  = (true, true, Some ([PLine (TU8 7)], true, [55; 10; 13], [])) /\
  option_map (fun e => (rx_prompt (port_step 8) (port_init (fun _ => 0)) false (map snd e), rx_brief (port_step 8) (16 * 9) (port_init (fun _ => 0)) (-1) e,
      HwRxSpec.served (2 * (16 * 9)) [] false (timed 8 (port_init (fun _ => 0)) e),
      option_map (fun r => map (read_as default_format (TU8 0)) (lines_of [10; 13] 0 [] (filter (fun v => 0 <=? v) (r_got (p_rx r)))))
        (port_run 8 (port_init (fun _ => 0)) (map snd e)))) tw_events
  = Some (true, true, true, Some [RNum 7]).
Proof. split; [lazy; reflexivity|]. split; lazy; reflexivity. Qed.

Print Assumptions text_sent.
Print Assumptions text_fits.
Print Assumptions text_length_refuted.
Print Assumptions text_cut.
Print Assumptions text_wire.
Print Assumptions text_cut_refuted.
