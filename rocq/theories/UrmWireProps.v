(** C107: the distance sensor on the board's own USART. *)
Require Import ZArith List Bool Lia.
Import ListNotations.
From Verif Require Import Base AvrModel AvrSpec WireModel WireSpec RingModel StreamModel StreamSpec HwRxModel HwRxSpec HwTxModel HwTxSpec WireLinkModel
  PromptModel UrmModel UrmSpec UrmLinkSpec UrmWireModel UrmWireSpec UrmWireProofs UrmTurnProofs UrmTurnWire.
Open Scope Z_scope.

(** Whatever the schedule of calls, handler runs and characters: ReceiveResponse answers, in order, the frames of four of the
    bytes the handler stored, each with its checksum judged; all of them, as soon as less than a frame is left in the buffer.
    And the commands go out as they were given.  Needed: a buffer size divisible by four, or no handler run between the two
    halves of getLength. *)
Theorem urm_usart : forall So Si m m' evs ys ps g', 1 <= So <= 65535 -> 1 <= Si <= 65535 -> Forall gev_ok evs ->
  Si mod 4 = 0 \/ g_calm So Si (g_start m m') evs = true ->
  g_steps So Si (g_start m m') evs = ((ys, ps), g') ->
  xport_polite So (xport_init m) false ys = true -> port_polite Si (port_init m') false ps = true ->
  exists g k, g' = Some g /\
    filter answered (g_reports g) = map frame_result (firstn k (frames (r_acc (p_rx (g_rx g))))) /\
    (g_pc g = GIdle -> ring_length Si (r_ring (p_rx (g_rx g))) <= 3 ->
     filter answered (g_reports g) = map frame_result (frames (r_acc (p_rx (g_rx g))))) /\
    (Forall (fun d => snd d = true) (t_done (y_tx (g_tx g))) ->
     exists waiting, concat (g_cmds g) = x_line (y_utx (g_tx g)) ++ waiting ++ g_todo g /\ Z.of_nat (length waiting) <= So + 2).
Proof. intros So Si m m' evs ys ps g' HSo HSi. exact (urm_usart_l So Si HSo HSi m m' evs ys ps g'). Qed.

(** One call, undisturbed, after any such run: with four bytes or more in the buffer it answers the next frame and takes it;
    otherwise it answers whether there is anything, and takes nothing. *)
Theorem urm_poll : forall So Si m m' evs ys ps g, 1 <= So <= 65535 -> 1 <= Si <= 65535 -> Forall gev_ok evs ->
  Si mod 4 = 0 \/ g_calm So Si (g_start m m') evs = true ->
  g_steps So Si (g_start m m') evs = ((ys, ps), Some g) ->
  xport_polite So (xport_init m) false ys = true -> port_polite Si (port_init m') false ps = true -> g_pc g = GIdle ->
  exists st g2 r, g_steps So Si g (GvReceive :: repeat GvStep 26) = (st, Some g2) /\ g_pc g2 = GIdle /\ g_tx g2 = g_tx g /\ g_cmds g2 = g_cmds g /\
    g_reports g2 = g_reports g ++ [r] /\
    let len := ring_length Si (r_ring (p_rx (g_rx g))) in
    if len >? 3
    then nth_error (map frame_result (frames (r_acc (p_rx (g_rx g))))) (length (filter answered (g_reports g))) = Some r /\
         ring_length Si (r_ring (p_rx (g_rx g2))) = len - 4
    else r = (if len =? 0 then RNone else RPending, None) /\ g_rx g2 = g_rx g.
Proof. intros So Si m m' evs ys ps g HSo HSi. exact (urm_poll_l So Si HSo HSi m m' evs ys ps g). Qed.
(** With handlers in between: whether it answers that more is coming depends on what is in the buffer when it subtracts. *)
Theorem urm_pending : forall So Si m m' evs ys ps g ge, 1 <= So <= 65535 -> 1 <= Si <= 65535 -> Forall gev_ok evs ->
  Si mod 4 = 0 \/ g_calm So Si (g_start m m') evs = true ->
  g_steps So Si (g_start m m') evs = ((ys, ps), Some g) ->
  xport_polite So (xport_init m) false ys = true -> port_polite Si (port_init m') false ps = true -> g_pc g = GSub2 ge ->
  option_map g_reports (snd (g_steps So Si g [GvStep])) =
    Some (g_reports g ++ [(if ring_length Si (r_ring (p_rx (g_rx g))) =? 0 then RNone else RPending, None)]).
Proof. intros So Si m m' evs ys ps g ge HSo HSi. exact (urm_pending_l So Si HSo HSi m m' evs ys ps g ge). Qed.

(** With a sensor that answers the distance commands it has heard, no sooner than it has heard them: the answers are the
    measurements, in order, none twice and none left out; EndDistance delivers those it can deliver. *)
Theorem urm_sensor : forall So Si m m' evs ys ps g' t ms n, 1 <= So <= 65535 -> 1 <= Si <= 65535 -> Forall gev_ok evs ->
  Si mod 4 = 0 \/ g_calm So Si (g_start m m') evs = true ->
  g_steps So Si (g_start m m') evs = ((ys, ps), g') ->
  xport_polite So (xport_init m) false ys = true -> port_polite Si (port_init m') false ps = true ->
  losses 0 false (wire Si (port_init m') ps) = 0%nat -> (forall i, byte (fst (ms i)) /\ byte (snd (ms i))) ->
  exists g, g' = Some g /\
    (Forall asks_distance (g_cmds g) -> Forall (fun d => snd d = true) (t_done (y_tx (g_tx g))) ->
     length (r_acc (p_rx (g_rx g))) = length (p_taken (g_rx g)) \/ Z.of_nat (length (p_taken (g_rx g))) <= Si - 1 ->
     chars false (wire Si (port_init m') ps) = firstn n (replies t ms 0 (frames (x_line (y_utx (g_tx g))))) ->
     exists j, (j <= length (g_cmds g))%nat /\
       filter answered (g_reports g) = map (fun i => (RSuccess, Some (34, fst (ms i), snd (ms i)))) (seq 0 j) /\
       delivered (g_reports g) = measured ms j /\
       (g_pc g = GIdle -> ring_length Si (r_ring (p_rx (g_rx g))) <= 3 -> unread (p_uart (g_rx g)) = [] ->
        x_line (y_utx (g_tx g)) = concat (g_cmds g) -> (4 * length (g_cmds g) <= n)%nat -> j = length (g_cmds g))).
Proof. intros So Si m m' evs ys ps g' t ms n HSo HSi. exact (urm_sensor_l So Si HSo HSi m m' evs ys ps g' t ms n). Qed.

(** A program that lets at most [k] commands wait for their answers, with room for [k] messages in both buffers: every byte of
    the commands is accepted, every byte of the answers stored, and all but [k] commands are answered at any time. *)
Theorem urm_in_turn : forall So Si m m' evs ys ps g' t ms k, 4 * Z.of_nat k + 1 <= So <= 65535 -> 4 * Z.of_nat k + 1 <= Si <= 65535 ->
  Forall gev_asks evs -> Si mod 4 = 0 \/ g_calm So Si (g_start m m') evs = true ->
  g_steps So Si (g_start m m') evs = ((ys, ps), g') ->
  xport_polite So (xport_init m) false ys = true -> port_polite Si (port_init m') false ps = true ->
  losses 0 false (wire Si (port_init m') ps) = 0%nat -> (forall i, byte (fst (ms i)) /\ byte (snd (ms i))) ->
  g_turns So Si k (g_start m m') evs = true -> answers_in_time So Si m m' t ms evs ->
  exists g j, g' = Some g /\ (j <= length (g_cmds g) <= j + k)%nat /\
    filter answered (g_reports g) = map (fun i => (RSuccess, Some (34, fst (ms i), snd (ms i)))) (seq 0 j) /\
    delivered (g_reports g) = measured ms j /\
    Forall (fun d => snd d = true) (t_done (HwTxModel.y_tx (g_tx g))) /\ length (r_acc (p_rx (g_rx g))) = length (p_taken (g_rx g)) /\
    (g_pc g = GIdle -> ring_length Si (r_ring (p_rx (g_rx g))) <= 3 -> unread (p_uart (g_rx g)) = [] ->
     length (chars false (wire Si (port_init m') ps)) = (4 * length (g_cmds g))%nat -> j = length (g_cmds g)).
Proof. exact urm_in_turn_l. Qed.

(** The same over the levels of the line, with the answers as frames at their times and the handlers as C105 asks for. *)
Theorem urm_wire : forall F G c1 c2 id1 id2 m1 m2 cs a t0 sched tevs So Si m m' evs ys g' t ms n,
  1 <= F -> 1 <= G -> id1 = 0 \/ id1 = 1 -> id2 = 0 \/ id2 = 1 -> c_bits c1 = 3 -> c_bits c2 = 3 -> c_par c2 = c_par c1 ->
  0 <= c_ubrr c1 < 65536 -> 0 <= c_ubrr c2 < 65536 -> c_div c1 = 8 \/ c_div c1 = 16 -> c_div c2 = 8 \/ c_div c2 = 16 ->
  tolerable (speed_samples (c_div c2)) (speed_middle (c_div c2)) (last_bit 8 (c_par c1))
    (bit_time G (c_div c1) (c_ubrr c1)) (sample_time F (c_ubrr c2)) ->
  WireSpec.spaced (frame_time G c1) t0 cs -> a - sample_time F (c_ubrr c2) < t0 ->
  Forall (fun sw => forallb software sw = true) sched ->
  receiving F G (opened m1 id1 c1) id1 (opened m2 id2 c2) id2 cs a sched = Some tevs ->
  1 <= So <= 65535 -> 1 <= Si <= 65535 -> Forall gev_ok evs -> Si mod 4 = 0 \/ g_calm So Si (g_start m m') evs = true ->
  g_steps So Si (g_start m m') evs = ((ys, map snd tevs), g') ->
  tx_prompt So (xport_init m) false ys = true -> tx_quick So (xport_init m) false ys = true ->
  let B := c_div c2 * (match c_par c1 with POff => 9 | _ => 10 end) in
  rx_prompt (port_step Si) (port_init m') false (map snd tevs) = true -> rx_brief (port_step Si) B (port_init m') (-1) tevs = true ->
  HwRxSpec.served (2 * B) [] false (timed Si (port_init m') tevs) = true ->
  (forall i, byte (fst (ms i)) /\ byte (snd (ms i))) ->
  exists g, g' = Some g /\
    (Forall asks_distance (g_cmds g) -> Forall (fun d => snd d = true) (t_done (y_tx (g_tx g))) ->
     length (r_acc (p_rx (g_rx g))) = length (p_taken (g_rx g)) \/ Z.of_nat (length (p_taken (g_rx g))) <= Si - 1 ->
     map snd cs = firstn n (replies t ms 0 (frames (x_line (y_utx (g_tx g))))) ->
     exists j, (j <= length (g_cmds g))%nat /\
       filter answered (g_reports g) = map (fun i => (RSuccess, Some (34, fst (ms i), snd (ms i)))) (seq 0 j) /\
       delivered (g_reports g) = measured ms j /\
       (g_pc g = GIdle -> ring_length Si (r_ring (p_rx (g_rx g))) <= 3 -> unread (p_uart (g_rx g)) = [] ->
        x_line (y_utx (g_tx g)) = concat (g_cmds g) -> (4 * length (g_cmds g) <= n)%nat ->
        Forall (fun fr => fst fr + frame_time G c1 <= a + (Z.of_nat (length sched) - 1) * sample_time F (c_ubrr c2)) cs ->
        j = length (g_cmds g))).
Proof. exact urm_wire_l. Qed.

(** A program that lets at most [k] commands wait, over the levels of the line: nothing is cut off or left out. *)
Theorem urm_turn_wire : forall F G c1 c2 id1 id2 m1 m2 cs a t0 sched tevs So Si m m' evs ys g' t ms k,
  1 <= F -> 1 <= G -> id1 = 0 \/ id1 = 1 -> id2 = 0 \/ id2 = 1 -> c_bits c1 = 3 -> c_bits c2 = 3 -> c_par c2 = c_par c1 ->
  0 <= c_ubrr c1 < 65536 -> 0 <= c_ubrr c2 < 65536 -> c_div c1 = 8 \/ c_div c1 = 16 -> c_div c2 = 8 \/ c_div c2 = 16 ->
  tolerable (speed_samples (c_div c2)) (speed_middle (c_div c2)) (last_bit 8 (c_par c1))
    (bit_time G (c_div c1) (c_ubrr c1)) (sample_time F (c_ubrr c2)) ->
  WireSpec.spaced (frame_time G c1) t0 cs -> a - sample_time F (c_ubrr c2) < t0 -> Forall byte (map snd cs) ->
  Forall (fun sw => forallb software sw = true) sched ->
  receiving F G (opened m1 id1 c1) id1 (opened m2 id2 c2) id2 cs a sched = Some tevs ->
  4 * Z.of_nat k + 1 <= So <= 65535 -> 4 * Z.of_nat k + 1 <= Si <= 65535 ->
  Forall gev_asks evs -> Si mod 4 = 0 \/ g_calm So Si (g_start m m') evs = true ->
  g_steps So Si (g_start m m') evs = ((ys, map snd tevs), g') ->
  tx_prompt So (xport_init m) false ys = true -> tx_quick So (xport_init m) false ys = true ->
  let B := c_div c2 * (match c_par c1 with POff => 9 | _ => 10 end) in
  rx_prompt (port_step Si) (port_init m') false (map snd tevs) = true -> rx_brief (port_step Si) B (port_init m') (-1) tevs = true ->
  HwRxSpec.served (2 * B) [] false (timed Si (port_init m') tevs) = true ->
  (forall i, byte (fst (ms i)) /\ byte (snd (ms i))) ->
  g_turns So Si k (g_start m m') evs = true -> line_in_time So Si m m' t ms (map snd cs) evs ->
  exists g j, g' = Some g /\ (j <= length (g_cmds g) <= j + k)%nat /\
    filter answered (g_reports g) = map (fun i => (RSuccess, Some (34, fst (ms i), snd (ms i)))) (seq 0 j) /\
    delivered (g_reports g) = measured ms j /\
    Forall (fun d => snd d = true) (t_done (HwTxModel.y_tx (g_tx g))) /\ length (r_acc (p_rx (g_rx g))) = length (p_taken (g_rx g)) /\
    (g_pc g = GIdle -> ring_length Si (r_ring (p_rx (g_rx g))) <= 3 -> unread (p_uart (g_rx g)) = [] ->
     length cs = (4 * length (g_cmds g))%nat ->
     Forall (fun fr => fst fr + frame_time G c1 <= a + (Z.of_nat (length sched) - 1) * sample_time F (c_ubrr c2)) cs ->
     j = length (g_cmds g)).
Proof. exact urm_turn_wire_l. Qed.

(** The driver alone never hears anything: it asks getLength before it calls Read, and only Read turns the interrupt on.
    Whatever the schedule, nothing is stored, and ReceiveResponse answers that there is nothing. *)
Theorem urm_deaf : forall So Si m m' evs st g, g_steps So Si (g_start_deaf m m') evs = (st, Some g) ->
  Forall (fun r => r = (RNone, None)) (g_reports g) /\ r_acc (p_rx (g_rx g)) = [] /\ delivered (g_reports g) = [].
Proof.
  intros So Si m m' evs st g E. destruct (deaf_l So Si evs (g_start_deaf m m') st g) as (_ & _ & A & _ & _ & F & _); [|exact E|].
  - unfold deaf. cbn. auto 8.
  - split; [exact F|]. split; [exact A|]. clear - F. induction F as [|r rs -> F IH]; [reflexivity|]. exact IH.
Qed.

(** ** Sizes not divisible by four *)
Definition uw_boot : list gev := repeat GvStep 4.
Definition uw_ask : list gev := GvSend 34 0 0 :: repeat GvStep 25 ++ concat (repeat [GvTxIsr; GvTick] 6).
Definition uw_char (d : Z) : list gev := [GvStart; GvStop d; GvRxIsr].
Definition uw_chars (ds : list Z) : list gev := flat_map uw_char ds.
Definition uw_poll : list gev := GvReceive :: repeat GvStep 26.
(** The third ReceiveResponse finds the cursors equal, at the end of the buffer; before it subtracts them the handler stores
    the first byte of the answer at the front. *)
Definition uw_glitch : list gev :=
  uw_boot ++ uw_ask ++ uw_chars (reply (1, 10)) ++ uw_poll ++ uw_ask ++ uw_chars (reply (1, 11)) ++ uw_poll ++
  uw_ask ++ [GvReceive; GvStep] ++ uw_char 34 ++ repeat GvStep 25 ++ uw_chars (tl (reply (1, 12))) ++ uw_poll ++
  uw_ask ++ uw_chars (reply (1, 13)) ++ uw_poll ++ uw_poll.
Definition uw_ms (i : nat) : Z * Z := (1, 10 + Z.of_nat i).
(** A buffer of nine: one such handler run, and ReceiveResponse reads three bytes that are not there.  Everything the sensor
    sent was stored; of four distances two are delivered, and the frames stay shifted. *)
Theorem urm_size_refuted : exists ys ps g, Forall gev_ok uw_glitch /\
  g_steps 9 9 (g_start (fun _ => 0) (fun _ => 0)) uw_glitch = ((ys, ps), Some g) /\
  xport_polite 9 (xport_init (fun _ => 0)) false ys = true /\ port_polite 9 (port_init (fun _ => 0)) false ps = true /\
  losses 0 false (wire 9 (port_init (fun _ => 0)) ps) = 0%nat /\
  Forall asks_distance (g_cmds g) /\ length (g_cmds g) = 4%nat /\ Forall (fun d => snd d = true) (t_done (HwTxModel.y_tx (g_tx g))) /\
  length (r_acc (p_rx (g_rx g))) = length (p_taken (g_rx g)) /\
  x_line (y_utx (g_tx g)) = concat (g_cmds g) /\
  chars false (wire 9 (port_init (fun _ => 0)) ps) = replies (0, 0) uw_ms 0 (frames (x_line (y_utx (g_tx g)))) /\
  g_pc g = GIdle /\ ring_length 9 (r_ring (p_rx (g_rx g))) = 3 /\ unread (p_uart (g_rx g)) = [] /\
  delivered (g_reports g) = [266; 267] /\ measured uw_ms 4 = [266; 267; 268; 269] /\
  filter answered (g_reports g) =
    [(RSuccess, Some (34, 1, 10)); (RSuccess, Some (34, 1, 11)); (RChecksum, Some (34, 255, 255)); (RChecksum, Some (1, 12, 47))].
Proof.
  assert (OK : Forall gev_ok uw_glitch).
  { unfold uw_glitch, uw_boot, uw_ask, uw_poll, uw_chars, uw_char. cbn [repeat concat app flat_map reply fst snd tl]. repeat (apply Forall_cons; [try exact Logic.I; cbn; unfold byte; lia|]). apply Forall_nil. }
  assert (C : (let '((ys, ps), g') := g_steps 9 9 (g_start (fun _ => 0) (fun _ => 0)) uw_glitch in
      (xport_polite 9 (xport_init (fun _ => 0)) false ys, port_polite 9 (port_init (fun _ => 0)) false ps, losses 0 false (wire 9 (port_init (fun _ => 0)) ps),
       chars false (wire 9 (port_init (fun _ => 0)) ps),
       option_map (fun g => (g_cmds g, t_done (HwTxModel.y_tx (g_tx g)), (length (r_acc (p_rx (g_rx g))), length (p_taken (g_rx g))), x_line (y_utx (g_tx g)), g_pc g,
         ring_length 9 (r_ring (p_rx (g_rx g))), unread (p_uart (g_rx g)), (delivered (g_reports g), filter answered (g_reports g)))) g')) =
    (true, true, 0%nat, concat (map reply [(1, 10); (1, 11); (1, 12); (1, 13)]),
     Some (repeat [34; 0; 0; 34] 4, map (fun b => (b, true)) (concat (repeat [34; 0; 0; 34] 4)), (16%nat, 16%nat), concat (repeat [34; 0; 0; 34] 4), GIdle, 3, [],
      ([266; 267], [(RSuccess, Some (34, 1, 10)); (RSuccess, Some (34, 1, 11)); (RChecksum, Some (34, 255, 255)); (RChecksum, Some (1, 12, 47))])))) by (lazy; reflexivity).
  destruct (g_steps 9 9 (g_start (fun _ => 0) (fun _ => 0)) uw_glitch) as [[ys ps] [g|]]; [|discriminate]. cbn [option_map] in C.
  assert (C1 : g_cmds g = repeat [34; 0; 0; 34] 4) by congruence. assert (C2 : x_line (y_utx (g_tx g)) = concat (repeat [34; 0; 0; 34] 4)) by congruence.
  assert (C3 : t_done (HwTxModel.y_tx (g_tx g)) = map (fun b => (b, true)) (concat (repeat [34; 0; 0; 34] 4))) by congruence.
  assert (C4 : chars false (wire 9 (port_init (fun _ => 0)) ps) = concat (map reply [(1, 10); (1, 11); (1, 12); (1, 13)])) by congruence.
  exists ys, ps, g. rewrite C1, C2, C3, C4. split; [exact OK|]. split; [reflexivity|]. split; [congruence|]. split; [congruence|]. split; [congruence|].
  split; [cbn [repeat]; repeat (constructor; [exists 0; split; [unfold byte; lia|reflexivity]|]); constructor|]. split; [reflexivity|].
  split; [cbn [repeat concat app map]; repeat (constructor; [reflexivity|]); constructor|]. split; [assert (H : (length (r_acc (p_rx (g_rx g))), length (p_taken (g_rx g))) = (16%nat, 16%nat)) by congruence; congruence|].
  split; [reflexivity|]. split; [reflexivity|]. split; [congruence|]. split; [congruence|]. split; [congruence|]. split; [congruence|]. split; [reflexivity|congruence].
Qed.
(** With a buffer of eight the same events deliver all four. *)
Example urm_size_eight : option_map (fun g => (delivered (g_reports g), g_reports g)) (snd (g_steps 9 8 (g_start (fun _ => 0) (fun _ => 0)) uw_glitch)) =
  Some ([266; 267; 268; 269],
    [(RSuccess, Some (34, 1, 10)); (RSuccess, Some (34, 1, 11)); (RPending, None); (RSuccess, Some (34, 1, 12)); (RSuccess, Some (34, 1, 13)); (RNone, None)]).
Proof. lazy; reflexivity. Qed.
(** A flipped bit: the frame is answered as a checksum error. *)
Example urm_flipped : option_map g_reports (snd (g_steps 8 8 (g_start (fun _ => 0) (fun _ => 0)) (uw_boot ++ uw_ask ++ uw_chars [34; 1; 43; 79] ++ uw_poll))) =
  Some [(RChecksum, Some (34, 1, 43))].
Proof. lazy; reflexivity. Qed.
(** The size is needed: with room for three bytes to send, the last byte of the first command is refused, and the sensor never
    answers. *)
Definition uw_cut : list gev := uw_boot ++ uw_ask ++ uw_poll.
Theorem urm_cut_refuted : exists ys ps g, Forall gev_asks uw_cut /\
  g_steps 4 8 (g_start (fun _ => 0) (fun _ => 0)) uw_cut = ((ys, ps), Some g) /\
  xport_polite 4 (xport_init (fun _ => 0)) false ys = true /\ port_polite 8 (port_init (fun _ => 0)) false ps = true /\
  g_turns 4 8 1 (g_start (fun _ => 0) (fun _ => 0)) uw_cut = true /\
  g_cmds g = [[34; 0; 0; 34]] /\ g_pc g = GIdle /\ x_line (y_utx (g_tx g)) = [34; 0; 0] /\ ring_length 4 (t_ring (HwTxModel.y_tx (g_tx g))) = 0 /\
  (forall t ms, replies t ms 0 (frames (x_line (y_utx (g_tx g)))) = []) /\ g_reports g = [(RNone, None)].
Proof.
  assert (OK : Forall gev_asks uw_cut).
  { unfold uw_cut, uw_boot, uw_ask, uw_poll. cbn [repeat concat app]. repeat (apply Forall_cons; [try exact Logic.I; cbn; unfold byte; lia|]). apply Forall_nil. }
  assert (C : (let '((ys, ps), g') := g_steps 4 8 (g_start (fun _ => 0) (fun _ => 0)) uw_cut in
      (xport_polite 4 (xport_init (fun _ => 0)) false ys, port_polite 8 (port_init (fun _ => 0)) false ps, g_turns 4 8 1 (g_start (fun _ => 0) (fun _ => 0)) uw_cut,
       option_map (fun g => (g_cmds g, g_pc g, x_line (y_utx (g_tx g)), ring_length 4 (t_ring (HwTxModel.y_tx (g_tx g))), g_reports g)) g')) =
    (true, true, true, Some ([[34; 0; 0; 34]], GIdle, [34; 0; 0], 0, [(RNone, None)]))) by (lazy; reflexivity).
  set (turns := g_turns 4 8 1 (g_start (fun _ => 0) (fun _ => 0)) uw_cut) in *. clearbody turns.
  destruct (g_steps 4 8 (g_start (fun _ => 0) (fun _ => 0)) uw_cut) as [[ys ps] [g|]]; cbn [option_map] in C; [|discriminate C].
  exists ys, ps, g. split; [exact OK|]. split; [reflexivity|]. injection C as C1 C2 C3 C4 C5 C6 C7 C8.
  split; [exact C1|]. split; [exact C2|]. split; [exact C3|]. split; [exact C4|]. split; [exact C5|]. split; [exact C6|]. split; [exact C7|]. split; [|exact C8].
  intros t ms. rewrite C6. reflexivity.
Qed.
(** One question and its answer, with buffers of eight. *)
Definition uw_turn : list gev := uw_boot ++ uw_ask ++ uw_chars (reply (1, 44)) ++ uw_poll.
Example urm_turn_example : Forall gev_asks uw_turn /\ g_turns 8 8 1 (g_start (fun _ => 0) (fun _ => 0)) uw_turn = true /\
  answers_in_time 8 8 (fun _ => 0) (fun _ => 0) (0, 0) (fun _ => (1, 44)) uw_turn /\
  (let '((ys, ps), g') := g_steps 8 8 (g_start (fun _ => 0) (fun _ => 0)) uw_turn in
   (xport_polite 8 (xport_init (fun _ => 0)) false ys, port_polite 8 (port_init (fun _ => 0)) false ps, losses 0 false (wire 8 (port_init (fun _ => 0)) ps),
    option_map (fun g => delivered (g_reports g)) g') = (true, true, 0%nat, Some [300])).
Proof.
  split; [|split; [|split]].
  - unfold uw_turn, uw_boot, uw_ask, uw_poll, uw_chars, uw_char. cbn [repeat concat app flat_map reply fst snd tl]. repeat (apply Forall_cons; [try exact Logic.I; cbn; unfold byte; lia|]). apply Forall_nil.
  - lazy; reflexivity.
  - apply moments_l. lazy; reflexivity.
  - lazy; reflexivity.
Qed.
(** Without the first Read: the answer comes and is not heard. *)
Example urm_deaf_example : option_map (fun g => (g_reports g, unread (p_uart (g_rx g)))) (snd (g_steps 8 8 (g_start_deaf (fun _ => 0) (fun _ => 0)) (uw_ask ++ uw_chars (reply (1, 44)) ++ uw_poll))) =
  Some ([(RNone, None)], [(34, false); (1, false); (79, true)]).
Proof. lazy; reflexivity. Qed.

(** ** One measurement over the levels of the line *)
Definition uw_sched : list (list pev) := (PRead :: repeat PStep 3) :: repeat [PIsr] 650 ++ [concat (repeat (PRead :: repeat PStep 5) 4)].
Definition uw_events : option (list (Z * pev)) :=
  receiving 16000000 8000000 (opened (fun _ => 0) 0 (mkCfg 16 103 3 POff false)) 0
    (opened (fun _ => 0) 1 (mkCfg 16 51 3 POff false)) 1 [(1, 34); (133120000001, 1); (266240000001, 44); (399360000001, 79)] 0 uw_sched.
Definition uw_hw (e : pev) : gev := match e with PStart => GvStart | PStop d => GvStop d | PIsr => GvRxIsr | _ => GvStep end.
Definition uw_ask_quick : list gev := GvSend 34 0 0 :: concat (repeat (repeat GvStep 6 ++ [GvTxIsr; GvTxIsr; GvTick]) 4) ++ [GvStep].
(** The program of the schedule: the first Read, the command, the line, ReceiveResponse. *)
Definition uw_program (e : list (Z * pev)) : list gev :=
  uw_boot ++ uw_ask_quick ++ map uw_hw (firstn (length e - 28) (skipn 4 (map snd e))) ++ uw_poll.
Example urm_wire_example : match uw_events with
  | Some e => let '((ys, ps), g') := g_steps 8 8 (g_start (fun _ => 0) (fun _ => 0)) (uw_program e) in
      ((ps, g_turns 8 8 1 (g_start (fun _ => 0) (fun _ => 0)) (uw_program e), tx_prompt 8 (xport_init (fun _ => 0)) false ys, tx_quick 8 (xport_init (fun _ => 0)) false ys),
       (rx_prompt (port_step 8) (port_init (fun _ => 0)) false (map snd e), rx_brief (port_step 8) (16 * 9) (port_init (fun _ => 0)) (-1) e,
        HwRxSpec.served (2 * (16 * 9)) [] false (timed 8 (port_init (fun _ => 0)) e)),
       option_map (fun g => (g_cmds g, x_line (y_utx (g_tx g)), g_reports g, delivered (g_reports g))) g')
      = ((map snd e, true, true, true), (true, true, true), Some ([[34; 0; 0; 34]], [34; 0; 0; 34], [(RSuccess, Some (34, 1, 44))], [300]))
  | None => False
  end.
Proof. lazy; reflexivity. Qed.

(** The sensor of the example answers after it has been asked. *)
Example urm_turn_wire_example : match uw_events with
  | Some e => line_in_time 8 8 (fun _ => 0) (fun _ => 0) (0, 0) (fun _ => (1, 44)) [34; 1; 44; 79] (uw_program e)
  | None => False
  end.
Proof.
  assert (C : match uw_events with
    | Some e => let q := uw_program e in
        forallb (fun i => line_moment_ok 8 8 (fun _ => 0) (fun _ => 0) (0, 0) (fun _ => (1, 44)) [34; 1; 44; 79] (firstn i q)) (seq 0 (S (length q)))
    | None => false end = true) by (lazy; reflexivity).
  destruct uw_events as [e|]; [|discriminate C]. apply line_moments_l. exact C.
Qed.

Print Assumptions urm_usart.
Print Assumptions urm_poll.
Print Assumptions urm_pending.
Print Assumptions urm_sensor.
Print Assumptions urm_in_turn.
Print Assumptions urm_cut_refuted.
Print Assumptions urm_wire.
Print Assumptions urm_turn_wire.
Print Assumptions urm_deaf.
Print Assumptions urm_size_refuted.
