(** The sensor in turn, over the levels of the line. *)
Require Import ZArith List Bool Lia ZifyBool Arith.
Import ListNotations.
From Verif Require Import AvrModel AvrSpec WireModel WireSpec WireLinkModel WireLinkProofs PromptModel PromptProofs PromptProps WireProofs.
From Verif Require Import Base BaseFacts RingModel RingSpec RingProofs StreamModel StreamSpec StreamProofs LinkProofs MidiWireProofs
  HwRxModel HwRxSpec HwRxProofs HwTxModel HwTxSpec HwTxProofs UrmModel UrmSpec UrmProofs UrmLinkSpec TextWireProofs UrmWireModel UrmWireSpec UrmWireProofs UrmTurnProofs.
Open Scope Z_scope.
Local Notation y_tx := HwTxModel.y_tx.

Lemma chars_prefix : forall a b busy, exists z, chars busy (a ++ b) = chars busy a ++ z.
Proof.
  induction a as [|e a IH]; intros b busy; [exists (chars busy b); reflexivity|]. destruct e; cbn [app chars]; try apply IH.
  destruct busy; [|apply IH]. destruct (IH b false) as [z ->]. exists z. reflexivity.
Qed.
Lemma urm_turn_wire_l : forall F G c1 c2 id1 id2 m1 m2 cs a t0 sched tevs So Si m m' evs ys g' t ms k,
  1 <= F -> 1 <= G -> id1 = 0 \/ id1 = 1 -> id2 = 0 \/ id2 = 1 -> c_bits c1 = 3 -> c_bits c2 = 3 -> c_par c2 = c_par c1 ->
  0 <= c_ubrr c1 < 65536 -> 0 <= c_ubrr c2 < 65536 -> c_div c1 = 8 \/ c_div c1 = 16 -> c_div c2 = 8 \/ c_div c2 = 16 ->
  tolerable (speed_samples (c_div c2)) (speed_middle (c_div c2)) (last_bit 8 (c_par c1))
    (bit_time G (c_div c1) (c_ubrr c1)) (sample_time F (c_ubrr c2)) ->
  WireSpec.spaced (frame_time G c1) t0 cs -> a - sample_time F (c_ubrr c2) < t0 -> Forall byte (map snd cs) ->
  Forall (fun sw => forallb software sw = true) sched ->
  receiving F G (opened m1 id1 c1) id1 (opened m2 id2 c2) id2 cs a sched = Some tevs ->
  4 * Z.of_nat k + 1 <= So <= 65535 -> 4 * Z.of_nat k + 1 <= Si <= 65535 ->
  Forall gev_asks evs -> Si mod 4 = 0 \/ g_calm So Si (g_start m m') evs = true ->
  g_steps So Si (g_start m m') evs = ((ys, map snd tevs), g') ->
  tx_prompt So (xport_init m) false ys = true -> tx_quick So (xport_init m) false ys = true ->
  let B := c_div c2 * (match c_par c1 with POff => 9 | _ => 10 end) in
  rx_prompt (port_step Si) (port_init m') false (map snd tevs) = true -> rx_brief (port_step Si) B (port_init m') (-1) tevs = true ->
  HwRxSpec.served (2 * B) [] false (timed Si (port_init m') tevs) = true ->
  (forall i, byte (fst (ms i)) /\ byte (snd (ms i))) ->
  g_turns So Si k (g_start m m') evs = true -> line_in_time So Si m m' t ms (map snd cs) evs ->
  exists g j, g' = Some g /\ (j <= length (g_cmds g) <= j + k)%nat /\
    filter answered (g_reports g) = map (fun i => (RSuccess, Some (34, fst (ms i), snd (ms i)))) (seq 0 j) /\
    delivered (g_reports g) = measured ms j /\
    Forall (fun d => snd d = true) (t_done (y_tx (g_tx g))) /\ length (r_acc (p_rx (g_rx g))) = length (p_taken (g_rx g)) /\
    (g_pc g = GIdle -> ring_length Si (r_ring (p_rx (g_rx g))) <= 3 -> unread (p_uart (g_rx g)) = [] ->
     length cs = (4 * length (g_cmds g))%nat ->
     Forall (fun fr => fst fr + frame_time G c1 <= a + (Z.of_nat (length sched) - 1) * sample_time F (c_ubrr c2)) cs ->
     j = length (g_cmds g)).
Proof.
  intros F G c1 c2 id1 id2 m1 m2 cs a t0 sched tevs So Si m m' evs ys g' t ms k HF HG I1 I2 B1 B2 EP U1 U2 D1 D2 TOL SP BE BY SW RV HSo HSi OK CA E XP XQ B RP RB SE Hm TU LT.
  pose proof (prompt_tx _ _ _ XP XQ) as XO.
  assert (PO : port_polite Si (port_init m') false (map snd tevs) = true).
  { refine (receiving_polite_l F G _ id1 m2 id2 c2 cs a sched tevs Si m' I2 B2 U2 D2 SW RV RP _). rewrite EP. exact RB. }
  destruct (line_in_l F G c1 c2 id1 id2 m1 m2 cs a t0 sched tevs Si m' HF HG I1 I2 B1 B2 EP U1 U2 D1 D2 TOL SP BE SW BY RV ltac:(lia) PO SE) as (c & HE & CH & LO).
  assert (AT : answers_in_time So Si m m' t ms evs).
  { intros e1 e2 y1 p1 g1 X E1. destruct (LT e1 e2 y1 p1 g1 X E1) as [n N]. exists n. rewrite <- N. 
    assert (PX : exists p2, map snd tevs = p1 ++ p2).
    { rewrite X, (g_steps_app So Si), E1 in E. destruct (g_steps So Si g1 e2) as [[y2 p2] g2]. exists p2. congruence. }
    destruct PX as [p2 PX]. rewrite PX, wire_app in CH.
    match type of CH with chars false (?u ++ ?v) = _ => destruct (chars_prefix u v false) as [z Hz] end. rewrite Hz in CH.
    set (u := chars false (wire Si (port_init m') p1)) in *.
    assert (LU : (length u <= c)%nat) by (apply (f_equal (@length Z)) in CH; rewrite app_length, firstn_length in CH; lia).
    apply (f_equal (firstn (length u))) in CH. rewrite firstn_app, Nat.sub_diag, firstn_all, app_nil_r in CH. rewrite CH at 1.
    rewrite firstn_firstn. f_equal. lia. }
  destruct (urm_in_turn_l So Si m m' evs ys (map snd tevs) g' t ms k HSo HSi OK CA E XO PO LO Hm TU AT) as (g & j & Eg & J1 & J2 & J3 & J4 & J5 & J6).
  exists g, j. split; [exact Eg|]. split; [exact J1|]. split; [exact J2|]. split; [exact J3|]. split; [exact J4|]. split; [exact J5|].
  intros PC RL UN LC FA. apply (J6 PC RL UN). rewrite CH, firstn_length, map_length.
  assert (CL : (length cs <= c)%nat).
  { destruct HE as [H1 H2]. destruct (le_lt_dec (length cs) c) as [|Lt]; [assumption|]. exfalso.
    destruct (nth_error cs c) as [[qq d]|] eqn:NT; [|apply nth_error_None in NT; lia].
    destruct (H2 c qq d NT) as [H3 _]. pose proof (proj1 (Forall_forall _ _) FA (qq, d) (nth_error_In _ _ NT)) as H4. cbn [fst] in H4. specialize (H3 H4). lia. }
  lia.
Qed.
(** A check of the moments, for the example. *)
Definition line_moment_ok (So Si : Z) (m m' : Z -> Z) (t : Z * Z) (ms : nat -> Z * Z) (line : list Z) (evs : list gev) : bool :=
  match g_steps So Si (g_start m m') evs with
  | ((_, ps), Some g) =>
      let n := length (chars false (wire Si (port_init m') ps)) in
      if list_eq_dec Z.eq_dec (firstn n line) (firstn n (replies t ms 0 (frames (x_line (y_utx (g_tx g)))))) then true else false
  | _ => true
  end.
Lemma line_moments_l : forall So Si m m' t ms line evs, forallb (fun i => line_moment_ok So Si m m' t ms line (firstn i evs)) (seq 0 (S (length evs))) = true ->
  line_in_time So Si m m' t ms line evs.
Proof.
  intros So Si m m' t ms line evs H e1 e2 ys ps g -> E. rewrite forallb_forall in H. specialize (H (length e1)). rewrite firstn_app, firstn_all, Nat.sub_diag in H. cbn [firstn] in H.
  rewrite app_nil_r in H. assert (I : In (length e1) (seq 0 (S (length (e1 ++ e2))))) by (apply in_seq; rewrite app_length; lia). specialize (H I). unfold line_moment_ok in H. rewrite E in H.
  cbv zeta in H. destruct (list_eq_dec Z.eq_dec _ _) as [K|]; [|discriminate]. eexists. exact K.
Qed.
