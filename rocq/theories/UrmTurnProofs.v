(** C107: a program that waits for its answers loses nothing. *)
Require Import ZArith List Bool Lia ZifyBool.
Import ListNotations.
From Verif Require Import Base BaseFacts RingModel RingSpec RingProofs StreamModel StreamSpec StreamProofs LinkProofs MidiWireProofs
  HwRxModel HwRxSpec HwRxProofs HwTxModel HwTxSpec HwTxProofs UrmModel UrmSpec UrmProofs UrmLinkSpec TextWireProofs UrmWireModel UrmWireSpec UrmWireProofs.
Open Scope Z_scope.
Local Notation y_tx := HwTxModel.y_tx.

(** ** Beginnings of runs *)
Lemma losses_prefix : forall a b n busy, losses n busy (a ++ b) = 0%nat -> losses n busy a = 0%nat.
Proof.
  induction a as [|e a IH]; intros b n busy L; [reflexivity|]. cbn [app losses] in *. destruct e; [|exact (IH _ _ _ L)|exact (IH _ _ _ L)].
  destruct busy; [exact (IH _ _ _ L)|]. destruct (Nat.eqb n 3); [discriminate|exact (IH _ _ _ L)].
Qed.
Section Runs.
Variables (So Si : Z).
Hypothesis HSo : 1 <= So <= 65535.
Hypothesis HSi : 1 <= Si <= 65535.
Lemma wire_app : forall a b p, wire Si p (a ++ b) = wire Si p a ++ match port_run Si p a with Some p' => wire Si p' b | None => [] end.
Proof.
  induction a as [|e a IH]; intros b p; [reflexivity|]. cbn [app wire port_run]. rewrite <- app_assoc. f_equal.
  destruct (port_step Si p e) as [p1|]; [apply IH|reflexivity].
Qed.
Lemma polite_prefix : forall a b p seen, port_polite Si p seen (a ++ b) = true -> port_polite Si p seen a = true.
Proof.
  induction a as [|e a IH]; intros b p seen P; [reflexivity|]. cbn [app port_polite] in *.
  destruct (rx_in_window Si (p_rx p) && (match e with PIsr => port_ready p | _ => false end) && seen); [discriminate|].
  destruct (port_step Si p e); [exact (IH _ _ _ P)|reflexivity].
Qed.
Lemma xpolite_prefix : forall a b x seen, xport_polite So x seen (a ++ b) = true -> xport_polite So x seen a = true.
Proof.
  induction a as [|e a IH]; intros b x seen P; [reflexivity|]. cbn [app xport_polite] in *.
  destruct (tx_in_window So (y_tx x) && (match e with YIsr => t_ien (y_tx x) && accept_data (y_utx x) | _ => false end) && seen); [discriminate|].
  destruct (xport_step So x e); [exact (IH _ _ _ P)|reflexivity].
Qed.
Lemma calm_prefix : forall a b g, g_calm So Si g (a ++ b) = true -> g_calm So Si g a = true.
Proof.
  induction a as [|e a IH]; intros b g P; [reflexivity|]. cbn [app g_calm] in *.
  destruct (g_does Si g e) as [[ys ps] [[[pc todo] cmds] reps]].
  destruct e; try (destruct (xport_run So (g_tx g) ys); [destruct (port_run Si (g_rx g) ps); [exact (IH _ _ P)|reflexivity]|reflexivity]).
  destruct (g_pc g); try discriminate; destruct (xport_run So (g_tx g) ys); try reflexivity; (destruct (port_run Si (g_rx g) ps); [exact (IH _ _ P)|reflexivity]).
Qed.
Lemma turns_prefix : forall k a b g, g_turns So Si k g (a ++ b) = true -> g_turns So Si k g a = true /\
  forall st g1, g_steps So Si g a = (st, Some g1) -> g_turns So Si k g1 b = true.
Proof.
  intros k. induction a as [|e a IH]; intros b g P.
  - split; [reflexivity|]. intros st g1 E. cbn [g_steps] in E. injection E as _ <-. exact P.
  - cbn [app g_turns g_steps] in *. apply andb_prop in P. destruct P as [P1 P2]. rewrite P1. cbn [andb].
    destruct (g_does Si g e) as [[ys ps] [[[pc todo] cmds] reps]].
    destruct (xport_run So (g_tx g) ys) as [x|]; [|split; [reflexivity|intros; discriminate]]. destruct (port_run Si (g_rx g) ps) as [p|]; [|split; [reflexivity|intros; discriminate]].
    destruct (IH _ _ P2) as [Q1 Q2]. split; [exact Q1|]. intros st g1 E.
    destruct (g_steps So Si (g_after x p pc todo cmds reps) a) as [[ys2 ps2] g2] eqn:K. injection E as _ ->. exact (Q2 _ _ eq_refl).
Qed.

(** ** One event *)
Lemma after_reports : forall x p pc todo cmds reps, exists more, g_reports (g_after x p pc todo cmds reps) = reps ++ more /\ g_cmds (g_after x p pc todo cmds reps) = cmds /\
  g_todo (g_after x p pc todo cmds reps) = todo.
Proof.
  intros x p pc todo cmds reps. assert (N : exists more : list (result * option (Z * Z * Z)), reps = reps ++ more /\ cmds = cmds /\ todo = todo) by (exists []; rewrite app_nil_r; auto).
  unfold g_after. destruct pc as [| | | | | |bs|bs| |]; try exact N; destruct (r_pc (p_rx p)); try exact N.
  destruct (bs ++ [u8 (last (r_got (p_rx p)) (-1))]) as [|a [|b [|c [|d [|e l]]]]]; try exact N. eexists. split; [reflexivity|auto].
Qed.
(** What the streams see, and what becomes of the commands. *)
Lemma does_shape : forall g e ys ps pc todo cmds reps, g_does Si g e = ((ys, ps), (pc, todo, cmds, reps)) ->
  (exists more, reps = g_reports g ++ more) /\
  (cmds = g_cmds g \/ (exists c d1 d2, e = GvSend c d1 d2 /\ g_pc g = GIdle /\ cmds = g_cmds g ++ [send_command c d1 d2])) /\
  (ys = [] \/ ys = [YStep] \/ ys = [YIsr] \/ ys = [YTick] \/ exists b, ys = [YWrite b]) /\
  (ps = [] \/ ps = [PRead] \/ ps = [PStep] \/ ps = [PStart] \/ ps = [PIsr] \/ exists d, ps = [PStop d]).
Proof.
  intros g e ys ps pc todo cmds reps D.
  assert (N : exists more : list (result * option (Z * Z * Z)), g_reports g = g_reports g ++ more) by (exists []; rewrite app_nil_r; reflexivity).
  destruct e; cbn [g_does] in D; cbv zeta in D.
  2: injection D as <- <- <- <- <- <-; split; [exact N|]; auto.
  3-7: injection D as <- <- <- <- <- <-; split; [exact N|]; eauto 12.
  - destruct (g_pc g) eqn:Ep; injection D as <- <- <- <- <- <-; split; try exact N; eauto 12.
  - destruct (g_pc g) eqn:Ep; try (injection D as <- <- <- <- <- <-; split; [try exact N; eexists; reflexivity|]; eauto 12; fail).
    destruct (t_pc (y_tx (g_tx g))); [destruct (g_todo g)|..]; injection D as <- <- <- <- <- <-; (split; [exact N|]); eauto 12.
Qed.
Lemma answered_more : forall a b : list (result * option (Z * Z * Z)), (length (filter answered a) <= length (filter answered (a ++ b)))%nat.
Proof. intros a b. rewrite filter_app, app_length. lia. Qed.
Lemma ask_command : forall d, byte d -> asks_distance (send_command 34 d 0).
Proof.
  intros d D. exists d. split; [exact D|]. unfold send_command. rewrite checksum_l; [rewrite Z.add_0_r; reflexivity|unfold byte; lia|exact D|unfold byte; lia].
Qed.
Lemma asks_ok : forall evs, Forall gev_asks evs -> Forall gev_ok evs.
Proof.
  intros evs F. apply (Forall_impl _ (P := gev_asks)); [|exact F]. intros [c d1 d2| | | | | | |] H; try exact Logic.I. cbn in *. unfold byte in *. lia.
Qed.
Lemma asks_length : forall cmds, Forall asks_distance cmds -> length (concat cmds) = (4 * length cmds)%nat.
Proof. intros cmds A. induction A as [|c cs (d & _ & ->) A IH]; [reflexivity|]. cbn [concat]. rewrite app_length, IH. cbn [length]. lia. Qed.

(** The handler stores what it takes when the buffer has room. *)
Lemma isr_stores : forall p p' seen q, port_inv Si p seen q -> rx_in_window Si (p_rx p) && port_ready p && seen = false ->
  (forall d ov f, u_fifo (p_uart p) = (d, ov) :: f -> ov = false /\ Z.of_nat (length q) < Si - 1) ->
  length (r_acc (p_rx p)) = length (p_taken p) -> port_step Si p PIsr = Some p' -> length (r_acc (p_rx p')) = length (p_taken p').
Proof.
  intros p p' seen q (RI & _) G RM LL E. cbn [port_step] in E. unfold port_ready in G. destruct (r_ien (p_rx p)) eqn:IE; [|injection E as <-; exact LL].
  unfold uart_take in E. destruct (u_fifo (p_uart p)) as [|[d ov] f] eqn:F; [injection E as <-; exact LL|].
  destruct (RM d ov f eq_refl) as [-> RQ]. cbn [andb] in G. rewrite andb_true_r in G. cbn [negb rx_step] in E. unfold rx_isr in E. rewrite IE in E. cbn [andb] in E.
  destruct (ring_write Si (r_ring (p_rx p)) (u8 d)) as [[r b]|] eqn:W; [|discriminate]. injection E as <-. cbn [p_rx r_acc p_taken].
  pose proof (rx_accepts Si HSi _ _ _ _ _ _ RI G W) as B. replace (Z.of_nat (length q) <? Si - 1) with true in B by lia. subst b.
  rewrite !app_length, LL. reflexivity.
Qed.
Lemma other_stores : forall p p' y, y <> PIsr -> port_step Si p y = Some p' -> r_acc (p_rx p') = r_acc (p_rx p) /\ p_taken p' = p_taken p.
Proof.
  intros p p' y N E. destruct y; cbn [port_step] in E; try congruence.
  - injection E as <-. auto.
  - injection E as <-. auto.
  - destruct (rx_step Si (p_rx p) RxStart) as [s|] eqn:K; [|discriminate]. injection E as <-. cbn [p_rx p_taken]. split; [exact (rx_start_acc Si _ _ K)|reflexivity].
  - destruct (rx_step Si (p_rx p) RxStep) as [s|] eqn:K; [|discriminate]. injection E as <-. cbn [p_rx p_taken]. split; [exact (rx_main_acc Si _ _ K)|reflexivity].
Qed.
Lemma sent_line : forall x seen q, xport_inv So x seen q -> (length (x_line (y_utx x)) <= length (t_sent (y_tx x)))%nat.
Proof. intros x seen q (_ & _ & <-). unfold all_of. rewrite app_length. lia. Qed.

Lemma turn_inv : forall k m m' t ms, 4 * Z.of_nat k <= So - 1 -> 4 * Z.of_nat k <= Si - 1 -> (forall i, byte (fst (ms i)) /\ byte (snd (ms i))) ->
  forall evs ys ps g, Forall gev_asks evs -> Si mod 4 = 0 \/ g_calm So Si (g_start m m') evs = true ->
  g_steps So Si (g_start m m') evs = ((ys, ps), Some g) ->
  xport_polite So (xport_init m) false ys = true -> port_polite Si (port_init m') false ps = true ->
  losses 0 false (wire Si (port_init m') ps) = 0%nat ->
  g_turns So Si k (g_start m m') evs = true -> answers_in_time So Si m m' t ms evs ->
  Forall (fun d => snd d = true) (t_done (y_tx (g_tx g))) /\ length (r_acc (p_rx (g_rx g))) = length (p_taken (g_rx g)) /\
  Forall asks_distance (g_cmds g) /\ (length (g_cmds g) <= length (filter answered (g_reports g)) + k)%nat.
Proof.
  intros k m m' t ms Ko Ki Hm evs. induction evs as [|e evs IH] using rev_ind; intros ys ps g OK CA E XP P LO TU AT.
  { cbn [g_steps] in E. assert (g = g_start m m') as -> by congruence. split; [constructor|]. split; [reflexivity|]. split; [constructor|]. cbn. lia. }
  rewrite (g_steps_app So Si) in E. destruct (g_steps So Si (g_start m m') evs) as [[ys1 ps1] [g1|]] eqn:E1; [|discriminate].
  apply Forall_app in OK. destruct OK as [OK OKe]. inversion OKe as [|? ? OE _]; subst.
  assert (CA1 : Si mod 4 = 0 \/ g_calm So Si (g_start m m') evs = true) by (destruct CA as [CA|CA]; [left; exact CA|right; exact (calm_prefix _ _ _ CA)]).
  destruct (g_steps So Si g1 [e]) as [[ys2 ps2] g2] eqn:E2. assert (ys = ys1 ++ ys2) as -> by congruence. assert (ps = ps1 ++ ps2) as -> by congruence. assert (g2 = Some g) as -> by congruence. clear E.
  pose proof (xpolite_prefix _ _ _ _ XP) as XP1. pose proof (polite_prefix _ _ _ _ P) as P1. rewrite wire_app in LO. pose proof (losses_prefix _ _ _ _ LO) as LO1.
  destruct (turns_prefix _ _ _ _ TU) as [TU1 TU2]. specialize (TU2 _ _ E1).
  assert (AT1 : answers_in_time So Si m m' t ms evs) by (intros e1 e2 y p0 h X; apply (AT e1 (e2 ++ [e])); rewrite X, <- app_assoc; reflexivity).
  destruct (IH _ _ _ OK CA1 eq_refl XP1 P1 LO1 TU1 AT1) as (AC & LL & AD & TN). clear IH.
  destruct (AT evs [e] ys1 ps1 g1 eq_refl E1) as [n CH].
  destruct (sensor_core So Si HSo HSi m m' evs ys1 ps1 g1 t ms n (asks_ok _ OK) CA1 E1 XP1 P1 LO1 Hm AD AC (or_introl LL) CH) as (j & J1 & J2 & J3 & J4 & J5 & _).
  assert (JA : length (filter answered (g_reports g1)) = j) by (rewrite J5, map_length, seq_length; reflexivity). rewrite JA in TN.
  destruct (g_steps_l So Si HSo HSi evs (g_start m m') ys1 ps1 (Some g1) false [] false [] ys2 ps2 (xport_init_inv So HSo m) (port_init_inv Si HSi m') (ginv_start Si HSi m m') (asks_ok _ OK) CA1 E1 XP P)
    as (g1' & sx & qx & seen & q & A1 & A2 & A3 & XI & PI & GI & XP2 & P2). injection A1 as <-.
  assert (RM : roomy So (g_tx g1) (length (g_todo g1))).
  { split; [exact AC|]. destruct GI as (_ & T1 & _). apply (f_equal (@length Z)) in T1. rewrite (asks_length _ AD), !app_length in T1. rewrite app_length.
    pose proof (sent_line _ _ _ XI). lia. }
  cbn [g_steps] in E2. destruct (g_does Si g1 e) as [[ysd psd] [[[pc todo] cmds] reps]] eqn:D.
  destruct (xport_run So (g_tx g1) ysd) as [x|] eqn:RX; [|discriminate]. destruct (port_run Si (g_rx g1) psd) as [p|] eqn:RP; [|discriminate].
  rewrite !app_nil_r in E2. assert (ysd = ys2) as -> by congruence. assert (psd = ps2) as -> by congruence. assert (g = g_after x p pc todo cmds reps) as -> by congruence. clear E2.
  rewrite after_tx, after_rx. destruct (after_reports x p pc todo cmds reps) as (more & -> & -> & _).
  destruct (does_shape _ _ _ _ _ _ _ _ D) as ((more' & ->) & CM & SY & SP).
  split; [|split; [|split]].
  - destruct SY as [->|SY]; [cbn [xport_run] in RX; assert (x = g_tx g1) as -> by congruence; exact AC|].
    assert (ST : forall y, ys2 = [y] -> (forall v, y = YWrite v -> False) -> Forall (fun d => snd d = true) (t_done (y_tx x))).
    { intros y -> NW. cbn [xport_run] in RX. destruct (xport_step So (g_tx g1) y) as [x1|] eqn:W; [|discriminate]. injection RX as <-.
      exact (proj1 (roomy_step So HSo _ _ _ _ _ _ XI RM NW W)). }
    destruct SY as [->|[->|[->|[b ->]]]]; try (eapply ST; [reflexivity|discriminate]).
    cbn [xport_run xport_step tx_step] in RX. destruct (t_pc (y_tx (g_tx g1))); injection RX as <-; exact AC.
  - destruct SP as [->|SP]; [cbn [port_run] in RP; assert (p = g_rx g1) as -> by congruence; exact LL|].
    assert (ST : forall y, ps2 = [y] -> y <> PIsr -> length (r_acc (p_rx p)) = length (p_taken p)).
    { intros y -> NW. cbn [port_run] in RP. destruct (port_step Si (g_rx g1) y) as [p1|] eqn:W; [|discriminate]. injection RP as <-.
      destruct (other_stores _ _ _ NW W) as [-> ->]. exact LL. }
    destruct SP as [->|[->|[->|[->|[d ->]]]]]; try (eapply ST; [reflexivity|discriminate]).
    cbn [port_run] in RP. destruct (port_step Si (g_rx g1) PIsr) as [p1|] eqn:W; [|discriminate]. injection RP as <-. cbn [port_polite] in P2.
    destruct (rx_in_window Si (p_rx (g_rx g1)) && port_ready (g_rx g1) && seen) eqn:G; [discriminate|].
    apply (isr_stores _ _ _ _ PI G); [|exact LL|exact W]. intros d ov f FI.
    destruct (port_all Si HSi m' ps1 P1) as (pp & qq & o & R1 & R2 & R3 & R4 & R5 & R6 & R7 & R8 & _). change (g_rx (g_start m m')) with (port_init m') in A3. rewrite A3 in R1. injection R1 as <-.
    assert (F : p_taken (g_rx g1) ++ unread (p_uart (g_rx g1)) = map (fun d => (d, false)) (map fst o)).
    { rewrite R6. apply deliver_all. unfold lost_of. lia. }
    unfold unread in F. rewrite FI in F. split.
    + assert (IN : In (d, ov) (map (fun d => (d, false)) (map fst o))) by (rewrite <- F; apply in_or_app; right; left; reflexivity).
      apply in_map_iff in IN. destruct IN as (v & IN & _). congruence.
    + apply (f_equal (@length _)) in F. rewrite map_length, R5, !app_length in F. cbn [length] in F.
      destruct PI as (RI & _). destruct (rx_inv_rest Si _ _ _ RI) as [RR _]. fold (vals (r_got (p_rx (g_rx g1)))) in RR. apply (f_equal (@length _)) in RR. rewrite !app_length in RR.
      assert (XL : (length (x_line (y_utx (g_tx g1))) <= 4 * length (g_cmds g1))%nat).
      { destruct (sent_l So Si HSo m ys1 g1 XP1 A2 GI AC) as (w & W1 & _). apply (f_equal (@length _)) in W1. rewrite (asks_length _ AD), app_length in W1. lia. }
      lia.
  - destruct CM as [->|(c & d1 & d2 & -> & _ & ->)]; [exact AD|]. apply Forall_app. split; [exact AD|]. constructor; [|constructor]. destruct OE as (-> & B & ->). exact (ask_command d1 B).
  - pose proof (answered_more (g_reports g1) (more' ++ more)) as AM. rewrite app_assoc in AM. destruct CM as [->|(c & d1 & d2 & -> & PC & ->)]; [lia|].
    rewrite app_length. cbn [length]. cbn [g_turns] in TU2. rewrite PC in TU2. apply andb_prop in TU2. destruct TU2 as [TU2 _]. apply Nat.ltb_lt in TU2. lia.
Qed.
End Runs.

Lemma urm_in_turn_l : forall So Si m m' evs ys ps g' t ms k, 4 * Z.of_nat k + 1 <= So <= 65535 -> 4 * Z.of_nat k + 1 <= Si <= 65535 ->
  Forall gev_asks evs -> Si mod 4 = 0 \/ g_calm So Si (g_start m m') evs = true ->
  g_steps So Si (g_start m m') evs = ((ys, ps), g') ->
  xport_polite So (xport_init m) false ys = true -> port_polite Si (port_init m') false ps = true ->
  losses 0 false (wire Si (port_init m') ps) = 0%nat -> (forall i, byte (fst (ms i)) /\ byte (snd (ms i))) ->
  g_turns So Si k (g_start m m') evs = true -> answers_in_time So Si m m' t ms evs ->
  exists g j, g' = Some g /\ (j <= length (g_cmds g) <= j + k)%nat /\
    filter answered (g_reports g) = map (fun i => (RSuccess, Some (34, fst (ms i), snd (ms i)))) (seq 0 j) /\
    delivered (g_reports g) = measured ms j /\
    Forall (fun d => snd d = true) (t_done (y_tx (g_tx g))) /\ length (r_acc (p_rx (g_rx g))) = length (p_taken (g_rx g)) /\
    (g_pc g = GIdle -> ring_length Si (r_ring (p_rx (g_rx g))) <= 3 -> unread (p_uart (g_rx g)) = [] ->
     length (chars false (wire Si (port_init m') ps)) = (4 * length (g_cmds g))%nat -> j = length (g_cmds g)).
Proof.
  intros So Si m m' evs ys ps g' t ms k HSo HSi OK CA E XP P LO Hm TU AT.
  assert (H1 : 1 <= So <= 65535) by lia. assert (H2 : 1 <= Si <= 65535) by lia.
  destruct (urm_run So Si H1 H2 m m' evs ys ps g' (asks_ok _ OK) CA E XP P) as (g & seen & q & -> & XR & PR & PI & GI).
  destruct (turn_inv So Si H1 H2 k m m' t ms ltac:(lia) ltac:(lia) Hm evs ys ps g OK CA E XP P LO TU AT) as (AC & LL & AD & TN).
  destruct (AT evs [] ys ps g ltac:(rewrite app_nil_r; reflexivity) E) as [n CH].
  destruct (sensor_core So Si H1 H2 m m' evs ys ps g t ms n (asks_ok _ OK) CA E XP P LO Hm AD AC (or_introl LL) CH) as (j & J1 & J2 & J3 & J4 & J5 & J6 & J7).
  assert (JA : length (filter answered (g_reports g)) = j) by (rewrite J5, map_length, seq_length; reflexivity).
  exists g, j. split; [reflexivity|]. split; [lia|]. split; [exact J5|]. split; [exact J6|]. split; [exact AC|]. split; [exact LL|].
  intros PC RL UN LC. apply (J7 PC RL UN).
  - destruct (sent_l So Si H1 m ys g XP XR GI AC) as (w & W & _). pose proof (f_equal (@length Z) W) as WL. rewrite (asks_length _ AD), !app_length in WL.
    assert (Wn : w ++ g_todo g = []) by (apply length_zero_iff_nil; rewrite app_length; lia). rewrite Wn, app_nil_r in W. symmetry. exact W.
  - rewrite CH, firstn_length in LC. lia.
Qed.
(** A check of the moments of a run, for the examples. *)
Definition moment_ok (So Si : Z) (m m' : Z -> Z) (t : Z * Z) (ms : nat -> Z * Z) (evs : list gev) : bool :=
  match g_steps So Si (g_start m m') evs with
  | ((_, ps), Some g) =>
      let got := chars false (wire Si (port_init m') ps) in
      if list_eq_dec Z.eq_dec got (firstn (length got) (replies t ms 0 (frames (x_line (y_utx (g_tx g)))))) then true else false
  | _ => true
  end.
Lemma moments_l : forall So Si m m' t ms evs, forallb (fun i => moment_ok So Si m m' t ms (firstn i evs)) (seq 0 (S (length evs))) = true ->
  answers_in_time So Si m m' t ms evs.
Proof.
  intros So Si m m' t ms evs H e1 e2 ys ps g -> E. rewrite forallb_forall in H. specialize (H (length e1)). rewrite firstn_app, firstn_all, Nat.sub_diag in H. cbn [firstn] in H.
  rewrite app_nil_r in H. assert (I : In (length e1) (seq 0 (S (length (e1 ++ e2))))) by (apply in_seq; rewrite app_length; lia). specialize (H I). unfold moment_ok in H. rewrite E in H.
  cbv zeta in H. destruct (list_eq_dec Z.eq_dec (chars false (wire Si (port_init m') ps)) _) as [K|]; [|discriminate]. eexists. exact K.
Qed.
