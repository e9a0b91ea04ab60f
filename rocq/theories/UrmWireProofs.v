(** C107: what ReceiveResponse answers over the USART. *)
Require Import ZArith List Bool Lia ZifyBool.
Import ListNotations.
From Verif Require Import Base BaseFacts AvrModel AvrSpec WireModel WireSpec RingModel RingSpec RingProofs StreamModel StreamSpec StreamProofs
  LinkProofs MidiWireProofs HwRxModel HwRxSpec HwRxProofs HwTxModel HwTxSpec HwTxProofs WireLinkModel WireLinkProofs UrmModel UrmSpec UrmProofs UrmLinkSpec
  PromptModel PromptProofs PromptProps WireProofs UrmWireModel UrmWireSpec.
Open Scope Z_scope.
Local Notation y_tx := HwTxModel.y_tx.

Definition bytes_in (pc : gpc) : list Z := match pc with GRead bs | GIn bs => bs | _ => [] end.

Section Board.
Variables (So Si : Z).
Hypothesis HSo : 1 <= So <= 65535.
Hypothesis HSi : 1 <= Si <= 65535.

(** ** The input stream *)
(** Where the read cursor is. *)
Definition rd_ok (s : rxs) : Prop :=
  rb_rd (r_ring s) = Z.of_nat (length (vals (r_got s))) mod Si + match r_pc s with RWrap _ => 1 | _ => 0 end.
Definition enough (s : rxs) (bs : list Z) : Prop := (length bs < 4)%nat /\ (length (vals (r_got s)) + 4 <= length (r_acc s) + length bs)%nat.
Definition rinv (p : port) (pc : gpc) (reps : list (result * option (Z * Z * Z))) : Prop :=
  let s := p_rx p in
  rd_ok s /\
  (exists fs, vals (r_got s) = concat (map frame_bytes fs) ++ bytes_in pc /\ filter answered reps = map frame_result fs) /\
  Forall byte (bytes_in pc) /\
  match pc with
  | GBoot => r_pc s = RIdle /\ boot s
  | GFirst => (r_pc s = RCmp \/ r_pc s = RSub true \/ r_pc s = REnable) /\ boot s
  | GSub ge => r_pc s = RIdle /\ (ge = false -> rb_wr (r_ring s) < rb_rd (r_ring s)) /\
      (ge = true -> Si mod 4 = 0 \/ rb_rd (r_ring s) <= rb_wr (r_ring s))
  | GSub2 ge => r_pc s = RIdle /\ (ge = false -> rb_wr (r_ring s) < rb_rd (r_ring s))
  | GRead bs => r_pc s = RIdle /\ enough s bs
  | GIn bs => r_pc s <> RIdle /\ r_pc s <> REnable /\ enough s bs
  | _ => r_pc s = RIdle
  end.
Lemma isr_more : forall p p', port_step Si p PIsr = Some p' -> rb_rd (r_ring (p_rx p')) = rb_rd (r_ring (p_rx p)) /\
  (length (r_acc (p_rx p)) <= length (r_acc (p_rx p')))%nat /\
  (rb_wr (r_ring (p_rx p)) < rb_rd (r_ring (p_rx p)) < Si -> rb_wr (r_ring (p_rx p')) < rb_rd (r_ring (p_rx p'))).
Proof.
  intros p p' E. cbn [port_step] in E. destruct (r_ien (p_rx p)) eqn:IE; [|injection E as <-; split; [reflexivity|]; split; [lia|tauto]].
  destruct (uart_take (p_uart p)) as [u [[d ov]|]]; [|injection E as <-; split; [reflexivity|]; split; [lia|tauto]].
  destruct (rx_step Si (p_rx p) (RxIsr d (negb ov))) as [s|] eqn:K; [|discriminate]. injection E as <-. cbn [p_rx]. cbn [rx_step] in K. unfold rx_isr in K.
  rewrite IE in K. cbn [andb] in K. destruct (negb ov); [|injection K as <-; split; [reflexivity|]; split; [lia|tauto]].
  destruct (ring_write Si (r_ring (p_rx p)) (u8 d)) as [[r b]|] eqn:W; [|discriminate]. injection K as <-. cbn [r_ring r_acc].
  split; [|split].
  - unfold ring_write in W. destruct (if rb_wr (r_ring (p_rx p)) + 1 >=? Si then 0 =? rb_rd (r_ring (p_rx p)) else rb_wr (r_ring (p_rx p)) + 1 =? rb_rd (r_ring (p_rx p))); [injection W as <- _; reflexivity|].
    destruct (inb (rb_wr (r_ring (p_rx p))) Si); [|discriminate]. injection W as <- _. reflexivity.
  - destruct b; [rewrite app_length|]; lia.
  - intros H. exact (write_below Si _ _ _ _ W H).
Qed.
Lemma rinv_line : forall p p' pc reps, p_rx p' = p_rx p -> rinv p pc reps -> rinv p' pc reps.
Proof. intros p p' pc reps E I. unfold rinv in *. rewrite E. exact I. Qed.
Lemma rinv_isr : forall p p' pc reps seen q, port_inv Si p seen q -> rinv p pc reps -> port_step Si p PIsr = Some p' ->
  Si mod 4 = 0 \/ (forall ge, pc <> GSub ge) -> rinv p' pc reps.
Proof.
  intros p p' pc reps seen q (RI & _) (R1 & R2 & R4 & R3) E CA. destruct (isr_same _ _ _ E) as (S1 & S2 & S3). destruct (isr_more _ _ E) as (M1 & M2 & M3).
  unfold rinv, rd_ok, enough in *. cbv zeta in *. rewrite M1, S2, S3. split; [exact R1|]. split; [exact R2|]. split; [exact R4|].
  destruct pc; try exact R3.
  - destruct R3 as [Mp B]. split; [exact Mp|]. rewrite S1 by apply B. exact B.
  - destruct R3 as [Mp B]. split; [exact Mp|]. rewrite S1 by apply B. exact B.
  - destruct R3 as (Mp & B1 & B2). split; [exact Mp|]. split.
    + intros G. rewrite <- M1. apply M3. specialize (B1 G). destruct RI as [_ RI]. rewrite Mp in RI. destruct RI as [H _]. destruct H as [H _]. lia.
    + intros G. destruct CA as [CA|CA]; [left; exact CA|]. elim (CA ge). reflexivity.
  - destruct R3 as (Mp & B1 & B2). split; [exact Mp|]. split; [exact B1|lia].
  - destruct R3 as (Mp & B & B1 & B2). split; [exact Mp|]. split; [exact B|]. split; [exact B1|lia].
  - destruct R3 as (Mp & B1). split; [exact Mp|]. intros G. rewrite <- M1. apply M3. specialize (B1 G). destruct RI as [_ RI]. rewrite Mp in RI. destruct RI as [H _]. destruct H as [H _]. lia.
Qed.
(** getLength finds enough only when there is. *)
Lemma len_l : forall p ge reps seen q, port_inv Si p seen q -> rinv p (GSub ge) reps -> (g_len Si ge (r_ring (p_rx p)) >? 3) = true ->
  enough (p_rx p) [].
Proof.
  intros p ge reps seen q ((_ & RI) & _) (R1 & (fs & R2 & _) & _ & Mp & B1 & B2) L. unfold rd_ok in R1. rewrite Mp in R1, RI. cbn [bytes_in] in R2. rewrite app_nil_r in R2.
  destruct RI as (HO & AQ). unfold enough. split; [cbn; lia|]. rewrite AQ, app_length. cbn [length]. enough (4 <= Z.of_nat (length q)) by lia.
  pose proof (holds_wr Si _ _ _ HO) as WR. destruct HO as (RD & LQ & WE & _). unfold wrap in WE. unfold g_len in L.
  assert (F4 : Si mod 4 = 0 -> rb_rd (r_ring (p_rx p)) mod 4 = 0).
  { intros D. rewrite R1, Z.add_0_r, R2. assert (LF : Z.of_nat (length (concat (map frame_bytes fs))) = 4 * Z.of_nat (length fs)).
    { clear. induction fs as [|[[[c d1] d2] s] fs IH]; [reflexivity|]. cbn [map concat frame_bytes]. rewrite app_length. cbn [length] in *. lia. }
    rewrite LF. clear - D HSi. rewrite (Z.div_mod Si 4) at 1 by lia. rewrite D, Z.add_0_r.
    rewrite Z.mul_mod_distr_l by (Z.div_mod_to_equations; lia). rewrite Z.mul_comm. apply Z.mod_mul. lia. }
  destruct (rb_rd (r_ring (p_rx p)) + Z.of_nat (length q) >=? Si) eqn:WP.
  - destruct ge.
    + destruct (B2 eq_refl) as [D|D]; [|lia]. specialize (F4 D). assert (rb_rd (r_ring (p_rx p)) + 4 <= Si); [|lia]. clear - F4 D RD HSi. Z.div_mod_to_equations. lia.
    + rewrite u16_small in L by lia. lia.
  - destruct ge; [rewrite u16_small in L by lia; lia|]. specialize (B1 eq_refl). lia.
Qed.
Lemma rd_main : forall s s' seen q, rx_inv Si s seen q -> rd_ok s -> rx_step Si s RxStep = Some s' -> rd_ok s'.
Proof.
  intros s s' seen q [_ H] R S1. unfold rd_ok in *. cbn [rx_step] in S1. unfold rx_main in S1. destruct (r_pc s) eqn:Q.
  - injection S1 as <-. rewrite Q. exact R.
  - injection S1 as <-. exact R.
  - injection S1 as <-. cbn [r_ring r_got r_pc]. match goal with |- context [if ?c then RLoad else REnable] => destruct c end; exact R.
  - destruct (inb (rb_rd (r_ring s)) Si); [|discriminate]. injection S1 as <-. exact R.
  - injection S1 as <-. cbn [r_ring r_got r_pc rb_rd]. lia.
  - injection S1 as <-. cbn [r_ring r_got r_pc rb_rd]. destruct H as (V & _). unfold is_byte in V. rewrite s16_small by lia. rewrite vals_app.
    cbn [vals filter]. replace (0 <=? v) with true by lia. rewrite app_length. cbn [length]. rewrite R. clear - HSi. rewrite Nat2Z.inj_add.
    set (n := Z.of_nat (length (vals (r_got s)))) in *. change (Z.of_nat 1) with 1. rewrite <- (Zplus_mod_idemp_l n 1 Si).
    pose proof (Z.mod_pos_bound n Si ltac:(lia)) as B. set (k := n mod Si) in *. clearbody k. rewrite Z.add_0_r. destruct (k + 1 >=? Si) eqn:E.
    + replace (k + 1) with Si by lia. rewrite Z_mod_same_full. reflexivity.
    + rewrite Z.mod_small by lia. reflexivity.
  - injection S1 as <-. cbn [r_ring r_got r_pc rb_rd]. rewrite vals_app. cbn [vals filter]. change (0 <=? -1) with false. cbv iota. rewrite app_nil_r. exact R.
Qed.

Lemma read_gets : forall s s' seen q bs, rx_inv Si s seen q -> r_pc s <> RIdle -> r_pc s <> REnable -> enough s bs -> rx_step Si s RxStep = Some s' ->
  r_acc s' = r_acc s /\
  ((r_pc s' <> RIdle /\ r_pc s' <> REnable /\ r_got s' = r_got s) \/ (r_pc s' = RIdle /\ exists v, is_byte v /\ r_got s' = r_got s ++ [v])).
Proof.
  intros s s' seen q bs RI N1 N2 (E1 & E2) S1. split; [exact (rx_main_acc Si _ _ S1)|]. destruct RI as [_ H]. cbn [rx_step] in S1. unfold rx_main in S1.
  destruct (r_pc s) eqn:Q; try congruence.
  - injection S1 as <-. left. split; [discriminate|]. split; [discriminate|reflexivity].
  - injection S1 as <-. left. cbn [r_pc r_got]. destruct H as (HO & AQ & G). rewrite (StreamProofs.sub_length Si HSi _ q ge HO G).
    destruct q; [rewrite AQ, app_length in E2; cbn [length] in E2; lia|]. split; [discriminate|]. split; [discriminate|reflexivity].
  - destruct (inb (rb_rd (r_ring s)) Si); [|discriminate]. injection S1 as <-. left. split; [discriminate|]. split; [discriminate|reflexivity].
  - injection S1 as <-. left. split; [discriminate|]. split; [discriminate|reflexivity].
  - injection S1 as <-. right. split; [reflexivity|]. exists v. destruct H as [V _]. split; [exact V|]. cbn [r_got]. unfold is_byte in V. rewrite s16_small by lia. reflexivity.
Qed.
Lemma vals_one : forall l v, is_byte v -> vals (l ++ [v]) = vals l ++ [v].
Proof. intros l v V. unfold is_byte in V. rewrite vals_app. cbn [vals filter]. replace (0 <=? v) with true by lia. reflexivity. Qed.
Lemma rinv_in : forall p p' bs reps seen q, port_inv Si p seen q -> rinv p (GIn bs) reps -> port_step Si p PStep = Some p' ->
  (r_pc (p_rx p') <> RIdle /\ rinv p' (GIn bs) reps) \/
  (r_pc (p_rx p') = RIdle /\ exists v, is_byte v /\ r_got (p_rx p') = r_got (p_rx p) ++ [v] /\
    ((length bs < 3)%nat -> rinv p' (GRead (bs ++ [v])) reps) /\
    (forall c d1 d2, bs = [c; d1; d2] -> rinv p' GIdle (reps ++ [(if checksum c d1 d2 =? v then RSuccess else RChecksum, Some (c, d1, d2))]))).
Proof.
  intros p p' bs reps seen q (RI & _) (R1 & (fs & R2 & R3) & R4 & N1 & N2 & EN) E. cbn [port_step] in E.
  destruct (rx_step Si (p_rx p) RxStep) as [s|] eqn:K; [|discriminate]. injection E as <-. cbn [p_rx].
  pose proof (rd_main _ _ _ _ RI R1 K) as R1'. destruct (read_gets _ _ _ _ _ RI N1 N2 EN K) as (AC & [(C1 & C2 & C3)|(C1 & v & V & C2)]).
  - left. split; [exact C1|]. unfold rinv, enough in *. cbv zeta. cbn [p_rx]. split; [exact R1'|]. rewrite C3, AC. split; [exists fs; auto|]. split; [exact R4|]. auto.
  - right. split; [exact C1|]. exists v. split; [exact V|]. split; [exact C2|]. cbn [bytes_in] in *. destruct EN as [E1 E2]. split.
    + intros L. unfold rinv, enough. cbv zeta. cbn [p_rx bytes_in]. split; [exact R1'|]. rewrite C2, (vals_one _ _ V). split; [exists fs; split; [rewrite R2, <- app_assoc; reflexivity|exact R3]|].
      split; [apply Forall_app; split; [exact R4|]; constructor; [exact V|constructor]|]. split; [exact C1|]. rewrite AC, !app_length. cbn [length]. lia.
    + intros c d1 d2 ->. unfold rinv. cbv zeta. cbn [p_rx bytes_in]. split; [exact R1'|]. rewrite C2, (vals_one _ _ V). split; [|split; [constructor|exact C1]].
      inversion R4 as [|? ? B1 R5]; subst. inversion R5 as [|? ? B2 R6]; subst. inversion R6 as [|? ? B3 R7]; subst.
      exists (fs ++ [(c, d1, d2, v)]). split.
      * rewrite map_app, concat_app, app_nil_r, R2, <- app_assoc. reflexivity.
      * rewrite filter_app, map_app, R3. f_equal. rewrite (checksum_l _ _ _ B1 B2 B3), Z.eqb_sym. cbn [map frame_result filter].
        destruct (v =? (c + d1 + d2) mod 256); reflexivity.
Qed.
Lemma rinv_first : forall p p' reps, rinv p GFirst reps -> port_step Si p PStep = Some p' ->
  (r_pc (p_rx p') <> RIdle /\ rinv p' GFirst reps) \/ (r_pc (p_rx p') = RIdle /\ rinv p' GIdle reps).
Proof.
  intros p p' reps (R1 & R2 & R4 & Mp & B1 & B2 & B3) E. cbn [port_step rx_step] in E. unfold rx_main in E. unfold rd_ok in R1.
  destruct Mp as [Mp|[Mp|Mp]]; rewrite Mp in E, R1.
  - injection E as <-. left. split; [discriminate|]. unfold rinv, boot, rd_ok. cbn [p_rx r_pc r_ien r_ring r_got r_acc bytes_in]. split; [exact R1|]. split; [exact R2|]. split; [exact R4|].
    split; [right; left; rewrite B2; f_equal; lia|auto].
  - injection E as <-. rewrite B2, Z.sub_diag. change (u16 0 >? 0) with false. cbv iota. left. split; [discriminate|]. unfold rinv, boot, rd_ok.
    cbn [p_rx r_pc r_ien r_ring r_got r_acc bytes_in]. split; [exact R1|]. split; [exact R2|]. split; [exact R4|]. auto.
  - injection E as <-. right. split; [reflexivity|]. unfold rinv, rd_ok. cbn [p_rx r_pc r_ien r_ring r_got r_acc bytes_in].
    rewrite vals_app. cbn [vals filter]. change (0 <=? -1) with false. cbv iota. rewrite app_nil_r. fold (vals (r_got (p_rx p))). split; [exact R1|]. split; [exact R2|]. split; [exact R4|reflexivity].
Qed.
Lemma rinv_start : forall m, rinv (port_init m) GBoot [].
Proof.
  intros m. unfold rinv, rd_ok, boot. cbv zeta. split; [symmetry; change (0 mod Si + 0 = 0); rewrite Z.mod_0_l by lia; reflexivity|]. split; [exists []; auto|]. split; [constructor|]. auto.
Qed.

(** ** The output stream *)
Definition is_cmd (cmd : list Z) : Prop := exists c d1 d2, byte c /\ byte d1 /\ byte d2 /\ cmd = send_command c d1 d2.
Definition tinv (x : xport) (pc : gpc) (todo : list Z) (cmds : list (list Z)) : Prop :=
  map fst (t_done (y_tx x)) ++ current (t_pc (y_tx x)) ++ todo = concat cmds /\ Forall byte todo /\ Forall is_cmd cmds /\
  (pc <> GSend -> todo = [] /\ t_pc (y_tx x) = TIdle).
Lemma tinv_pc : forall x pc pc' todo cmds, tinv x pc todo cmds -> pc <> GSend -> tinv x pc' todo cmds.
Proof. intros x pc pc' todo cmds (T1 & T2 & T3 & T4) N. split; [exact T1|]. split; [exact T2|]. split; [exact T3|]. intros _. apply T4. exact N. Qed.
Lemma tinv_hw : forall x x' y pc todo cmds, tinv x pc todo cmds -> y = YIsr \/ y = YTick -> xport_step So x y = Some x' -> tinv x' pc todo cmds.
Proof.
  intros x x' y pc todo cmds (T1 & T2 & T3 & T4) Y E. split; [rewrite app_assoc, (xport_bytes_same So x y x') by (try exact E; destruct Y as [-> | ->]; discriminate); rewrite <- app_assoc; exact T1|].
  split; [exact T2|]. split; [exact T3|]. intros N. specialize (T4 N). destruct T4 as [T4 T5]. split; [exact T4|].
  destruct Y as [-> | ->]; cbn [xport_step] in E.
  - destruct (t_ien (y_tx x) && accept_data (y_utx x)); [|injection E as <-; exact T5].
    destruct (tx_step So (y_tx x) TxIsr) as [s|] eqn:K; [|discriminate]. injection E as <-. cbn [HwTxModel.y_tx]. destruct (tx_isr_bytes _ _ _ K) as [_ ->]. exact T5.
  - injection E as <-. exact T5.
Qed.
Lemma send_bytes : forall c d1 d2, byte c -> byte d1 -> byte d2 -> Forall byte (send_command c d1 d2).
Proof.
  intros c d1 d2 H H1 H2. unfold send_command. rewrite (checksum_l _ _ _ H H1 H2). repeat (constructor; [assumption|]). constructor; [|constructor]. unfold byte. apply Z.mod_pos_bound. lia.
Qed.

(** ** Together *)
Definition ginv (g : gsys) : Prop := rinv (g_rx g) (g_pc g) (g_reports g) /\ tinv (g_tx g) (g_pc g) (g_todo g) (g_cmds g).
Lemma after_keep_g : forall x p pc todo cmds reps, match pc with GFirst | GIn _ => r_pc (p_rx p) <> RIdle | _ => True end ->
  g_after x p pc todo cmds reps = mkG x p pc todo cmds reps.
Proof. intros x p pc todo cmds reps H. unfold g_after. destruct pc; try reflexivity; destruct (r_pc (p_rx p)); congruence. Qed.
Lemma after_rx : forall x p pc todo cmds reps, g_rx (g_after x p pc todo cmds reps) = p.
Proof.
  intros x p pc todo cmds reps. unfold g_after. destruct pc as [| | | | | |bs|bs| |]; try reflexivity; destruct (r_pc (p_rx p)); try reflexivity.
  destruct (bs ++ [u8 (last (r_got (p_rx p)) (-1))]) as [|a [|b [|c [|d [|e l]]]]]; reflexivity.
Qed.
Lemma after_tx : forall x p pc todo cmds reps, g_tx (g_after x p pc todo cmds reps) = x.
Proof.
  intros x p pc todo cmds reps. unfold g_after. destruct pc as [| | | | | |bs|bs| |]; try reflexivity; destruct (r_pc (p_rx p)); try reflexivity.
  destruct (bs ++ [u8 (last (r_got (p_rx p)) (-1))]) as [|a [|b [|c [|d [|e l]]]]]; reflexivity.
Qed.
Lemma rinv_busy : forall p pc reps, rinv p pc reps -> match pc with GFirst | GIn _ => r_pc (p_rx p) <> RIdle | _ => True end.
Proof.
  intros p pc reps (_ & _ & _ & R). destruct pc; try exact Logic.I.
  - destruct R as [[->|[->| ->]] _]; discriminate.
  - apply R.
Qed.
Lemma xpolite_one : forall x seen q y more, xport_inv So x seen q -> xport_polite So x seen (y :: more) = true ->
  exists x' seen' q', xport_step So x y = Some x' /\ xport_inv So x' seen' q' /\ xport_polite So x' seen' more = true.
Proof.
  intros x seen q y more I P. cbn [xport_polite] in P.
  destruct (tx_in_window So (y_tx x) && (match y with YIsr => t_ien (y_tx x) && accept_data (y_utx x) | _ => false end) && seen) eqn:G; [discriminate|].
  destruct (xport_step_inv So HSo x seen q y I G) as (x' & q' & E & I'). rewrite E in P. eauto 8.
Qed.

Lemma g_event : forall g e ys ps pc todo cmds reps sx qx seen q moreY more,
  xport_inv So (g_tx g) sx qx -> port_inv Si (g_rx g) seen q -> ginv g -> gev_ok e ->
  Si mod 4 = 0 \/ (e = GvRxIsr -> forall ge, g_pc g <> GSub ge) ->
  g_does Si g e = ((ys, ps), (pc, todo, cmds, reps)) ->
  xport_polite So (g_tx g) sx (ys ++ moreY) = true -> port_polite Si (g_rx g) seen (ps ++ more) = true ->
  exists x p sx' qx' seen' q', xport_run So (g_tx g) ys = Some x /\ port_run Si (g_rx g) ps = Some p /\
    xport_inv So x sx' qx' /\ port_inv Si p seen' q' /\ ginv (g_after x p pc todo cmds reps) /\
    xport_polite So x sx' moreY = true /\ port_polite Si p seen' more = true.
Proof.
  intros g e ys ps pc todo cmds reps sx qx seen q moreY more XI PI I OK CA D XP P. pose proof I as [RI TI].
  set (goal := exists x p sx' qx' seen' q', xport_run So (g_tx g) ys = Some x /\ port_run Si (g_rx g) ps = Some p /\
    xport_inv So x sx' qx' /\ port_inv Si p seen' q' /\ ginv (g_after x p pc todo cmds reps) /\
    xport_polite So x sx' moreY = true /\ port_polite Si p seen' more = true).
  assert (NONE : ys = [] -> ps = [] -> ginv (g_after (g_tx g) (g_rx g) pc todo cmds reps) -> goal).
  { intros -> -> K. exists (g_tx g), (g_rx g), sx, qx, seen, q. cbn [app xport_run port_run] in *. auto 8. }
  assert (TXE : forall y, ys = [y] -> ps = [] -> (forall x, xport_step So (g_tx g) y = Some x -> ginv (g_after x (g_rx g) pc todo cmds reps)) -> goal).
  { intros y -> -> K. cbn [app] in XP. destruct (xpolite_one _ _ _ _ _ XI XP) as (x & s' & q' & E & I' & P'). exists x, (g_rx g), s', q', seen, q.
    cbn [app xport_run port_run] in *. rewrite E. specialize (K x E). auto 8. }
  assert (RXE : forall y, ys = [] -> ps = [y] -> (forall p, port_step Si (g_rx g) y = Some p -> ginv (g_after (g_tx g) p pc todo cmds reps)) -> goal).
  { intros y -> -> K. cbn [app] in P. destruct (polite_one Si HSi _ _ _ _ _ PI P) as (p & s' & q' & E & I' & P'). exists (g_tx g), p, sx, qx, s', q'.
    cbn [app xport_run port_run] in *. rewrite E. specialize (K p E). auto 8. }
  assert (STAY : ys = [] -> ps = [] -> (pc, todo, cmds, reps) = (g_pc g, g_todo g, g_cmds g, g_reports g) -> goal).
  { intros Y S K. injection K as -> -> -> ->. apply NONE; [exact Y|exact S|]. rewrite after_keep_g by exact (rinv_busy _ _ _ RI). exact I. }
  clearbody goal. destruct e; cbn [g_does gev_ok] in *; cbv zeta in D.
  - (* SendCommand *)
    destruct (g_pc g) eqn:Ep; try (injection D as <- <- <- <- <- <-; apply STAY; reflexivity).
    injection D as <- <- <- <- <- <-. apply NONE; [reflexivity|reflexivity|]. rewrite after_keep_g by exact Logic.I. destruct OK as (O1 & O2 & O3).
    destruct TI as (T1 & T2 & T3 & T4). destruct (T4 ltac:(discriminate)) as [T5 T6]. split; cbn [g_rx g_pc g_reports g_tx g_todo g_cmds].
    + exact RI.
    + split; [|split; [exact (send_bytes _ _ _ O1 O2 O3)|split; [apply Forall_app; split; [exact T3|]; constructor; [exists c, d1, d2; auto|constructor]|congruence]]].
      rewrite T5, app_nil_r in T1. rewrite concat_app, <- T1, <- app_assoc. cbn [concat]. rewrite app_nil_r. reflexivity.
  - (* ReceiveResponse *)
    destruct (g_pc g) eqn:Ep; try (injection D as <- <- <- <- <- <-; apply STAY; reflexivity).
    injection D as <- <- <- <- <- <-. apply NONE; [reflexivity|reflexivity|]. rewrite after_keep_g by exact Logic.I. split; cbn [g_rx g_pc g_reports g_tx g_todo g_cmds]; [exact RI|].
    apply (tinv_pc _ GIdle); [exact TI|discriminate].
  - destruct (g_pc g) as [| | | | |ge|bs|bs| |ge] eqn:Ep.
    + injection D as <- <- <- <- <- <-. apply (RXE PRead); [reflexivity|reflexivity|]. intros p E. rewrite MidiWireProofs.port_read in E. injection E as <-.
      destruct RI as (R1 & R2 & R4 & Mp & B1 & B2 & B3). rewrite Mp. rewrite after_keep_g by discriminate. split; cbn [g_rx g_pc g_reports g_tx g_todo g_cmds].
      * unfold rinv, boot, rd_ok in *. rewrite Mp in R1. cbn [p_rx r_pc r_ien r_ring r_got r_acc bytes_in] in *. auto 8.
      * apply (tinv_pc _ GBoot); [exact TI|discriminate].
    + injection D as <- <- <- <- <- <-. apply (RXE PStep); [reflexivity|reflexivity|]. intros p E. destruct (rinv_first _ _ _ RI E) as [[C1 C2]|[C1 C2]].
      * rewrite after_keep_g by exact C1. split; cbn [g_rx g_pc g_reports g_tx g_todo g_cmds]; [exact C2|exact TI].
      * unfold g_after. rewrite C1. split; cbn [g_rx g_pc g_reports g_tx g_todo g_cmds]; [exact C2|]. apply (tinv_pc _ GFirst); [exact TI|discriminate].
    + injection D as <- <- <- <- <- <-. apply STAY; reflexivity.
    + (* in SendCommand *)
      destruct TI as (T1 & T2 & T3 & T4).
      assert (RUN : ys = [YStep] -> ps = [] -> (pc, todo, cmds, reps) = (GSend, g_todo g, g_cmds g, g_reports g) -> goal).
      { intros Y S K. injection K as -> -> -> ->. apply (TXE YStep Y S). intros x E. rewrite after_keep_g by exact Logic.I. split; cbn [g_rx g_pc g_reports g_tx g_todo g_cmds]; [exact RI|].
        split; [rewrite app_assoc, (xport_bytes_same So (g_tx g) YStep x) by (try exact E; discriminate); rewrite <- app_assoc; exact T1|]. split; [exact T2|]. split; [exact T3|congruence]. }
      destruct (t_pc (y_tx (g_tx g))) eqn:Tp; try (injection D as <- <- <- <- <- <-; apply RUN; reflexivity).
      destruct (g_todo g) as [|b rest] eqn:Td.
      * injection D as <- <- <- <- <- <-. apply NONE; [reflexivity|reflexivity|]. rewrite after_keep_g by exact Logic.I. split; cbn [g_rx g_pc g_reports g_tx g_todo g_cmds]; [exact RI|].
        split; [rewrite Tp; exact T1|]. auto.
      * injection D as <- <- <- <- <- <-. apply (TXE (YWrite b)); [reflexivity|reflexivity|]. intros x E. rewrite after_keep_g by exact Logic.I. split; cbn [g_rx g_pc g_reports g_tx g_todo g_cmds]; [exact RI|].
        cbn [xport_step tx_step] in E. rewrite Tp in E. injection E as <-. inversion T2 as [|? ? B1 B2]; subst. unfold tinv. cbn [HwTxModel.y_tx t_done t_pc current].
        unfold byte in B1. rewrite (u8_small b) by lia. split; [exact T1|]. split; [exact B2|]. split; [exact T3|congruence].
    + injection D as <- <- <- <- <- <-. apply NONE; [reflexivity|reflexivity|]. rewrite after_keep_g by exact Logic.I. split; cbn [g_rx g_pc g_reports g_tx g_todo g_cmds]; [|apply (tinv_pc _ GCmp); [exact TI|discriminate]].
      destruct RI as (R1 & R2 & R4 & Mp). split; [exact R1|]. split; [exact R2|]. split; [exact R4|]. split; [exact Mp|]. split; intros G; [|right]; lia.
    + assert (NP : rinv (g_rx g) (if g_len Si ge (r_ring (p_rx (g_rx g))) >? 3 then GRead [] else GCmp2) (g_reports g)).
      { destruct (g_len Si ge (r_ring (p_rx (g_rx g))) >? 3) eqn:L.
        - pose proof (len_l _ _ _ _ _ PI RI L) as EN. destruct RI as (R1 & R2 & R4 & Mp & _). split; [exact R1|]. split; [exact R2|]. split; [exact R4|]. split; [exact Mp|exact EN].
        - destruct RI as (R1 & R2 & R4 & Mp & _). split; [exact R1|]. split; [exact R2|]. split; [exact R4|exact Mp]. }
      injection D as <- <- <- <- <- <-. apply NONE; [reflexivity|reflexivity|].
      rewrite after_keep_g by (destruct (g_len Si ge (r_ring (p_rx (g_rx g))) >? 3); exact Logic.I).
      split; cbn [g_rx g_pc g_reports g_tx g_todo g_cmds]; [exact NP|apply (tinv_pc _ (GSub ge)); [exact TI|discriminate]].
    + injection D as <- <- <- <- <- <-. apply (RXE PRead); [reflexivity|reflexivity|]. intros p E. rewrite MidiWireProofs.port_read in E. injection E as <-.
      destruct RI as (R1 & R2 & R4 & Mp & EN). rewrite Mp. rewrite after_keep_g by discriminate. split; cbn [g_rx g_pc g_reports g_tx g_todo g_cmds].
      * unfold rinv, rd_ok, enough in *. rewrite Mp in R1. cbn [p_rx r_pc r_ien r_ring r_got r_acc bytes_in] in *. split; [exact R1|]. split; [exact R2|]. split; [exact R4|].
        split; [discriminate|]. split; [discriminate|exact EN].
      * apply (tinv_pc _ (GRead bs)); [exact TI|discriminate].
    + injection D as <- <- <- <- <- <-. apply (RXE PStep); [reflexivity|reflexivity|]. intros p E. destruct (rinv_in _ _ _ _ _ _ PI RI E) as [[C1 C2]|(C1 & v & V & C2 & C3 & C4)].
      * rewrite after_keep_g by exact C1. split; cbn [g_rx g_pc g_reports g_tx g_todo g_cmds]; [exact C2|exact TI].
      * unfold g_after. rewrite C1, C2, last_last. unfold is_byte in V. rewrite (u8_small v) by lia.
        destruct RI as (_ & _ & _ & _ & _ & EN & _). destruct bs as [|a [|b [|c [|d bs]]]]; cbn [length app] in *; try lia.
        -- split; cbn [g_rx g_pc g_reports g_tx g_todo g_cmds]; [apply C3; lia|]. apply (tinv_pc _ (GIn [])); [exact TI|discriminate].
        -- split; cbn [g_rx g_pc g_reports g_tx g_todo g_cmds]; [apply C3; lia|]. apply (tinv_pc _ (GIn [a])); [exact TI|discriminate].
        -- split; cbn [g_rx g_pc g_reports g_tx g_todo g_cmds]; [apply C3; lia|]. apply (tinv_pc _ (GIn [a; b])); [exact TI|discriminate].
        -- split; cbn [g_rx g_pc g_reports g_tx g_todo g_cmds]; [apply C4; reflexivity|]. apply (tinv_pc _ (GIn [a; b; c])); [exact TI|discriminate].
    + injection D as <- <- <- <- <- <-. apply NONE; [reflexivity|reflexivity|]. rewrite after_keep_g by exact Logic.I. split; cbn [g_rx g_pc g_reports g_tx g_todo g_cmds]; [|apply (tinv_pc _ GCmp2); [exact TI|discriminate]].
      destruct RI as (R1 & R2 & R4 & Mp). split; [exact R1|]. split; [exact R2|]. split; [exact R4|]. split; [exact Mp|]. intros G. lia.
    + injection D as <- <- <- <- <- <-. apply NONE; [reflexivity|reflexivity|]. rewrite after_keep_g by exact Logic.I. split; cbn [g_rx g_pc g_reports g_tx g_todo g_cmds]; [|apply (tinv_pc _ (GSub2 ge)); [exact TI|discriminate]].
      destruct RI as (R1 & (fs & R2 & R3) & R4 & Mp & _). split; [exact R1|]. split; [exists fs; split; [exact R2|]|split; [exact R4|exact Mp]].
      rewrite filter_app, R3. cbn [filter answered fst]. destruct (g_len Si ge (r_ring (p_rx (g_rx g))) >? 0); cbn [answered fst]; apply app_nil_r.
  - injection D as <- <- <- <- <- <-. apply (TXE YIsr); [reflexivity|reflexivity|]. intros x E. rewrite after_keep_g by exact (rinv_busy _ _ _ RI). split; [exact RI|]. exact (tinv_hw _ _ _ _ _ _ TI (or_introl eq_refl) E).
  - injection D as <- <- <- <- <- <-. apply (TXE YTick); [reflexivity|reflexivity|]. intros x E. rewrite after_keep_g by exact (rinv_busy _ _ _ RI). split; [exact RI|]. exact (tinv_hw _ _ _ _ _ _ TI (or_intror eq_refl) E).
  - injection D as <- <- <- <- <- <-. apply (RXE PIsr); [reflexivity|reflexivity|]. intros p E.
    assert (R' : rinv p (g_pc g) (g_reports g)) by (apply (rinv_isr _ _ _ _ _ _ PI RI E); destruct CA as [CA|CA]; [left; exact CA|right; apply CA; reflexivity]).
    rewrite after_keep_g by exact (rinv_busy _ _ _ R'). split; [exact R'|exact TI].
  - injection D as <- <- <- <- <- <-. apply (RXE PStart); [reflexivity|reflexivity|]. intros p E.
    assert (R' : rinv p (g_pc g) (g_reports g)) by (apply (rinv_line (g_rx g)); [cbn [port_step] in E; injection E as <-; reflexivity|exact RI]).
    rewrite after_keep_g by exact (rinv_busy _ _ _ R'). split; [exact R'|exact TI].
  - injection D as <- <- <- <- <- <-. apply (RXE (PStop d)); [reflexivity|reflexivity|]. intros p E.
    assert (R' : rinv p (g_pc g) (g_reports g)) by (apply (rinv_line (g_rx g)); [cbn [port_step] in E; injection E as <-; reflexivity|exact RI]).
    rewrite after_keep_g by exact (rinv_busy _ _ _ R'). split; [exact R'|exact TI].
Qed.

Lemma g_steps_l : forall evs g ys ps g' sx qx seen q moreY more,
  xport_inv So (g_tx g) sx qx -> port_inv Si (g_rx g) seen q -> ginv g -> Forall gev_ok evs ->
  Si mod 4 = 0 \/ g_calm So Si g evs = true -> g_steps So Si g evs = ((ys, ps), g') ->
  xport_polite So (g_tx g) sx (ys ++ moreY) = true -> port_polite Si (g_rx g) seen (ps ++ more) = true ->
  exists g1 sx' qx' seen' q', g' = Some g1 /\ xport_run So (g_tx g) ys = Some (g_tx g1) /\ port_run Si (g_rx g) ps = Some (g_rx g1) /\
    xport_inv So (g_tx g1) sx' qx' /\ port_inv Si (g_rx g1) seen' q' /\ ginv g1 /\
    xport_polite So (g_tx g1) sx' moreY = true /\ port_polite Si (g_rx g1) seen' more = true.
Proof.
  induction evs as [|e evs IH]; intros g ys ps g' sx qx seen q moreY more XI PI I OK CA E XP P; cbn [g_steps] in E.
  - injection E as <- <- <-. exists g, sx, qx, seen, q. cbn [app xport_run port_run] in *. auto 10.
  - inversion OK as [|? ? O1 O2]; subst. destruct (g_does Si g e) as [[ys1 ps1] [[[pc todo] cmds] reps]] eqn:D.
    assert (C1 : Si mod 4 = 0 \/ (e = GvRxIsr -> forall ge, g_pc g <> GSub ge)).
    { destruct CA as [CA|CA]; [left; exact CA|]. right. intros -> ge G. cbn [g_calm] in CA. rewrite G in CA. discriminate. }
    destruct (xport_run So (g_tx g) ys1) as [x|] eqn:RX; [destruct (port_run Si (g_rx g) ps1) as [p|] eqn:RP|].
    + destruct (g_steps So Si (g_after x p pc todo cmds reps) evs) as [[ys2 ps2] g2] eqn:K. injection E as <- <- <-. rewrite <- app_assoc in XP, P.
      destruct (g_event _ _ _ _ _ _ _ _ _ _ _ _ _ _ XI PI I O1 C1 D XP P) as (x' & p' & sx' & qx' & s' & q' & E1 & E2 & XI' & PI' & I' & XP' & P').
      rewrite RX in E1. rewrite RP in E2. injection E1 as <-. injection E2 as <-.
      assert (C2 : Si mod 4 = 0 \/ g_calm So Si (g_after x p pc todo cmds reps) evs = true).
      { destruct CA as [CA|CA]; [left; exact CA|right]. cbn [g_calm] in CA. rewrite D, RX, RP in CA. destruct e; try exact CA. destruct (g_pc g); try exact CA. discriminate. }
      destruct (IH _ _ _ _ sx' qx' s' q' moreY more ltac:(rewrite after_tx; exact XI') ltac:(rewrite after_rx; exact PI') I' O2 C2 K
        ltac:(rewrite after_tx; exact XP') ltac:(rewrite after_rx; exact P')) as (g1 & s1 & s2 & s3 & s4 & A1 & A2 & A3 & A4).
      rewrite after_tx in A2. rewrite after_rx in A3. exists g1, s1, s2, s3, s4. split; [exact A1|]. split; [rewrite xport_run_app, RX; exact A2|].
      split; [rewrite port_run_app, RP; exact A3|exact A4].
    + injection E as <- <- <-. destruct (g_event _ _ _ _ _ _ _ _ _ _ _ _ _ _ XI PI I O1 C1 D XP P) as (x' & p' & sx' & qx' & s' & q' & E1 & E2 & _). congruence.
    + injection E as <- <- <-. destruct (g_event _ _ _ _ _ _ _ _ _ _ _ _ _ _ XI PI I O1 C1 D XP P) as (x' & p' & sx' & qx' & s' & q' & E1 & E2 & _). congruence.
Qed.
End Board.

(** ** What the frames say *)
Lemma frames_concat : forall fs rest, frames (concat (map frame_bytes fs) ++ rest) = fs ++ frames rest.
Proof. induction fs as [|[[[c d1] d2] s] fs IH]; intros rest; [reflexivity|]. cbn [map concat frame_bytes app frames]. rewrite IH. reflexivity. Qed.
Lemma frames_prefix : forall fs F r, concat (map frame_bytes fs) ++ r = concat (map frame_bytes F) -> exists F', F = fs ++ F' /\ r = concat (map frame_bytes F').
Proof.
  induction fs as [|[[[c d1] d2] s] fs IH]; intros F r E; [exists F; auto|]. destruct F as [|[[[c' d1'] d2'] s'] F]; [discriminate|].
  cbn [map concat frame_bytes app] in E. injection E as -> -> -> -> E. destruct (IH F r E) as (F' & -> & R). exists F'. auto.
Qed.
Lemma concat4 : forall fs, length (concat (map frame_bytes fs)) = (4 * length fs)%nat.
Proof. induction fs as [|[[[c d1] d2] s] fs IH]; [reflexivity|]. cbn [map concat frame_bytes]. rewrite app_length, IH. cbn [length]. lia. Qed.
Definition answer_of (d : Z * Z) : Z * Z * Z * Z := (34, fst d, snd d, (34 + fst d + snd d) mod 256).
Lemma replies_l : forall t m cmds line more, Forall asks_distance cmds -> concat cmds = line ++ more ->
  exists j, (4 * j <= length line)%nat /\ (length line < 4 * (j + 1))%nat /\ (j <= length cmds)%nat /\
    forall k, replies t m k (frames line) = concat (map frame_bytes (map (fun i => answer_of (m i)) (seq k j))).
Proof.
  intros t m cmds. induction cmds as [|cmd cmds IH]; intros line more A E.
  - cbn [concat] in E. symmetry in E. apply app_eq_nil in E. destruct E as [-> _]. exists 0%nat. cbn. split; [lia|]. split; [lia|]. auto.
  - inversion A as [|? ? (d & D & ->) A2]; subst. cbn [concat app] in E.
    destruct (list4 line) as [L|(a & b & c & s & rest & ->)].
    + exists 0%nat. split; [lia|]. split; [lia|]. split; [lia|]. intros k. rewrite (frames_short line L). reflexivity.
    + cbn [app] in E. injection E as <- <- <- <- E. destruct (IH rest more A2 E) as (j & J1 & J2 & J3 & J4). exists (S j). cbn [length]. split; [lia|]. split; [lia|]. split; [lia|].
      intros k. cbn [frames replies frame_bytes sensor seq map concat]. rewrite J4. rewrite Z.add_0_r, Z.eqb_refl. reflexivity.
Qed.
Lemma delivered_app : forall a b, delivered (a ++ b) = delivered a ++ delivered b.
Proof. intros a b. unfold delivered. apply flat_map_app. Qed.
Lemma delivered_answered : forall reps, delivered (filter answered reps) = delivered reps.
Proof.
  induction reps as [|[res d] reps IH]; [reflexivity|]. change ((res, d) :: reps) with ([(res, d)] ++ reps). rewrite filter_app, !delivered_app, IH.
  f_equal. destruct res; reflexivity.
Qed.
Lemma answer_result : forall d, frame_result (answer_of d) = (RSuccess, Some (34, fst d, snd d)).
Proof. intros d. unfold frame_result, answer_of. rewrite Z.eqb_refl. reflexivity. Qed.
Lemma delivered_l : forall m, (forall n, byte (fst (m n)) /\ byte (snd (m n))) -> forall j,
  delivered (map (fun i => (RSuccess, Some (34, fst (m i), snd (m i)))) (seq 0 j)) = measured m j.
Proof.
  intros m Hm. induction j as [|j IH]; [reflexivity|]. rewrite seq_S, map_app, delivered_app, IH. cbn [plus map].
  unfold measured. rewrite seq_S, (map_app m), filter_app, (map_app centimetres). f_equal. cbn [map plus filter]. unfold delivered, deliverable. cbn [flat_map distance_of Z.eqb Pos.eqb andb app].
  destruct (negb (fst (m j) =? 255) && negb (snd (m j) =? 255)); [|reflexivity]. cbn [snd map app]. destruct (Hm j) as [H1 H2]. unfold byte in *.
  rewrite (lor_bytes (fst (m j)) (snd (m j)) ltac:(lia) H2), u16_small by lia. reflexivity.
Qed.

(** ** The theorems *)
Section Runs.
Variables (So Si : Z).
Hypothesis HSo : 1 <= So <= 65535.
Hypothesis HSi : 1 <= Si <= 65535.
Lemma ginv_start : forall m m', ginv Si (g_start m m').
Proof.
  intros m m'. split; [exact (rinv_start Si HSi m')|]. split; [reflexivity|]. split; [constructor|]. split; [constructor|]. intros _. split; reflexivity.
Qed.
Lemma urm_run : forall m m' evs ys ps g', Forall gev_ok evs -> Si mod 4 = 0 \/ g_calm So Si (g_start m m') evs = true ->
  g_steps So Si (g_start m m') evs = ((ys, ps), g') ->
  xport_polite So (xport_init m) false ys = true -> port_polite Si (port_init m') false ps = true ->
  exists g seen q, g' = Some g /\ xport_run So (xport_init m) ys = Some (g_tx g) /\ port_run Si (port_init m') ps = Some (g_rx g) /\
    port_inv Si (g_rx g) seen q /\ ginv Si g.
Proof.
  intros m m' evs ys ps g' OK CA E XP P.
  destruct (g_steps_l So Si HSo HSi evs (g_start m m') ys ps g' false [] false [] [] [] (xport_init_inv So HSo m) (port_init_inv Si HSi m') (ginv_start m m') OK CA E)
    as (g & sx & qx & seen & q & A1 & A2 & A3 & A4 & A5 & A6 & _).
  - rewrite app_nil_r. exact XP.
  - rewrite app_nil_r. exact P.
  - exists g, seen, q. auto 8.
Qed.
Lemma sent_l : forall m ys g, xport_polite So (xport_init m) false ys = true -> xport_run So (xport_init m) ys = Some (g_tx g) -> ginv Si g ->
  Forall (fun d => snd d = true) (t_done (y_tx (g_tx g))) ->
  exists waiting, concat (g_cmds g) = x_line (y_utx (g_tx g)) ++ waiting ++ g_todo g /\ Z.of_nat (length waiting) <= So + 2.
Proof.
  intros m ys g XP XR (_ & T1 & _) AC. destruct (hw_tx_stream_l So HSo m ys XP) as (x & queued & R & B & L1 & L2).
  rewrite XR in R. injection R as <-. rewrite (all_done _ AC) in B. rewrite <- T1.
  exists (outstanding (y_utx (g_tx g)) ++ queued ++ match t_pc (y_tx (g_tx g)) with TWrap _ => [] | q => current q end). split.
  - destruct (t_pc (y_tx (g_tx g))) eqn:Q; cbn [current] in *; rewrite ?app_nil_r in *; rewrite ?app_assoc in *; rewrite ?B; rewrite <- ?app_assoc; reflexivity.
  - rewrite !app_length. assert (length match t_pc (y_tx (g_tx g)) with TWrap _ => [] | q => current q end <= 1)%nat; [|lia].
    destruct (t_pc (y_tx (g_tx g))); cbn [current length]; lia.
Qed.
Lemma idle_rest : forall g seen q, port_inv Si (g_rx g) seen q -> ginv Si g -> g_pc g = GIdle -> ring_length Si (r_ring (p_rx (g_rx g))) <= 3 ->
  (length q <= 3)%nat /\ exists fs, r_acc (p_rx (g_rx g)) = concat (map frame_bytes fs) ++ q /\ filter answered (g_reports g) = map frame_result fs.
Proof.
  intros g seen q ((_ & RI) & _) ((_ & (fs & R2 & R3) & _ & R4) & _) PC RL. rewrite PC in R2, R4. cbn [bytes_in] in R2. rewrite app_nil_r in R2. rewrite R4 in RI. destruct RI as [HO AQ].
  rewrite (holds_length Si HSi _ _ HO) in RL. split; [lia|]. exists fs. rewrite AQ, R2. auto.
Qed.
Lemma urm_usart_l : forall m m' evs ys ps g', Forall gev_ok evs -> Si mod 4 = 0 \/ g_calm So Si (g_start m m') evs = true ->
  g_steps So Si (g_start m m') evs = ((ys, ps), g') ->
  xport_polite So (xport_init m) false ys = true -> port_polite Si (port_init m') false ps = true ->
  exists g k, g' = Some g /\
    filter answered (g_reports g) = map frame_result (firstn k (frames (r_acc (p_rx (g_rx g))))) /\
    (g_pc g = GIdle -> ring_length Si (r_ring (p_rx (g_rx g))) <= 3 ->
     filter answered (g_reports g) = map frame_result (frames (r_acc (p_rx (g_rx g))))) /\
    (Forall (fun d => snd d = true) (t_done (y_tx (g_tx g))) ->
     exists waiting, concat (g_cmds g) = x_line (y_utx (g_tx g)) ++ waiting ++ g_todo g /\ Z.of_nat (length waiting) <= So + 2).
Proof.
  intros m m' evs ys ps g' OK CA E XP P. destruct (urm_run _ _ _ _ _ _ OK CA E XP P) as (g & seen & q & -> & XR & PR & PI & GI).
  pose proof GI as ((_ & (fs & R2 & R3) & _ & R4) & _). exists g, (length fs). split; [reflexivity|]. split; [|split].
  - rewrite R3. f_equal. destruct PI as ((_ & RI) & _).
    assert (exists rest, r_acc (p_rx (g_rx g)) = vals (r_got (p_rx (g_rx g))) ++ rest) as [rest ->].
    { destruct (r_pc (p_rx (g_rx g))); decompose [and] RI; eexists; eassumption. }
    rewrite R2, <- app_assoc, frames_concat, firstn_app, firstn_all, Nat.sub_diag. cbn [firstn]. rewrite app_nil_r. reflexivity.
  - intros PC RL. destruct (idle_rest _ _ _ PI GI PC RL) as (LQ & fs' & AQ & FA). rewrite AQ, frames_concat, (frames_short q) by lia. rewrite app_nil_r. exact FA.
  - intros AC. exact (sent_l _ _ _ XP XR GI AC).
Qed.
Lemma sensor_core : forall m m' evs ys ps g t ms n, Forall gev_ok evs -> Si mod 4 = 0 \/ g_calm So Si (g_start m m') evs = true ->
  g_steps So Si (g_start m m') evs = ((ys, ps), Some g) ->
  xport_polite So (xport_init m) false ys = true -> port_polite Si (port_init m') false ps = true ->
  losses 0 false (wire Si (port_init m') ps) = 0%nat -> (forall i, byte (fst (ms i)) /\ byte (snd (ms i))) ->
     Forall asks_distance (g_cmds g) -> Forall (fun d => snd d = true) (t_done (y_tx (g_tx g))) ->
     length (r_acc (p_rx (g_rx g))) = length (p_taken (g_rx g)) \/ Z.of_nat (length (p_taken (g_rx g))) <= Si - 1 ->
     chars false (wire Si (port_init m') ps) = firstn n (replies t ms 0 (frames (x_line (y_utx (g_tx g))))) ->
     exists j, (j <= length (g_cmds g))%nat /\ (4 * j <= length (x_line (y_utx (g_tx g))))%nat /\
       (length (chars false (wire Si (port_init m') ps)) <= length (x_line (y_utx (g_tx g))))%nat /\
       length (vals (r_got (p_rx (g_rx g)))) = (4 * j + length (bytes_in (g_pc g)))%nat /\
       filter answered (g_reports g) = map (fun i => (RSuccess, Some (34, fst (ms i), snd (ms i)))) (seq 0 j) /\
       delivered (g_reports g) = measured ms j /\
       (g_pc g = GIdle -> ring_length Si (r_ring (p_rx (g_rx g))) <= 3 -> unread (p_uart (g_rx g)) = [] ->
        x_line (y_utx (g_tx g)) = concat (g_cmds g) -> (4 * length (g_cmds g) <= n)%nat -> j = length (g_cmds g)).
Proof.
  intros m m' evs ys ps g t ms n OK CA E XP P LO Hm AD AC LL CH. destruct (urm_run _ _ _ _ _ _ OK CA E XP P) as (g1 & seen & q & EG & XR & PR & PI & GI).
  injection EG as <-. destruct (sent_l _ _ _ XP XR GI AC) as (waiting & W & _).
  destruct (port_lossless_l Si HSi m' ps P LO) as (p & PR' & Q). rewrite PR in PR'. injection PR' as <-. destruct (Q LL) as (queued & IR & QA). clear Q.
  destruct (replies_l t ms _ _ _ AD W) as (J & J1 & J2 & J3 & J4). rewrite J4 in CH. set (F := map (fun i => answer_of (ms i)) (seq 0 J)) in *.
  assert (LF : length F = J) by (unfold F; rewrite map_length, seq_length; reflexivity).
  assert (BF : Forall byte (concat (map frame_bytes F))).
  { unfold F. clear - Hm. generalize 0%nat. induction J as [|J IH]; intros k; [constructor|]. cbn [seq map concat]. apply Forall_app. split; [|apply IH].
    destruct (Hm k) as [H1 H2]. unfold answer_of. cbn [frame_bytes]. constructor; [unfold byte; lia|]. constructor; [exact H1|]. constructor; [exact H2|]. constructor; [|constructor]. unfold byte. apply Z.mod_pos_bound. lia. }
  assert (U8 : map u8 (chars false (wire Si (port_init m') ps)) = firstn n (concat (map frame_bytes F))).
  { rewrite CH. rewrite <- (map_id (firstn n (concat (map frame_bytes F)))) at 2. apply map_ext_in. intros b IN. rewrite Forall_forall in BF.
    assert (IN' : In b (concat (map frame_bytes F))) by (rewrite <- (firstn_skipn n (concat (map frame_bytes F))); apply in_or_app; left; exact IN).
    specialize (BF b IN'). unfold byte in BF. apply u8_small. lia. }
  rewrite U8 in QA. pose proof GI as ((_ & (fs & R2 & R3) & _ & R4) & _). fold (vals (r_got (p_rx (g_rx g)))) in QA. rewrite R2 in QA.
  assert (PF : exists F', F = fs ++ F').
  { pose proof (firstn_skipn n (concat (map frame_bytes F))) as S. rewrite QA, <- !app_assoc in S. destruct (frames_prefix _ _ _ S) as (F' & X & _). exists F'. exact X. }
  destruct PF as [F' PF].
  assert (FS : fs = map (fun i => answer_of (ms i)) (seq 0 (length fs))).
  { apply (f_equal (firstn (length fs))) in PF. rewrite firstn_app, firstn_all, Nat.sub_diag in PF. cbn [firstn] in PF. rewrite app_nil_r in PF. rewrite <- PF at 1. unfold F.
    rewrite firstn_map. f_equal. assert (LE : (length fs <= J)%nat) by (rewrite <- LF; apply (f_equal (@length _)) in PF; rewrite firstn_length in PF; lia).
    clear - LE. replace J with (length fs + (J - length fs))%nat by lia. rewrite seq_app, firstn_app, seq_length, Nat.sub_diag. cbn [firstn]. rewrite app_nil_r. rewrite <- (seq_length (length fs) 0) at 1. apply firstn_all. }
  assert (AN : filter answered (g_reports g) = map (fun i => (RSuccess, Some (34, fst (ms i), snd (ms i)))) (seq 0 (length fs))).
  { rewrite R3, FS at 1. rewrite map_map. apply map_ext. intros i. apply answer_result. }
  assert (LE : (length fs <= J)%nat) by (apply (f_equal (@length _)) in PF; rewrite app_length, LF in PF; lia).
  exists (length fs). split; [lia|]. split; [lia|]. split; [rewrite CH, firstn_length, concat4, LF; lia|]. split; [rewrite R2, app_length, concat4; reflexivity|].
  split; [exact AN|]. split.
  - rewrite <- delivered_answered, AN. apply delivered_l. exact Hm.
  - intros PC RL UN XL N. rewrite PC in R4, QA. cbn [bytes_in] in QA. rewrite R4, UN in QA. destruct (IR R4) as [IL _].
    rewrite app_nil_r in QA. cbn [app map] in QA. rewrite app_nil_r in QA. rewrite IL in RL.
    assert (LC : length (concat (g_cmds g)) = (4 * length (g_cmds g))%nat).
    { clear - AD. induction AD as [|c cs (d & _ & ->) A IH]; [reflexivity|]. cbn [concat]. rewrite app_length, IH. cbn [length]. lia. }
    rewrite XL, LC in J1, J2. rewrite firstn_all2 in QA by (rewrite concat4, LF; lia). apply (f_equal (@length Z)) in QA. rewrite app_length, !concat4, LF in QA. lia.
Qed.

Lemma urm_sensor_l : forall m m' evs ys ps g' t ms n, Forall gev_ok evs -> Si mod 4 = 0 \/ g_calm So Si (g_start m m') evs = true ->
  g_steps So Si (g_start m m') evs = ((ys, ps), g') ->
  xport_polite So (xport_init m) false ys = true -> port_polite Si (port_init m') false ps = true ->
  losses 0 false (wire Si (port_init m') ps) = 0%nat -> (forall i, byte (fst (ms i)) /\ byte (snd (ms i))) ->
  exists g, g' = Some g /\
    (Forall asks_distance (g_cmds g) -> Forall (fun d => snd d = true) (t_done (y_tx (g_tx g))) ->
     length (r_acc (p_rx (g_rx g))) = length (p_taken (g_rx g)) \/ Z.of_nat (length (p_taken (g_rx g))) <= Si - 1 ->
     chars false (wire Si (port_init m') ps) = firstn n (replies t ms 0 (frames (x_line (y_utx (g_tx g))))) ->
     exists j, (j <= length (g_cmds g))%nat /\
       filter answered (g_reports g) = map (fun i => (RSuccess, Some (34, fst (ms i), snd (ms i)))) (seq 0 j) /\
       delivered (g_reports g) = measured ms j /\
       (g_pc g = GIdle -> ring_length Si (r_ring (p_rx (g_rx g))) <= 3 -> unread (p_uart (g_rx g)) = [] ->
        x_line (y_utx (g_tx g)) = concat (g_cmds g) -> (4 * length (g_cmds g) <= n)%nat -> j = length (g_cmds g))).
Proof.
  intros m m' evs ys ps g' t ms n OK CA E XP P LO Hm. destruct (urm_run _ _ _ _ _ _ OK CA E XP P) as (g & seen & q & -> & _).
  exists g. split; [reflexivity|]. intros AD AC LL CH. destruct (sensor_core m m' evs ys ps g t ms n OK CA E XP P LO Hm AD AC LL CH) as (j & J1 & _ & _ & _ & J2).
  exists j. split; [exact J1|exact J2].
Qed.

(** ** One call *)
Lemma g_steps_app : forall a b g, g_steps So Si g (a ++ b) =
  match g_steps So Si g a with
  | ((ys, ps), Some g1) => let '((ys', ps'), g2) := g_steps So Si g1 b in ((ys ++ ys', ps ++ ps'), g2)
  | ((ys, ps), None) => ((ys, ps), None)
  end.
Proof.
  induction a as [|e a IH]; intros b g; cbn [app g_steps].
  - destruct (g_steps So Si g b) as [[ys ps] g2]. reflexivity.
  - destruct (g_does Si g e) as [[ys ps] [[[pc todo] cmds] reps]]. destruct (xport_run So (g_tx g) ys) as [x|]; [|reflexivity].
    destruct (port_run Si (g_rx g) ps) as [p|]; [|reflexivity]. rewrite IH.
    destruct (g_steps So Si (g_after x p pc todo cmds reps) a) as [[ys1 ps1] [g1|]]; [|reflexivity].
    destruct (g_steps So Si g1 b) as [[ys2 ps2] g2]. rewrite !app_assoc. reflexivity.
Qed.
Lemma idle_steps : forall n g, g_pc g = GIdle -> g_steps So Si g (repeat GvStep n) = (([], []), Some g).
Proof.
  induction n as [|n IH]; intros g P; [reflexivity|]. cbn [repeat g_steps g_does]. cbv zeta. rewrite P. cbn [xport_run port_run]. rewrite after_keep_g by exact Logic.I.
  destruct g as [x p pc todo cmds reps]. cbn [g_pc] in P. subst pc. cbn [g_tx g_rx g_todo g_cmds g_reports]. rewrite IH by reflexivity. reflexivity.
Qed.
Lemma gin_more : forall x u s s' tk bs todo cmds reps rest g2, rx_step Si s RxStep = Some s' -> r_pc s' <> RIdle ->
  (exists st, g_steps So Si (mkG x (mkPort u s' tk) (GIn bs) todo cmds reps) rest = (st, Some g2)) ->
  exists st, g_steps So Si (mkG x (mkPort u s tk) (GIn bs) todo cmds reps) (GvStep :: rest) = (st, Some g2).
Proof.
  intros x u s s' tk bs todo cmds reps rest g2 E N [st R]. cbn [g_steps g_does g_pc g_tx g_rx g_todo g_cmds g_reports xport_run port_run port_step p_rx p_uart p_taken]. rewrite E.
  rewrite after_keep_g by exact N. rewrite R. destruct st. eexists. reflexivity.
Qed.
Lemma one_read : forall x u r ien got acc tk bs todo cmds reps v q, holds Si r (v :: q) -> is_byte v ->
  exists r' st, holds Si r' q /\
    g_steps So Si (mkG x (mkPort u (mkRx r ien RIdle got acc) tk) (GRead bs) todo cmds reps) (repeat GvStep 6) =
    (st, Some (g_after x (mkPort u (mkRx r' ien RIdle (got ++ [v]) acc) tk) (GIn bs) todo cmds reps)).
Proof.
  intros x u r ien got acc tk bs todo cmds reps v q H B.
  assert (SL : (if rb_wr r >=? rb_rd r then u16 (rb_wr r - rb_rd r) else u16 (Si - (rb_rd r - rb_wr r))) >? 0 = true).
  { rewrite (StreamProofs.sub_length Si HSi r (v :: q) _ H); [reflexivity|]. intros X. clear - X. lia. }
  destruct (holds_read Si HSi r v q H) as (r' & E & H').
  unfold ring_read in E. destruct (inb (rb_rd r) Si) eqn:IB; [|discriminate].
  assert (E1 : rb_mem r (rb_rd r) = v) by congruence. assert (E2 : r' = mkRing (rb_mem r) (rb_wr r) (if rb_rd r + 1 >=? Si then 0 else rb_rd r + 1)) by congruence. clear E.
  assert (VV : s16 v = v) by (unfold is_byte in B; rewrite s16_small by lia; reflexivity).
  set (g2 := g_after x (mkPort u (mkRx r' ien RIdle (got ++ [v]) acc) tk) (GIn bs) todo cmds reps).
  enough (K : exists st, g_steps So Si (mkG x (mkPort u (mkRx r ien RCmp got acc) tk) (GIn bs) todo cmds reps) (repeat GvStep 5) = (st, Some g2)).
  { destruct K as [[st1 st2] K]. exists r'. eexists. split; [exact H'|]. change (repeat GvStep 6) with (GvStep :: repeat GvStep 5).
    cbn [g_steps g_does g_pc g_tx g_rx g_todo g_cmds g_reports xport_run port_run port_step p_rx p_uart p_taken rx_step r_pc r_ring r_ien r_got r_acc].
    rewrite after_keep_g by discriminate. rewrite K. reflexivity. }
  cbn [repeat]. eapply gin_more; [reflexivity|discriminate|].
  refine (gin_more _ _ _ (mkRx r ien RLoad got acc) _ _ _ _ _ _ _ _ _ _); [cbn [rx_step]; unfold rx_main; cbn [r_pc r_ring r_ien r_got r_acc]; rewrite SL; reflexivity|discriminate|].
  refine (gin_more _ _ _ (mkRx r ien (RInc v) got acc) _ _ _ _ _ _ _ _ _ _); [cbn [rx_step]; unfold rx_main; cbn [r_pc r_ring r_ien r_got r_acc]; rewrite IB, E1; reflexivity|discriminate|].
  eapply gin_more; [reflexivity|discriminate|].
  cbn [g_steps g_does g_pc g_tx g_rx g_todo g_cmds g_reports xport_run port_run port_step p_rx p_uart p_taken rx_step]. unfold rx_main. cbn [r_pc r_ring r_ien r_got r_acc rb_rd rb_wr rb_mem].
  rewrite VV, <- E2. eexists. reflexivity.
Qed.
Lemma len_holds : forall (r : ring Z) q, holds Si r q -> g_len Si (rb_wr r >=? rb_rd r) r = Z.of_nat (length q).
Proof.
  intros r q H. rewrite <- (holds_length Si HSi _ _ H). unfold g_len, ring_length. pose proof (holds_wr Si _ _ _ H) as W. destruct H as (R & L & E & _). unfold wrap in E.
  destruct (rb_wr r >=? rb_rd r) eqn:G; rewrite ?u16_small; lia.
Qed.
Lemma urm_poll_l : forall m m' evs ys ps g, Forall gev_ok evs -> Si mod 4 = 0 \/ g_calm So Si (g_start m m') evs = true ->
  g_steps So Si (g_start m m') evs = ((ys, ps), Some g) ->
  xport_polite So (xport_init m) false ys = true -> port_polite Si (port_init m') false ps = true -> g_pc g = GIdle ->
  exists st g2 r, g_steps So Si g (GvReceive :: repeat GvStep 26) = (st, Some g2) /\ g_pc g2 = GIdle /\ g_tx g2 = g_tx g /\ g_cmds g2 = g_cmds g /\
    g_reports g2 = g_reports g ++ [r] /\
    let len := ring_length Si (r_ring (p_rx (g_rx g))) in
    if len >? 3
    then nth_error (map frame_result (frames (r_acc (p_rx (g_rx g))))) (length (filter answered (g_reports g))) = Some r /\
         ring_length Si (r_ring (p_rx (g_rx g2))) = len - 4
    else r = (if len =? 0 then RNone else RPending, None) /\ g_rx g2 = g_rx g.
Proof.
  intros m m' evs ys ps g OK CA E XP P PC. destruct (urm_run _ _ _ _ _ _ OK CA E XP P) as (g0 & seen & q & G0 & XR & PR & PI & GI). injection G0 as <-.
  destruct PI as ((QB & RI) & _). destruct GI as ((_ & (fs & R2 & R3) & _ & R4) & _). rewrite PC in R2, R4. cbn [bytes_in] in R2. rewrite app_nil_r in R2. rewrite R4 in RI. destruct RI as [HO AQ].
  cbv zeta. rewrite (holds_length Si HSi _ _ HO). rewrite R3, map_length.
  destruct g as [x [u [r ien pc got acc] tk] gpc todo cmds reps]. cbn [g_pc g_rx g_tx p_rx r_pc r_ring r_acc r_got g_cmds g_reports] in *. subst pc gpc.
  set (G := fun pc reps => mkG x (mkPort u (mkRx r ien RIdle got acc) tk) pc todo cmds reps).
  assert (S1 : g_steps So Si (G GIdle reps) [GvReceive; GvStep; GvStep] = (([], []), Some (G (if Z.of_nat (length q) >? 3 then GRead [] else GCmp2) reps))).
  { unfold G. cbn [g_steps g_does g_pc g_tx g_rx g_todo g_cmds g_reports p_rx r_ring xport_run port_run]. rewrite !after_keep_g by exact Logic.I.
    cbn [g_steps g_does g_pc g_tx g_rx g_todo g_cmds g_reports p_rx r_ring xport_run port_run]. rewrite !after_keep_g by exact Logic.I.
    cbn [g_steps g_does g_pc g_tx g_rx g_todo g_cmds g_reports p_rx r_ring xport_run port_run]. rewrite (len_holds _ _ HO).
    rewrite after_keep_g by (destruct (Z.of_nat (length q) >? 3); exact Logic.I). reflexivity. }
  change (mkG x (mkPort u (mkRx r ien RIdle got acc) tk) GIdle todo cmds reps) with (G GIdle reps).
  destruct (Z.of_nat (length q) >? 3) eqn:L.
  - destruct (list4 q) as [LQ|(c & d1 & d2 & s & rest & ->)]; [lia|].
    inversion QB as [|? ? B1 QB1]; subst. inversion QB1 as [|? ? B2 QB2]; subst. inversion QB2 as [|? ? B3 QB3]; subst. inversion QB3 as [|? ? B4 QB4]; subst.
    assert (U : forall v, is_byte v -> u8 v = v) by (intros v V; unfold is_byte in V; apply u8_small; lia).
    remember (vals got ++ c :: d1 :: d2 :: s :: rest) as acc eqn:AC.
    assert (S24 : GvReceive :: repeat GvStep 26 = [GvReceive; GvStep; GvStep] ++ repeat GvStep 6 ++ repeat GvStep 6 ++ repeat GvStep 6 ++ repeat GvStep 6) by reflexivity.
    destruct (one_read x u r ien got acc tk [] todo cmds reps _ _ HO B1) as (r1 & st1 & H1 & E1).
    unfold g_after in E1. cbn [p_rx r_pc r_got] in E1. rewrite last_last, (U _ B1) in E1. cbn [app] in E1.
    destruct (one_read x u r1 ien (got ++ [c]) acc tk [c] todo cmds reps _ _ H1 B2) as (r2 & st2 & H2 & E2).
    unfold g_after in E2. cbn [p_rx r_pc r_got] in E2. rewrite last_last, (U _ B2) in E2. cbn [app] in E2.
    destruct (one_read x u r2 ien ((got ++ [c]) ++ [d1]) acc tk [c; d1] todo cmds reps _ _ H2 B3) as (r3 & st3 & H3 & E3).
    unfold g_after in E3. cbn [p_rx r_pc r_got] in E3. rewrite last_last, (U _ B3) in E3. cbn [app] in E3.
    destruct (one_read x u r3 ien (((got ++ [c]) ++ [d1]) ++ [d2]) acc tk [c; d1; d2] todo cmds reps _ _ H3 B4) as (r4 & st4 & H4 & E4).
    unfold g_after in E4. cbn [p_rx r_pc r_got] in E4. rewrite last_last, (U _ B4) in E4. cbn [app] in E4.
    rewrite S24. remember (repeat GvStep 6) as six eqn:SX. clear SX S24.
    destruct st1 as [s1 t1], st2 as [s2 t2], st3 as [s3 t3], st4 as [s4 t4].
    eexists _, _, _. split; [rewrite g_steps_app, S1; unfold G; rewrite g_steps_app, E1, g_steps_app, E2, g_steps_app, E3, E4; reflexivity|]. cbn [g_pc g_tx g_cmds g_reports g_rx p_rx r_ring].
    split; [reflexivity|]. split; [reflexivity|]. split; [reflexivity|]. split; [reflexivity|]. split.
    + rewrite AC, R2, frames_concat. cbn [frames]. rewrite map_app, nth_error_app2 by (rewrite map_length; lia). rewrite map_length, Nat.sub_diag. cbn [map nth_error frame_result].
      rewrite (checksum_l _ _ _ B1 B2 B3), Z.eqb_sym. reflexivity.
    + rewrite (holds_length Si HSi _ _ H4). cbn [length]. lia.
  - assert (S2 : g_steps So Si (G GCmp2 reps) [GvStep; GvStep] = (([], []), Some (G GIdle (reps ++ [(if Z.of_nat (length q) >? 0 then RPending else RNone, None)])))).
    { unfold G. cbn [g_steps g_does g_pc g_tx g_rx g_todo g_cmds g_reports p_rx r_ring xport_run port_run]. rewrite !after_keep_g by exact Logic.I.
      cbn [g_steps g_does g_pc g_tx g_rx g_todo g_cmds g_reports p_rx r_ring xport_run port_run]. rewrite (len_holds _ _ HO). rewrite after_keep_g by exact Logic.I. reflexivity. }
    assert (S24 : GvReceive :: repeat GvStep 26 = [GvReceive; GvStep; GvStep] ++ [GvStep; GvStep] ++ repeat GvStep 22) by reflexivity. rewrite S24.
    pose proof (idle_steps 22 (G GIdle (reps ++ [(if Z.of_nat (length q) >? 0 then RPending else RNone, None)])) eq_refl) as S3.
    remember (repeat GvStep 22) as more eqn:SX. clear SX S24.
    eexists _, _, _. split; [rewrite g_steps_app, S1, g_steps_app, S2, S3; reflexivity|]. unfold G. cbn [g_pc g_tx g_cmds g_reports g_rx p_rx r_ring].
    split; [reflexivity|]. split; [reflexivity|]. split; [reflexivity|]. split; [reflexivity|]. split; [|reflexivity]. destruct q; reflexivity.
Qed.
Lemma urm_pending_l : forall m m' evs ys ps g ge, Forall gev_ok evs -> Si mod 4 = 0 \/ g_calm So Si (g_start m m') evs = true ->
  g_steps So Si (g_start m m') evs = ((ys, ps), Some g) ->
  xport_polite So (xport_init m) false ys = true -> port_polite Si (port_init m') false ps = true -> g_pc g = GSub2 ge ->
  option_map g_reports (snd (g_steps So Si g [GvStep])) =
    Some (g_reports g ++ [(if ring_length Si (r_ring (p_rx (g_rx g))) =? 0 then RNone else RPending, None)]).
Proof.
  intros m m' evs ys ps g ge OK CA E XP P PC. destruct (urm_run _ _ _ _ _ _ OK CA E XP P) as (g0 & seen & q & G0 & XR & PR & PI & GI). injection G0 as <-.
  destruct PI as ((QB & RI) & _). destruct GI as ((_ & _ & _ & R4) & _). rewrite PC in R4. destruct R4 as [R4 GE]. rewrite R4 in RI. destruct RI as [HO AQ].
  rewrite (holds_length Si HSi _ _ HO). cbn [g_steps g_does]. cbv zeta. rewrite PC. cbn [xport_run port_run g_after snd option_map g_reports].
  unfold g_len. rewrite (StreamProofs.sub_length Si HSi _ _ _ HO GE). destruct q; reflexivity.
Qed.
End Runs.

(** ** Nobody calls Read *)
Definition deaf (g : gsys) : Prop :=
  let s := p_rx (g_rx g) in
  r_pc s = RIdle /\ r_ien s = false /\ r_acc s = [] /\ r_got s = [] /\ rb_wr (r_ring s) = rb_rd (r_ring s) /\ Forall (fun r => r = (RNone, None)) (g_reports g) /\
  match g_pc g with GIdle | GSend | GCmp | GCmp2 => True | GSub ge | GSub2 ge => ge = true | _ => False end.
Lemma deaf_l : forall So Si evs g st g', deaf g -> g_steps So Si g evs = (st, Some g') -> deaf g'.
Proof.
  intros So Si. induction evs as [|e evs IH]; intros g st g' D E; cbn [g_steps] in E; [congruence|].
  destruct (g_does Si g e) as [[ys ps] [[[pc todo] cmds] reps]] eqn:K.
  destruct (xport_run So (g_tx g) ys) as [x|] eqn:X; [|discriminate]. destruct (port_run Si (g_rx g) ps) as [p|] eqn:P; [|discriminate].
  destruct (g_steps So Si (g_after x p pc todo cmds reps) evs) as [[ys' ps'] g2] eqn:R. injection E as _ ->. refine (IH _ _ _ _ R). clear IH R.
  destruct D as (D1 & D2 & D3 & D4 & D5 & D6 & D7).
  assert (SAME : forall q, p_rx q = p_rx (g_rx g) -> forall pc' t c r, Forall (fun r => r = (RNone, None)) r ->
    match pc' with GIdle | GSend | GCmp | GCmp2 => True | GSub ge | GSub2 ge => ge = true | _ => False end -> deaf (g_after x q pc' t c r)).
  { intros q Q pc' t c r F M. rewrite after_keep_g by (destruct pc'; try exact Logic.I; contradiction). unfold deaf. cbn [g_rx g_reports g_pc]. rewrite Q. auto 8. }
  assert (N0 : forall ge, ge = true -> g_len Si ge (r_ring (p_rx (g_rx g))) = 0) by (intros ge ->; unfold g_len; rewrite D5, Z.sub_diag; reflexivity).
  assert (GE : (rb_wr (r_ring (p_rx (g_rx g))) >=? rb_rd (r_ring (p_rx (g_rx g)))) = true) by lia.
  destruct e; cbn [g_does] in K; cbv zeta in K.
  - destruct (g_pc g) eqn:G; injection K as <- <- <- <- <- <-; injection P as <-; apply SAME; auto.
  - destruct (g_pc g) eqn:G; injection K as <- <- <- <- <- <-; injection P as <-; apply SAME; auto.
  - destruct (g_pc g) eqn:G; try contradiction.
    + injection K as <- <- <- <- <- <-; injection P as <-; apply SAME; auto.
    + destruct (t_pc (y_tx (g_tx g))); try destruct (g_todo g); injection K as <- <- <- <- <- <-; injection P as <-; apply SAME; auto.
    + injection K as <- <- <- <- <- <-; injection P as <-; apply SAME; auto.
    + rewrite (N0 _ D7) in K. injection K as <- <- <- <- <- <-; injection P as <-; apply SAME; auto.
    + injection K as <- <- <- <- <- <-; injection P as <-; apply SAME; auto.
    + rewrite (N0 _ D7) in K. injection K as <- <- <- <- <- <-; injection P as <-; apply SAME; auto. apply Forall_app. split; [exact D6|]. constructor; [reflexivity|constructor].
  - injection K as <- <- <- <- <- <-; injection P as <-; apply SAME; auto.
  - injection K as <- <- <- <- <- <-; injection P as <-; apply SAME; auto.
  - injection K as <- <- <- <- <- <-. cbn [port_run] in P. destruct (port_step Si (g_rx g) PIsr) as [p1|] eqn:I; [|discriminate]. injection P as <-. apply SAME; auto. apply (isr_same Si _ _ I). exact D2.
  - injection K as <- <- <- <- <- <-. cbn [port_run port_step] in P. injection P as <-. apply SAME; auto.
  - injection K as <- <- <- <- <- <-. cbn [port_run port_step] in P. injection P as <-. apply SAME; auto.
Qed.

(** ** Over the line *)
Lemma line_in_l : forall F G c1 c2 id1 id2 m1 m2 cs a t0 sched tevs Size m,
  1 <= F -> 1 <= G -> id1 = 0 \/ id1 = 1 -> id2 = 0 \/ id2 = 1 -> c_bits c1 = 3 -> c_bits c2 = 3 -> c_par c2 = c_par c1 ->
  0 <= c_ubrr c1 < 65536 -> 0 <= c_ubrr c2 < 65536 -> c_div c1 = 8 \/ c_div c1 = 16 -> c_div c2 = 8 \/ c_div c2 = 16 ->
  tolerable (speed_samples (c_div c2)) (speed_middle (c_div c2)) (last_bit 8 (c_par c1))
    (bit_time G (c_div c1) (c_ubrr c1)) (sample_time F (c_ubrr c2)) ->
  WireSpec.spaced (frame_time G c1) t0 cs -> a - sample_time F (c_ubrr c2) < t0 ->
  Forall (fun sw => forallb software sw = true) sched -> Forall is_byte (map snd cs) ->
  receiving F G (opened m1 id1 c1) id1 (opened m2 id2 c2) id2 cs a sched = Some tevs ->
  1 <= Size <= 65535 -> port_polite Size (port_init m) false (map snd tevs) = true ->
  HwRxSpec.served (2 * (c_div c2 * (match c_par c1 with POff => 9 | _ => 10 end))) [] false (timed Size (port_init m) tevs) = true ->
  exists c, hears (frame_time G c1) (frame_time G c1 - bit_time G (c_div c1) (c_ubrr c1) * (if c_two c1 then 2 else 1)) cs
      (a + (Z.of_nat (length sched) - 1) * sample_time F (c_ubrr c2)) c /\
    chars false (wire Size (port_init m) (map snd tevs)) = firstn c (map snd cs) /\
    losses 0 false (wire Size (port_init m) (map snd tevs)) = 0%nat.
Proof.
  intros F G c1 c2 id1 id2 m1 m2 cs a t0 sched tevs Size m HF HG I1 I2 B1 B2 EP U1 U2 D1 D2 TOL SP BE SW BY RV HS PO SE.
  destruct (opened_heard F G id1 id2 c1 c2 m1 m2 cs a t0 (length sched)) as [c [H EX]]; auto; try (rewrite B1; try exact TOL; lia); try congruence.
  assert (DS : map (fun x => (snd x mod 2 ^ (5 + c_bits c1), false, false)) (firstn c cs) = map (fun d => (d, false, false)) (firstn c (map snd cs))).
  { rewrite B1. change (2 ^ (5 + 3)) with 256. rewrite firstn_map, map_map. apply map_ext_in. intros x IN.
    assert (K : is_byte (snd x)).
    { rewrite Forall_forall in BY. apply BY. apply in_map. rewrite <- (firstn_skipn c cs). apply in_or_app. left. exact IN. }
    unfold is_byte in K. rewrite Z.mod_small by lia. reflexivity. }
  rewrite DS in H.
  destruct (opened_l m2 id2 c2 I2 ltac:(rewrite B2; lia) U2 D2) as [R1 [R2 R3]].
  rewrite B2, EP in R3.
  destruct (receiving_l F G _ id1 _ id2 cs a sched _ 3 _ _ R3 ltac:(lia) SW H) as [tevs' [V1 [V2 V3]]]. rewrite RV in V1. injection V1 as <-.
  assert (PK : 6 + 3 + match swap_parity (c_par c1) with POff => 0 | _ => 1 end = match c_par c1 with POff => 9 | _ => 10 end) by (destruct (c_par c1); reflexivity).
  rewrite PK, R1 in V3.
  destruct (port_all Size HS m (map snd tevs) PO) as (r0 & q0 & o0 & PR & _).
  exists c. split; [exact EX|]. split; [rewrite (wire_pchars Size _ _ r0 false PR), V2; reflexivity|].
  rewrite <- timed_wire. refine (hw_latency_l _ _ _ _ _ _ (V3 Size (port_init m)) SE); [|lia].
  destruct (c_par c1), D2 as [-> | ->]; lia.
Qed.
Lemma replies_bytes_l : forall t ms cmds line more, Forall asks_distance cmds -> concat cmds = line ++ more -> (forall i, byte (fst (ms i)) /\ byte (snd (ms i))) ->
  Forall byte (replies t ms 0 (frames line)).
Proof.
  intros t ms cmds line more AD W Hm. destruct (replies_l t ms _ _ _ AD W) as (J & _ & _ & _ & J4). rewrite J4. clear - Hm. generalize 0%nat.
  induction J as [|J IH]; intros k; [constructor|]. cbn [seq map concat]. apply Forall_app. split; [|apply IH].
  destruct (Hm k) as [H1 H2]. unfold answer_of. cbn [frame_bytes]. constructor; [unfold byte; lia|]. constructor; [exact H1|]. constructor; [exact H2|]. constructor; [|constructor]. unfold byte. apply Z.mod_pos_bound. lia.
Qed.
Lemma urm_wire_l : forall F G c1 c2 id1 id2 m1 m2 cs a t0 sched tevs So Si m m' evs ys g' t ms n,
  1 <= F -> 1 <= G -> id1 = 0 \/ id1 = 1 -> id2 = 0 \/ id2 = 1 -> c_bits c1 = 3 -> c_bits c2 = 3 -> c_par c2 = c_par c1 ->
  0 <= c_ubrr c1 < 65536 -> 0 <= c_ubrr c2 < 65536 -> c_div c1 = 8 \/ c_div c1 = 16 -> c_div c2 = 8 \/ c_div c2 = 16 ->
  tolerable (speed_samples (c_div c2)) (speed_middle (c_div c2)) (last_bit 8 (c_par c1))
    (bit_time G (c_div c1) (c_ubrr c1)) (sample_time F (c_ubrr c2)) ->
  WireSpec.spaced (frame_time G c1) t0 cs -> a - sample_time F (c_ubrr c2) < t0 ->
  Forall (fun sw => forallb software sw = true) sched ->
  receiving F G (opened m1 id1 c1) id1 (opened m2 id2 c2) id2 cs a sched = Some tevs ->
  1 <= So <= 65535 -> 1 <= Si <= 65535 -> Forall gev_ok evs -> Si mod 4 = 0 \/ g_calm So Si (g_start m m') evs = true ->
  g_steps So Si (g_start m m') evs = ((ys, map snd tevs), g') ->
  tx_prompt So (xport_init m) false ys = true -> tx_quick So (xport_init m) false ys = true ->
  let B := c_div c2 * (match c_par c1 with POff => 9 | _ => 10 end) in
  rx_prompt (port_step Si) (port_init m') false (map snd tevs) = true -> rx_brief (port_step Si) B (port_init m') (-1) tevs = true ->
  HwRxSpec.served (2 * B) [] false (timed Si (port_init m') tevs) = true ->
  (forall i, byte (fst (ms i)) /\ byte (snd (ms i))) ->
  exists g, g' = Some g /\
    (Forall asks_distance (g_cmds g) -> Forall (fun d => snd d = true) (t_done (y_tx (g_tx g))) ->
     length (r_acc (p_rx (g_rx g))) = length (p_taken (g_rx g)) \/ Z.of_nat (length (p_taken (g_rx g))) <= Si - 1 ->
     map snd cs = firstn n (replies t ms 0 (frames (x_line (y_utx (g_tx g))))) ->
     exists j, (j <= length (g_cmds g))%nat /\
       filter answered (g_reports g) = map (fun i => (RSuccess, Some (34, fst (ms i), snd (ms i)))) (seq 0 j) /\
       delivered (g_reports g) = measured ms j /\
       (g_pc g = GIdle -> ring_length Si (r_ring (p_rx (g_rx g))) <= 3 -> unread (p_uart (g_rx g)) = [] ->
        x_line (y_utx (g_tx g)) = concat (g_cmds g) -> (4 * length (g_cmds g) <= n)%nat ->
        Forall (fun fr => fst fr + frame_time G c1 <= a + (Z.of_nat (length sched) - 1) * sample_time F (c_ubrr c2)) cs ->
        j = length (g_cmds g))).
Proof.
  intros F G c1 c2 id1 id2 m1 m2 cs a t0 sched tevs So Si m m' evs ys g' t ms n HF HG I1 I2 B1 B2 EP U1 U2 D1 D2 TOL SP BE SW RV HSo HSi OK CA E XP XQ B RP RB SE Hm.
  pose proof (prompt_tx _ _ _ XP XQ) as XO.
  assert (PO : port_polite Si (port_init m') false (map snd tevs) = true).
  { refine (receiving_polite_l F G _ id1 m2 id2 c2 cs a sched tevs Si m' I2 B2 U2 D2 SW RV RP _). rewrite EP. exact RB. }
  destruct (urm_run So Si HSo HSi _ _ _ _ _ _ OK CA E XO PO) as (g & seen & q & -> & XR & PR & PI & GI). exists g. split; [reflexivity|]. intros AD AC LL CS.
  destruct (sent_l So Si HSo _ _ _ XO XR GI AC) as (waiting & W & _).
  assert (BY : Forall is_byte (map snd cs)).
  { rewrite CS. pose proof (replies_bytes_l t ms _ _ _ AD W Hm) as K. rewrite <- (firstn_skipn n (replies t ms 0 (frames (x_line (y_utx (g_tx g)))))) in K. apply Forall_app in K. exact (proj1 K). }
  destruct (line_in_l F G c1 c2 id1 id2 m1 m2 cs a t0 sched tevs Si m' HF HG I1 I2 B1 B2 EP U1 U2 D1 D2 TOL SP BE SW BY RV HSi PO SE) as (c & HE & CH & LO).
  assert (CH2 : chars false (wire Si (port_init m') (map snd tevs)) = firstn (Nat.min c n) (replies t ms 0 (frames (x_line (y_utx (g_tx g)))))) by (rewrite CH, CS, firstn_firstn; reflexivity).
  destruct (urm_sensor_l So Si HSo HSi m m' evs ys (map snd tevs) (Some g) t ms (Nat.min c n) OK CA E XO PO LO Hm) as (g2 & G2 & Q). injection G2 as <-.
  destruct (Q AD AC LL CH2) as (j & Q1 & Q2 & Q3 & Q4). exists j. split; [exact Q1|]. split; [exact Q2|]. split; [exact Q3|].
  intros PC RL UN XL N FA. apply Q4; auto.
  assert (CL : (length cs <= c)%nat).
  { destruct HE as [H1 H2]. destruct (le_lt_dec (length cs) c) as [|LT]; [assumption|]. exfalso.
    destruct (nth_error cs c) as [[qq d]|] eqn:NT; [|apply nth_error_None in NT; lia].
    destruct (H2 c qq d NT) as [H3 _]. pose proof (proj1 (Forall_forall _ _) FA (qq, d) (nth_error_In _ _ NT)) as H4. cbn [fst] in H4. specialize (H3 H4). lia. }
  destruct (replies_l t ms _ _ _ AD W) as (J & J1 & J2 & J3 & J4). apply (f_equal (@length Z)) in CS. rewrite map_length, firstn_length, J4, concat4, map_length, seq_length in CS.
  assert (LC : length (concat (g_cmds g)) = (4 * length (g_cmds g))%nat).
  { clear - AD. induction AD as [|x xs (d & _ & ->) A IH]; [reflexivity|]. cbn [concat]. rewrite app_length, IH. cbn [length]. lia. }
  rewrite XL, LC in J1, J2. lia.
Qed.
