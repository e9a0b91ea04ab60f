(** Both streams on one USART: the invariants of the two streams hold side by side. *)
Require Import ZArith List Bool Lia ZifyBool.
Import ListNotations.
From Verif Require Import Base BaseFacts RingModel RingSpec RingProofs StreamModel StreamSpec StreamProofs StreamMore AvrModel AvrSpec AvrProofs DuplexModel DuplexSpec.
Open Scope Z_scope.
Local Ltac Zify.zify_post_hook ::= idtac.

Lemma tx_mono : forall S s s' seen q, tx_inv S s seen q ->
  t_ring s' = t_ring s -> t_pc s' = t_pc s -> t_sent s' = t_sent s -> t_done s' = t_done s ->
  (t_pc s = TEnable \/ (t_ien s = true -> t_ien s' = true)) -> tx_inv S s' seen q.
Proof.
  intros S s s' seen q [B H] E1 E2 E3 E4 M. split; [exact B|]. rewrite E1, E2, E3, E4.
  destruct (t_pc s) eqn:P; try exact H; destruct M as [M|M]; try discriminate M.
  - destruct H as (H1 & H2 & H3). split; [exact H1|]. split; [exact H2|]. auto.
  - destruct H as (H0 & H1 & H2 & H3). split; [exact H0|]. split; [exact H1|]. split; [exact H2|]. auto.
Qed.
Lemma rx_mono : forall S s s' seen q, rx_inv S s seen q ->
  r_ring s' = r_ring s -> r_pc s' = r_pc s -> r_got s' = r_got s -> r_acc s' = r_acc s -> rx_inv S s' seen q.
Proof. intros S s s' seen q [B H] E1 E2 E3 E4. split; [exact B|]. rewrite E1, E2, E3, E4. exact H. Qed.
Lemma tx_seen : forall S s seen q, tx_inv S s seen q ->
  tx_inv S s (tx_in_window S s && tx_in_window S s && (seen || false)) q.
Proof.
  intros S s seen q [B H]. split; [exact B|]. unfold tx_in_window. destruct (t_pc s) as [|v|v|v|v|]; try exact H.
  destruct H as (H1 & H2 & H3 & H4). split; [exact H1|]. split; [exact H2|]. split; [exact H3|]. intros E.
  rewrite orb_false_r. destruct (Z.geb_spec (rb_wr (t_ring s)) S); [|lia]. cbn [andb]. auto.
Qed.
Lemma rx_seen : forall S s seen q, rx_inv S s seen q ->
  rx_inv S s (rx_in_window S s && rx_in_window S s && (seen || false)) q.
Proof.
  intros S s seen q [B H]. split; [exact B|]. unfold rx_in_window. destruct (r_pc s) as [| |ge| |v|v|]; try exact H.
  destruct H as (H0 & H1 & H2 & H3 & H4). split; [exact H0|]. split; [exact H1|]. split; [exact H2|]. split; [exact H3|]. intros E.
  rewrite orb_false_r. destruct (Z.geb_spec (rb_rd (r_ring s)) S); [|lia]. cbn [andb]. auto.
Qed.

(** The handler writes TXB8 only. *)
Lemma wi_bits : forall b v i, byte b -> byte (fst (write_internal b v)) /\
  (1 <= i < 8 -> Z.testbit (fst (write_internal b v)) i = Z.testbit b i).
Proof.
  intros b v i B. unfold write_internal. destruct (nine b); cbn [fst].
  - split; [apply r_put_byte|]. intros H. rewrite r_put_bits by lia. destruct (Z.eqb_spec i 0); [lia|reflexivity].
  - split; [exact B|reflexivity].
Qed.
Lemma is_bit : forall b k, byte b -> 0 <= k -> r_is b k = Z.testbit b k.
Proof. intros b k B K. apply r_is_bit; [exact K|]. unfold byte in B. lia. Qed.

(** What a loaded value tells about the register. *)
Definition fits (b x : Z) : Prop := byte x /\ (forall i, 1 <= i < 8 -> i <> 5 -> Z.testbit x i = Z.testbit b i) /\
  (Z.testbit b 5 = true -> Z.testbit x 5 = true).
Lemma fits_refl : forall b, byte b -> fits b b. Proof. intros b B. split; [exact B|]. auto. Qed.
Definition rx_off (d : dxs) : bool :=
  match r_pc (d_rx d), d_set d with REnable, SClr => true | REnable, SGot2 _ => true | _, _ => false end.
Definition oth_off (i : Z) (d : dxs) : Prop := match d_oth d with Some (k, _) => k <> i | None => True end.

Section P.
Variables St Sr : Z.
Hypothesis HSt : 1 <= St <= 65535.
Hypothesis HSr : 1 <= Sr <= 65535.

Record dinv (d : dxs) (st sr : bool) (qt qr : list Z) : Prop := mkDI {
  i_b : byte (d_b d);
  i_tx : tx_inv St (txof d) st qt;
  i_rx : rx_inv Sr (rxof d) sr qr;
  i_one : (t_pc (d_tx d) = TIdle \/ (r_pc (d_rx d) = RIdle /\ d_oth d = None)) /\ (r_pc (d_rx d) = RIdle \/ d_oth d = None);
  i_oth : match d_oth d with Some (k, _) => k = 3 \/ k = 4 \/ k = 6 | None => True end;
  i_set : d_set d = SNone \/ t_pc (d_tx d) = TEnable \/ r_pc (d_rx d) = REnable \/ d_oth d <> None;
  i_fit : match d_set d with SGot1 x | SGot2 x => fits (d_b d) x | _ => True end;
  i_v : match d_set d, d_oth d with SClr, Some (_, false) => False | SGot2 _, Some (_, false) => False | _, _ => True end;
  i_first : forall v l, r_got (d_rx d) = v :: l -> v = -1;
  i_none : r_got (d_rx d) = [] -> r_acc (d_rx d) = [];
  i_on : Z.testbit (d_b d) 7 = true -> r_got (d_rx d) <> [];
  i_off : rx_off d = false -> r_got (d_rx d) <> [] -> Z.testbit (d_b d) 7 = true;
  i_clr : rx_off d = true -> Z.testbit (d_b d) 7 = false
}.


Lemma fits_clr : forall b x k, byte b -> fits b x -> 0 <= k < 8 -> fits (r_clr x k) (r_clr x k) /\
  (forall i, 1 <= i < 8 -> i <> 5 -> i <> k -> Z.testbit (r_clr x k) i = Z.testbit b i) /\
  (k <> 5 -> Z.testbit b 5 = true -> Z.testbit (r_clr x k) 5 = true) /\ Z.testbit (r_clr x k) k = false.
Proof.
  intros b x k B (X & F & F5) K. split; [apply fits_refl, r_clr_byte|]. split; [|split].
  - intros i I N5 Nk. rewrite r_clr_bits by lia. destruct (Z.eqb_spec i k); [congruence|]. auto.
  - intros N H. rewrite r_clr_bits by lia. destruct (Z.eqb_spec 5 k); [congruence|]. auto.
  - rewrite r_clr_bits by lia. now rewrite Z.eqb_refl.
Qed.
Lemma fits_or : forall b x k, byte b -> fits b x -> 0 <= k < 8 -> byte (r_or x k) /\
  (forall i, 1 <= i < 8 -> i <> 5 -> i <> k -> Z.testbit (r_or x k) i = Z.testbit b i) /\
  (Z.testbit b 5 = true -> Z.testbit (r_or x k) 5 = true) /\ Z.testbit (r_or x k) k = true.
Proof.
  intros b x k B (X & F & F5) K. split; [apply r_or_byte|]. split; [|split].
  - intros i I N5 Nk. rewrite r_or_bits by lia. destruct (Z.eqb_spec i k); [congruence|]. auto.
  - intros H. rewrite r_or_bits by lia. destruct (Z.eqb_spec 5 k); [reflexivity|]. auto.
  - rewrite r_or_bits by lia. now rewrite Z.eqb_refl.
Qed.

Lemma tx_main_keeps : forall s s', tx_main St s = Some s' -> t_pc s <> TEnable -> t_ien s' = t_ien s.
Proof.
  intros s s' E N. unfold tx_main in E. destruct (t_pc s); try congruence.
  all: repeat match goal with H : (if ?b then _ else _) = Some _ |- _ => destruct b; [|try discriminate] end; injection E as <-; reflexivity.
Qed.
Lemma rx_main_got : forall s s', rx_main Sr s = Some s' -> r_acc s' = r_acc s /\
  (r_got s' = r_got s \/ (exists v, r_pc s = RWrap v /\ r_got s' = r_got s ++ [s16 v]) \/ (r_pc s = REnable /\ r_got s' = r_got s ++ [-1])).
Proof.
  intros s s' E. unfold rx_main in E. destruct (r_pc s) eqn:P.
  all: repeat match goal with H : (if ?b then _ else _) = Some _ |- _ => destruct b; [|try discriminate] end; injection E as <-; cbn [r_acc r_got]; eauto 6.
Qed.

(** A step of the streams' own work that leaves UCSRB alone. *)
Lemma tx_part : forall d st sr qt qr s qt' st', dinv d st sr qt qr -> d_set d = SNone \/ t_pc (d_tx d) <> TEnable ->
  tx_inv St s st' qt' -> (t_ien s = true -> r_is (d_b d) 5 = true) ->
  (t_pc s = TIdle \/ (r_pc (d_rx d) = RIdle /\ d_oth d = None)) -> (d_set d <> SNone -> t_pc (d_tx d) <> TEnable) ->
  dinv (put_tx d s) st' sr qt' qr.
Proof.
  intros d st sr qt qr s qt' st' [] S X I O C. unfold put_tx. constructor; cbn [d_tx d_rx d_b d_set d_oth]; auto.
  - eapply tx_mono; [exact X|reflexivity..|]. now right.
  - destruct i_one0 as [_ I2]. auto.
  - destruct i_set0 as [A|[A|A]]; auto. destruct S as [S|S]; [now left|contradiction].
Qed.

Definition on_job (d : dxs) (k : Z) (v : bool) : Prop :=
  (k = 5 /\ v = true /\ t_pc (d_tx d) = TEnable) \/ (k = 7 /\ v = true /\ t_pc (d_tx d) = TIdle /\ r_pc (d_rx d) = REnable) \/
  ((k = 3 \/ k = 4 \/ k = 6) /\ t_pc (d_tx d) = TIdle /\ r_pc (d_rx d) = RIdle /\ d_oth d = Some (k, v)).
Lemma set_part : forall d st sr qt qr k v, dinv d st sr qt qr -> on_job d k v ->
  let (d', l) := set_step d k v in d_tx d' = d_tx d /\ d_rx d' = d_rx d /\ d_oth d' = d_oth d /\
  if l then d_set d' = SNone /\ byte (d_b d') /\ (forall i, 1 <= i < 8 -> i <> 5 -> i <> k -> Z.testbit (d_b d') i = Z.testbit (d_b d) i) /\
            (k <> 5 -> Z.testbit (d_b d) 5 = true -> Z.testbit (d_b d') 5 = true) /\ Z.testbit (d_b d') k = v
  else dinv d' st sr qt qr /\ (forall i, 1 <= i < 8 -> i <> 5 -> i <> k -> Z.testbit (d_b d') i = Z.testbit (d_b d) i).
Proof.
  intros d st sr qt qr k v D J. assert (K : 0 <= k < 8) by (unfold on_job in J; lia).
  pose proof (i_b _ _ _ _ _ D) as B. pose proof (i_fit _ _ _ _ _ D) as F.
  assert (V : v = true -> match d_oth d with Some (_, false) => False | _ => True end).
  { intros ->. destruct J as [(_ & _ & J)|[(_ & _ & _ & J)|(_ & _ & _ & ->)]]; [..|exact Logic.I].
    - destruct (i_one _ _ _ _ _ D) as [[Q|[_ ->]] _]; [congruence|exact Logic.I].
    - destruct (i_one _ _ _ _ _ D) as [_ [Q| ->]]; [congruence|exact Logic.I]. }
  assert (JS : t_pc (d_tx d) = TEnable \/ r_pc (d_rx d) = REnable \/ d_oth d <> None).
  { destruct J as [J|[J|J]]; [left|right; left|right; right]; try apply J. destruct J as (_ & _ & _ & ->). discriminate. }
  unfold set_step. destruct (d_set d) as [|x| |x] eqn:S.
  - (* load *) unfold put_b; cbn [d_tx d_rx d_oth d_b]. do 3 (split; [reflexivity|]). split; [|auto]. destruct D.
    constructor; cbn [d_tx d_rx d_b d_set d_oth]; auto using fits_refl.
    + unfold rx_off in *. rewrite S in *. cbn [d_rx d_set] in *. destruct (r_pc (d_rx d)); auto.
    + unfold rx_off. cbn [d_rx d_set]. destruct (r_pc (d_rx d)); discriminate.
  - (* store cleared *) destruct (fits_clr (d_b d) x k B F K) as ((B' & _) & F1 & F2 & F3).
    destruct v.
    + unfold put_b; cbn [d_tx d_rx d_oth d_b]. do 3 (split; [reflexivity|]). split; [|exact F1].
      assert (P7 : r_pc (d_rx d) = REnable -> t_pc (d_tx d) = TIdle).
      { destruct (i_one _ _ _ _ _ D) as [[Q|[Q _]] _]; [auto|]. rewrite Q. discriminate. }
      assert (N7 : rx_off (mkD (d_tx d) (d_rx d) (r_clr x k) SClr (d_oth d)) = true -> k = 7).
      { unfold rx_off. cbn [d_rx d_set]. destruct (r_pc (d_rx d)) eqn:Q; try discriminate. intros _.
        destruct J as [(_ & _ & J)|[J|J]]; [rewrite (P7 eq_refl) in J; discriminate|apply J|]. destruct J as (_ & _ & J & _). congruence. }
      assert (N7' : rx_off (mkD (d_tx d) (d_rx d) (r_clr x k) SClr (d_oth d)) = false -> k <> 7).
      { unfold rx_off. cbn [d_rx d_set]. destruct J as [J|[(_ & _ & _ & ->)|J]]; [lia|discriminate|lia]. }
      assert (O : rx_off d = false) by (unfold rx_off; rewrite S; destruct (r_pc (d_rx d)); reflexivity).
      destruct D. constructor; cbn [d_tx d_rx d_b d_set d_oth]; auto.
      * eapply tx_mono; [exact i_tx0|reflexivity..|]. cbn [t_pc t_ien txof d_b d_tx].
        destruct J as [J|J]; [left; apply J|right]. rewrite !is_bit by (auto; lia). apply F2. lia.
      * specialize (V eq_refl). exact V.
      * destruct (Z.eq_dec k 7) as [->|N]; [rewrite F3; discriminate|]. rewrite F1 by lia. exact i_on0.
      * intros H. rewrite F1 by (try lia; specialize (N7' H); lia). auto.
      * intros H. specialize (N7 H). subst k. exact F3.
    + unfold put_b; cbn [d_tx d_rx d_oth d_b d_set]. repeat (split; [first [reflexivity|exact B'|exact F1|exact F2]|]). exact F3.
  - (* load *) unfold put_b; cbn [d_tx d_rx d_oth d_b]. do 3 (split; [reflexivity|]). split; [|auto]. destruct D.
    constructor; cbn [d_tx d_rx d_b d_set d_oth]; auto using fits_refl.
    + rewrite S in i_v0. exact i_v0.
    + unfold rx_off in *. rewrite S in *. cbn [d_rx d_set] in *. destruct (r_pc (d_rx d)); auto.
    + unfold rx_off in *. rewrite S in *. cbn [d_rx d_set] in *. destruct (r_pc (d_rx d)); auto.
  - destruct (fits_or (d_b d) x k B F K) as (B' & F1 & F2 & F3).
    assert (v = true) as ->. { destruct v; [reflexivity|]. exfalso. destruct J as [J|[J|(_ & _ & _ & J)]]; [destruct J as (_ & J & _); discriminate J..|]. pose proof (i_v _ _ _ _ _ D) as V'. rewrite S, J in V'. exact V'. }
    unfold put_b; cbn [d_tx d_rx d_oth d_b d_set]. repeat (split; [first [reflexivity|exact B'|exact F1|intros _; exact F2]|]). exact F3.
Qed.

Lemma dseen : forall d st sr qt qr, dinv d st sr qt qr ->
  dinv d (tx_in_window St (d_tx d) && tx_in_window St (d_tx d) && (st || false)) (rx_in_window Sr (d_rx d) && rx_in_window Sr (d_rx d) && (sr || false)) qt qr.
Proof. intros d st sr qt qr []. constructor; auto; [exact (tx_seen _ _ _ _ i_tx0)|exact (rx_seen _ _ _ _ i_rx0)]. Qed.

Lemma txof_id : forall d s, t_ien s = r_is (d_b d) 5 -> txof (put_tx d s) = s.
Proof. intros d [r i p a b] E. unfold txof, put_tx. cbn [d_tx d_b t_ring t_ien t_pc t_sent t_done] in *. now rewrite <- E. Qed.
Lemma rest_spec : forall d, at_rest d = true -> t_pc (d_tx d) = TIdle /\ r_pc (d_rx d) = RIdle /\ d_oth d = None.
Proof. intros d. unfold at_rest. destruct (t_pc (d_tx d)), (r_pc (d_rx d)), (d_oth d); try discriminate; auto. Qed.

(** A step of Read or of its handler, when UCSRB keeps. *)
Lemma rx_part : forall d st sr qt qr s sr' qr', dinv d st sr qt qr -> rx_inv Sr s sr' qr' ->
  (forall v l, r_got s = v :: l -> v = -1) -> (r_got s = [] -> r_acc s = []) -> (r_got s = [] <-> r_got (d_rx d) = []) ->
  (r_pc s = RIdle \/ (t_pc (d_tx d) = TIdle /\ d_oth d = None)) ->
  (r_pc s = r_pc (d_rx d) \/ r_pc (d_rx d) <> REnable /\ t_pc (d_tx d) <> TEnable /\ d_oth d = None) -> dinv (put_rx d s) st sr' qt qr'.
Proof.
  intros d st sr qt qr s sr' qr' [] X F1 F2 F3 O C. unfold put_rx.
  assert (E : rx_off (mkD (d_tx d) s (d_b d) (d_set d) (d_oth d)) = rx_off d).
  { unfold rx_off. cbn [d_rx d_set]. destruct C as [->|(C1 & C2 & C3)]; [reflexivity|].
    destruct i_set0 as [->|[A|[A|A]]]; try congruence. destruct (r_pc s), (r_pc (d_rx d)); reflexivity. }
  constructor; cbn [d_tx d_rx d_b d_set d_oth]; rewrite ?E; auto.
  - destruct i_one0 as [I1 I2]. split; [|destruct O as [O|[_ O]]; auto]. destruct O as [O|[O _]]; [|now left].
    destruct I1 as [I1|[_ I1]]; [now left|right; now split].
  - destruct C as [->|(C1 & C2 & C3)]; [exact i_set0|]. destruct i_set0 as [A|[A|[A|A]]]; try contradiction. now left.
  - rewrite F3. exact i_on0.
  - rewrite F3. exact i_off0.
Qed.

Lemma d_step_inv : forall d st sr qt qr e, dinv d st sr qt qr -> switch e ->
  (tx_in_window St (d_tx d) && (match e with DUdre => r_is (d_b d) 5 | _ => false end) && st) ||
  (rx_in_window Sr (d_rx d) && (match e with DRxc _ _ => true | _ => false end) && sr) = false ->
  exists d' qt' qr', d_step St Sr d e = Some d' /\
    dinv d' (tx_in_window St (d_tx d') && tx_in_window St (d_tx d) && (st || (match e with DUdre => r_is (d_b d) 5 | _ => false end)))
            (rx_in_window Sr (d_rx d') && rx_in_window Sr (d_rx d) && (sr || (match e with DRxc _ _ => true | _ => false end))) qt' qr' /\
    (forall i, 1 <= i < 8 -> i <> 5 -> i <> 7 -> oth_off i d -> unswitched i e -> Z.testbit (d_b d') i = Z.testbit (d_b d) i /\ oth_off i d').
Proof.
  intros d st sr qt qr e D W G. apply orb_false_iff in G. destruct G as [GT GR]. pose proof (dseen _ _ _ _ _ D) as DS.
  assert (SAME : match e with DUdre | DRxc _ _ => False | _ => True end -> d_step St Sr d e = Some d -> exists d' qt' qr', d_step St Sr d e = Some d' /\
    dinv d' (tx_in_window St (d_tx d') && tx_in_window St (d_tx d) && (st || (match e with DUdre => r_is (d_b d) 5 | _ => false end)))
            (rx_in_window Sr (d_rx d') && rx_in_window Sr (d_rx d) && (sr || (match e with DRxc _ _ => true | _ => false end))) qt' qr' /\
    (forall i, 1 <= i < 8 -> i <> 5 -> i <> 7 -> oth_off i d -> unswitched i e -> Z.testbit (d_b d') i = Z.testbit (d_b d) i /\ oth_off i d')).
  { intros Q E. exists d, qt, qr. split; [exact E|]. destruct e; try contradiction; (split; [exact DS|auto]). }
  assert (B : byte (d_b d)) by apply D.
  destruct e as [v| |k v| | |data ok].
  - (* Write *) cbn [d_step] in *. destruct (at_rest d) eqn:R; [|apply SAME; auto]. apply rest_spec in R. destruct R as (R1 & R2 & R3).
    destruct (tx_step_inv St HSt (txof d) st qt (TxStart v) (i_tx _ _ _ _ _ D)) as (s & q' & E & X); [now rewrite andb_false_r|].
    rewrite E. cbn [option_map]. exists (put_tx d s), q', qr. split; [reflexivity|]. split; [|auto].
    cbn [tx_step t_pc txof] in E. rewrite R1 in E. injection E as <-.
    eapply tx_part; [exact DS|right; rewrite R1; discriminate|exact X|auto|right; split; auto|rewrite R1; discriminate].
  - (* Read *) cbn [d_step] in *. destruct (at_rest d) eqn:R; [|apply SAME; auto]. apply rest_spec in R. destruct R as (R1 & R2 & R3).
    destruct (rx_step_inv Sr HSr (rxof d) sr qr RxStart (i_rx _ _ _ _ _ D)) as (s & q' & E & X); [now rewrite andb_false_r|].
    rewrite E. cbn [option_map]. exists (put_rx d s), qt, q'. split; [reflexivity|]. split; [|auto].
    cbn [rx_step r_pc rxof] in E. rewrite R2 in E. injection E as <-.
    eapply rx_part; [exact DS|exact X|apply D|apply D|reflexivity|right; auto|]. right. rewrite R1, R2. repeat split; (discriminate || auto).
  - (* a switch *) cbn [d_step] in *. destruct (at_rest d) eqn:R; [|apply SAME; auto]. apply rest_spec in R. destruct R as (R1 & R2 & R3).
    eexists _, qt, qr. split; [reflexivity|]. cbn [d_b]. split; [|intros i I1 I2 I3 _ U; split; [reflexivity|exact U]]. cbn [switch] in W.
    cbn [d_tx d_rx]. assert (SN : d_set d = SNone) by (destruct (i_set _ _ _ _ _ D) as [A|[A|[A|A]]]; congruence).
    clear D SAME. destruct DS. constructor; cbn [d_tx d_rx d_b d_set d_oth]; auto. rewrite SN. exact Logic.I.
  - (* a step *) cbn [d_step] in *. clear GT GR W.
    assert (TXS : t_pc (d_tx d) <> TIdle -> t_pc (d_tx d) <> TEnable -> d_main St Sr d = option_map (put_tx d) (tx_main St (txof d)) -> exists d' qt' qr', d_main St Sr d = Some d' /\
      dinv d' (tx_in_window St (d_tx d') && tx_in_window St (d_tx d) && (st || false)) (rx_in_window Sr (d_rx d') && rx_in_window Sr (d_rx d) && (sr || false)) qt' qr' /\
      (forall i, 1 <= i < 8 -> i <> 5 -> i <> 7 -> oth_off i d -> unswitched i DStep -> Z.testbit (d_b d') i = Z.testbit (d_b d) i /\ oth_off i d')).
    { intros N1 N2 ->. destruct (tx_step_inv St HSt (txof d) st qt TxStep (i_tx _ _ _ _ _ D)) as (s & q' & E & X); [now rewrite andb_false_r|].
      cbn [tx_step] in E. rewrite E. cbn [option_map]. exists (put_tx d s), q', qr. split; [reflexivity|]. split; [|auto].
      eapply tx_part; [exact DS|now right|exact X| |right|auto].
      - rewrite (tx_main_keeps _ _ E N2). auto.
      - destruct (i_one _ _ _ _ _ D) as [[Q|Q] _]; [contradiction|exact Q]. }
    assert (RXS : t_pc (d_tx d) = TIdle -> r_pc (d_rx d) <> RIdle -> r_pc (d_rx d) <> REnable -> d_main St Sr d = option_map (put_rx d) (rx_main Sr (rxof d)) -> exists d' qt' qr', d_main St Sr d = Some d' /\
      dinv d' (tx_in_window St (d_tx d') && tx_in_window St (d_tx d) && (st || false)) (rx_in_window Sr (d_rx d') && rx_in_window Sr (d_rx d) && (sr || false)) qt' qr' /\
      (forall i, 1 <= i < 8 -> i <> 5 -> i <> 7 -> oth_off i d -> unswitched i DStep -> Z.testbit (d_b d') i = Z.testbit (d_b d) i /\ oth_off i d')).
    { intros N0 N1 N2 ->. destruct (rx_step_inv Sr HSr (rxof d) sr qr RxStep (i_rx _ _ _ _ _ D)) as (s & q' & E & X); [now rewrite andb_false_r|].
      cbn [rx_step] in E. rewrite E. cbn [option_map]. exists (put_rx d s), qt, q'. split; [reflexivity|]. split; [|auto].
      assert (OTH : d_oth d = None) by (destruct (i_one _ _ _ _ _ D) as [_ [Q|Q]]; [contradiction|exact Q]).
      destruct (rx_main_got _ _ E) as [A [GT|[(v & PW & GT)|[PE _]]]]; [| |contradiction].
      - cbn [rxof r_got r_acc] in *. eapply rx_part; [exact DS|exact X|rewrite GT; apply D|rewrite GT, A; apply D|now rewrite GT|right; auto|].
        right. rewrite N0. repeat split; (discriminate || auto).
      - cbn [rxof r_got r_acc r_pc] in *.
        assert (NE : r_got (d_rx d) <> []).
        { intros Z0. pose proof (i_none _ _ _ _ _ D Z0) as A0. destruct (i_rx _ _ _ _ _ D) as [_ H]. cbn [r_pc rxof r_acc] in H. rewrite PW in H.
          destruct H as (_ & _ & _ & H & _). rewrite A0 in H. symmetry in H. apply app_eq_nil in H. destruct H as [_ H]. discriminate H. }
        eapply rx_part; [exact DS|exact X| | | |right; auto|right; rewrite N0; repeat split; (discriminate || auto)].
        + intros w l EQ. rewrite GT in EQ. destruct (r_got (d_rx d)) as [|w0 l0] eqn:G0; [contradiction|]. cbn [app] in EQ. injection EQ as <- _.
          eapply (i_first _ _ _ _ _ D). exact G0.
        + rewrite GT. intros EQ. destruct (r_got (d_rx d)); discriminate EQ.
        + rewrite GT. split; [intros EQ; destruct (r_got (d_rx d)); discriminate EQ|contradiction]. }
    destruct (t_pc (d_tx d)) eqn:PT.
    2-5: apply TXS; [discriminate|discriminate|unfold d_main; now rewrite PT].
    + destruct (r_pc (d_rx d)) eqn:PR.
      2-6: apply RXS; [reflexivity|discriminate|discriminate|unfold d_main; now rewrite PT, PR].
      * clear TXS RXS. unfold d_main in *. rewrite PT, PR in *. destruct (d_oth d) as [[k v]|] eqn:OT; [|apply SAME; auto].
        assert (J : on_job d k v).
        { right. right. pose proof (i_oth _ _ _ _ _ D) as W. rewrite OT in W. repeat split; auto. }
        pose proof (set_part _ _ _ _ _ _ _ DS J) as SP. destruct (set_step d k v) as [d' l]. destruct SP as (E1 & E2 & E3 & SP).
        destruct l.
        -- destruct SP as (S1 & S2 & S3 & S4 & S5). eexists _, qt, qr. split; [reflexivity|]. cbn [d_tx d_rx d_b].
           assert (K : k = 3 \/ k = 4 \/ k = 6) by (destruct J as [J|[J|J]]; [destruct J as (_ & _ & J); congruence|destruct J as (_ & _ & _ & J); congruence|apply J]).
           split; [|intros i I1 I2 I3 O _; unfold oth_off in *; rewrite OT in O; cbn [d_oth]; split; [apply S3; auto|exact Logic.I]].
           assert (O' : rx_off d = false) by (unfold rx_off; rewrite PR; reflexivity).
           clear D SAME. destruct DS. rewrite E1, E2, S1. constructor; cbn [d_tx d_rx d_b d_set d_oth]; auto.
           ++ eapply tx_mono; [exact i_tx0|reflexivity..|]. right. cbn [t_ien txof d_b]. rewrite !is_bit by (auto; lia). apply S4. lia.
           ++ rewrite S3 by lia. exact i_on0.
           ++ rewrite S3 by lia. auto.
           ++ unfold rx_off. cbn [d_rx d_set]. rewrite PR. discriminate.
        -- destruct SP as [S1 S2]. exists d', qt, qr. split; [reflexivity|]. rewrite E1, E2 in *. split; [exact S1|].
           intros i I1 I2 I3 O _. unfold oth_off in *. rewrite OT in O. rewrite E3, OT. split; [apply S2; auto|exact O].
      * clear TXS RXS. unfold d_main in *. rewrite PT, PR in *.
        assert (J : on_job d 7 true) by (right; left; auto).
        pose proof (set_part _ _ _ _ _ _ _ DS J) as SP. destruct (set_step d 7 true) as [d' l]. destruct SP as (E1 & E2 & E3 & SP).
        destruct l.
        -- destruct SP as (S1 & S2 & S3 & S4 & S5). unfold rx_main. cbn [rxof r_pc]. rewrite E2, PR. cbn [option_map].
           destruct (rx_step_inv Sr HSr (rxof d) sr qr RxStep (i_rx _ _ _ _ _ D)) as (s & q' & E & X); [now rewrite andb_false_r|].
           unfold rx_step, rx_main in E. cbn [rxof r_pc] in E. rewrite PR in E. injection E as <-.
           eexists _, qt, q'. split; [reflexivity|]. unfold put_rx. cbn [d_tx d_rx d_b].
           split; [|intros i I1 I2 I3 O _; unfold oth_off in *; cbn [d_oth]; rewrite E3; split; [apply S3; auto|exact O]].
           assert (OTH : d_oth d = None) by (destruct (i_one _ _ _ _ _ D) as [_ [Q|Q]]; [congruence|exact Q]).
           clear D SAME. destruct DS. rewrite E1, E3, S1. cbn [rxof r_ring r_got r_acc] in *. rewrite ?E2 in *.
           constructor; cbn [d_tx d_rx d_b d_set d_oth r_got r_acc r_pc]; auto.
           ++ eapply tx_mono; [exact i_tx0|reflexivity..|]. right. cbn [t_ien txof d_b]. rewrite !is_bit by (auto; lia). apply S4. lia.
           ++ intros w l EQ. destruct (r_got (d_rx d)) as [|w0 l0] eqn:G0; cbn [app] in EQ; injection EQ as <- _; [reflexivity|]. eapply i_first0. reflexivity.
           ++ intros EQ. destruct (r_got (d_rx d)); discriminate EQ.
           ++ intros _ EQ. destruct (r_got (d_rx d)); discriminate EQ.
           ++ unfold rx_off. cbn [d_rx d_set r_pc]. discriminate.
        -- destruct SP as [S1 S2]. exists d', qt, qr. split; [reflexivity|]. rewrite E1, E2 in *. split; [exact S1|].
           intros i I1 I2 I3 O _. unfold oth_off in *. rewrite E3. split; [apply S2; auto|exact O].
    + clear TXS RXS. unfold d_main in *. rewrite PT in *.
      assert (J : on_job d 5 true) by (left; auto).
      pose proof (set_part _ _ _ _ _ _ _ DS J) as SP. destruct (set_step d 5 true) as [d' l]. destruct SP as (E1 & E2 & E3 & SP).
      destruct l.
      * destruct SP as (S1 & S2 & S3 & S4 & S5). unfold tx_main. cbn [txof t_pc]. rewrite E1, PT. cbn [option_map].
        destruct (tx_step_inv St HSt (txof d) st qt TxStep (i_tx _ _ _ _ _ D)) as (s & q' & E & X); [now rewrite andb_false_r|].
        unfold tx_step, tx_main in E. cbn [txof t_pc] in E. rewrite PT in E. injection E as <-.
        eexists _, q', qr. split; [reflexivity|]. unfold put_tx. cbn [d_tx d_rx d_b].
        split; [|intros i I1 I2 I3 O _; unfold oth_off in *; cbn [d_oth]; rewrite E3; split; [apply S3; auto|exact O]].
        assert (ID : r_pc (d_rx d) = RIdle /\ d_oth d = None) by (destruct (i_one _ _ _ _ _ D) as [[Q|Q] _]; [congruence|exact Q]).
        assert (O' : rx_off d = false) by (unfold rx_off; rewrite (proj1 ID); reflexivity).
        clear D SAME. destruct DS. rewrite E2, E3, S1. cbn [txof t_ring t_sent t_done] in *. rewrite ?E1 in *.
        constructor; cbn [d_tx d_rx d_b d_set d_oth t_pc]; auto.
        -- eapply tx_mono; [exact X|reflexivity..|]. right. cbn [t_ien txof d_b]. intros _. now rewrite is_bit by (auto; lia).
        -- destruct ID as [ID1 ID2]. auto.
        -- rewrite S3 by lia. exact i_on0.
        -- intros _. rewrite S3 by lia. auto.
        -- unfold rx_off. cbn [d_rx d_set]. rewrite (proj1 ID). discriminate.
      * destruct SP as [S1 S2]. exists d', qt, qr. split; [reflexivity|]. rewrite E1, E2 in *. split; [exact S1|].
        intros i I1 I2 I3 O _. unfold oth_off in *. rewrite E3. split; [apply S2; auto|exact O].
  - (* the data register empty *) clear SAME W GR. cbn [d_step]. unfold d_udre.
    destruct (r_is (d_b d) 5) eqn:ON.
    + destruct (tx_step_inv St HSt (txof d) st qt TxIsr (i_tx _ _ _ _ _ D)) as (s & q' & E & X); [cbn [txof t_ien]; rewrite ON; exact GT|].
      cbn [txof t_ien] in X. rewrite ON in X. cbn [tx_step] in E. rewrite E. eexists _, q', qr. split; [reflexivity|]. cbn [d_tx d_rx d_b].
      assert (PCS : t_pc s = t_pc (d_tx d)).
      { unfold tx_isr in E. destruct (t_ien (txof d)); [|now injection E as <-]. destruct (negb _); [|now injection E as <-].
        destruct (ring_read St (t_ring (txof d))) as [[r v]|]; [now injection E as <-|discriminate E]. }
      set (b := if t_ien s then fst (write_internal (d_b d) (last (t_sent s) 0)) else r_put (d_b d) 5 false).
      assert (BB : byte b /\ (forall i, 1 <= i < 8 -> i <> 5 -> Z.testbit b i = Z.testbit (d_b d) i) /\ Z.testbit b 5 = t_ien s).
      { unfold b. destruct (t_ien s).
        - destruct (wi_bits (d_b d) (last (t_sent s) 0) 5 B) as [B1 B2]. split; [exact B1|]. split; [intros i I1 _; now apply wi_bits|].
          rewrite B2 by lia. now rewrite <- is_bit by (auto; lia).
        - split; [apply r_put_byte|]. split; [intros i I1 I2|]; rewrite r_put_bits by lia; [destruct (Z.eqb_spec i 5); [lia|reflexivity]|reflexivity]. }
      destruct BB as (B1 & B2 & B3). clearbody b.
      split; [|intros i I1 I2 I3 O _; split; [now apply B2|exact O]].
      assert (OO : rx_off (mkD s (d_rx d) b (d_set d) (d_oth d)) = rx_off d) by reflexivity.
      clear D. destruct DS. constructor; rewrite ?OO; cbn [d_tx d_rx d_b d_set d_oth]; rewrite ?PCS; auto.
      * eapply tx_mono; [exact X|reflexivity..|]. right. cbn [t_ien txof d_b]. rewrite is_bit by (auto; lia). now rewrite B3.
      * destruct (d_set d); auto; destruct i_fit0 as (F1 & F2 & F3); (split; [exact F1|]); (split; [intros i I1 I2; rewrite B2 by lia; now apply F2|]);
          intros _; apply F3; now rewrite <- is_bit by (auto; lia).
      * rewrite B2 by lia. exact i_on0.
      * rewrite B2 by lia. exact i_off0.
      * rewrite B2 by lia. exact i_clr0.
    + exists d, qt, qr. split; [reflexivity|]. split; [exact DS|auto].
  - (* a character *) clear SAME W GT. cbn [d_step].
    destruct (rx_step_inv Sr HSr (rxof d) sr qr (RxIsr data ok) (i_rx _ _ _ _ _ D)) as (s & q' & E & X); [exact GR|].
    cbn [rx_step] in E. rewrite E. cbn [option_map]. exists (put_rx d s), qt, q'. split; [reflexivity|]. split; [|auto].
    assert (K : r_pc s = r_pc (d_rx d) /\ r_got s = r_got (d_rx d) /\ (r_acc s = r_acc (d_rx d) \/ Z.testbit (d_b d) 7 = true)).
    { unfold rx_isr in E. cbn [rxof r_ien] in E. rewrite is_bit in E by (auto; lia). destruct (Z.testbit (d_b d) 7) eqn:S7; [|injection E as <-; auto].
      destruct ok; [|injection E as <-; auto]. cbn [andb] in E. destruct (ring_write Sr (r_ring (rxof d)) (u8 data)) as [[r w]|]; [|discriminate E]. injection E as <-; auto. }
    destruct K as (K1 & K2 & K3). eapply rx_part; [exact DS|exact X|rewrite K2; apply D| |now rewrite K2| |left; exact K1].
    + rewrite K2. intros N. destruct K3 as [-> |K3]; [now apply (i_none _ _ _ _ _ D)|]. now elim (i_on _ _ _ _ _ D K3).
    + rewrite K1. destruct (i_one _ _ _ _ _ D) as [[Q|[Q _]] [P|P]]; auto.
Qed.

Lemma d_run_inv : forall evs d st sr qt qr, dinv d st sr qt qr -> Forall switch evs -> d_polite St Sr d st sr evs = true ->
  exists d' st' sr' qt' qr', d_run St Sr d evs = Some d' /\ dinv d' st' sr' qt' qr' /\
    (forall i, 1 <= i < 8 -> i <> 5 -> i <> 7 -> oth_off i d -> Forall (unswitched i) evs -> Z.testbit (d_b d') i = Z.testbit (d_b d) i).
Proof.
  induction evs as [|e evs IH]; intros d st sr qt qr D W P; cbn [d_run d_polite] in *.
  - exists d, st, sr, qt, qr. auto.
  - inversion W as [|? ? W1 W2]; subst.
    match type of P with (if ?c then _ else _) = _ => destruct c eqn:G; [discriminate P|] end.
    destruct (d_step_inv d st sr qt qr e D W1 G) as (d1 & qt1 & qr1 & E & D1 & U). rewrite E in *.
    destruct (IH _ _ _ _ _ D1 W2 P) as (d' & st' & sr' & qt' & qr' & E' & D' & U').
    exists d', st', sr', qt', qr'. split; [exact E'|]. split; [exact D'|]. intros i I1 I2 I3 O F. inversion F as [|? ? F1 F2]; subst.
    destruct (U i I1 I2 I3 O F1) as [U1 U2]. rewrite <- U1. now apply U'.
Qed.
Lemma d_init_inv : forall mt mr b, byte b -> Z.testbit b 7 = false -> dinv (d_init mt mr b) false false [] [].
Proof.
  intros mt mr b B H7. constructor; cbn [d_init d_tx d_rx d_b d_set d_oth t_pc r_pc tx_init rx_init r_got r_acc]; auto.
  - eapply tx_mono; [apply (tx_init_inv St HSt mt)|reflexivity..|]. right. discriminate.
  - eapply rx_mono; [apply (rx_init_inv Sr HSr mr)|reflexivity..].
  - discriminate.
  - rewrite H7. discriminate.
Qed.

Lemma tx_good_l : forall d st sr qt qr, dinv d st sr qt qr -> tx_good St d qt.
Proof.
  intros d st sr qt qr D. destruct (i_tx _ _ _ _ _ D) as [_ H]. unfold tx_good. cbn [txof t_pc t_ring t_sent t_done t_ien] in H.
  rewrite (is_bit _ 5 (i_b _ _ _ _ _ D)) in H by lia.
  destruct (t_pc (d_tx d)); rewrite ?app_nil_r.
  - destruct H as (H1 & H2 & H3). pose proof (holds_length St HSt _ _ H1). destruct H1 as (_ & L & _). split; [exact H2|]. split; [lia|]. auto.
  - destruct H as (_ & (_ & L & _) & H2 & _). split; [exact H2|]. split; [lia|]. discriminate.
  - destruct H as (_ & (_ & L & _) & H2 & _). split; [exact H2|]. split; [lia|]. discriminate.
  - destruct H as (_ & (_ & L & _) & H2 & _). split; [exact H2|]. split; [lia|]. discriminate.
  - destruct H as (_ & (_ & L & _) & H2 & _). split; [exact H2|]. split; [lia|]. discriminate.
  - destruct H as ((_ & L & _) & H2). split; [exact H2|]. split; [lia|]. discriminate.
Qed.
Lemma rx_good_l : forall d st sr qt qr, dinv d st sr qt qr -> rx_good Sr d qr.
Proof.
  intros d st sr qt qr D. destruct (i_rx _ _ _ _ _ D) as [_ H]. unfold rx_good. cbn [rxof r_pc r_ring r_got r_acc] in H.
  fold (vals (r_got (d_rx d))).
  assert (E : rx_off d = true -> r_pc (d_rx d) = REnable) by (unfold rx_off; destruct (r_pc (d_rx d)); (discriminate || reflexivity)).
  destruct (r_pc (d_rx d)) eqn:P; cbn [app].
  all: try (destruct H as (_ & _ & (_ & L & _) & H2 & _); split; [exact H2|]; split; [lia|]; split; [discriminate|]; split; apply D).
  all: try (destruct H as ((_ & L & _) & H2 & _); split; [exact H2|]; split; [lia|]; split; [discriminate|]; split; apply D).
  all: try (destruct H as ((_ & L & _) & H2); split; [exact H2|]; split; [lia|]; split; [discriminate|]; split; apply D).
  destruct H as (H1 & H2). pose proof (holds_length Sr HSr _ _ H1) as HL. destruct H1 as (_ & L & _). split; [exact H2|]. split; [lia|].
  split; [|split; apply D]. intros _. split; [exact HL|]. split; [apply D|]. apply (i_off _ _ _ _ _ D).
  destruct (rx_off d); [|reflexivity]. now specialize (E eq_refl).
Qed.
Lemma dx_good_l : forall mt mr b evs, byte b -> Z.testbit b 7 = false -> Forall switch evs -> d_polite St Sr (d_init mt mr b) false false evs = true ->
  exists d, d_run St Sr (d_init mt mr b) evs = Some d /\ (exists qt, tx_good St d qt) /\ (exists qr, rx_good Sr d qr) /\
    (forall i, 1 <= i < 8 -> i <> 5 -> i <> 7 -> Forall (unswitched i) evs -> Z.testbit (d_b d) i = Z.testbit b i).
Proof.
  intros mt mr b evs B H7 W P. destruct (d_run_inv evs _ _ _ _ _ (d_init_inv mt mr b B H7) W P) as (d & st & sr & qt & qr & E & D & U).
  exists d. split; [exact E|]. split; [exists qt; eapply tx_good_l; exact D|]. split; [exists qr; eapply rx_good_l; exact D|].
  intros i I1 I2 I3 F. apply (U i I1 I2 I3 Logic.I F).
Qed.

(** The handler is StreamModel.v's. *)
Lemma udre_tx : forall d s, byte (d_b d) -> tx_isr St (txof d) = Some s -> exists d', d_step St Sr d DUdre = Some d' /\ txof d' = s /\ byte (d_b d') /\
  d_rx d' = d_rx d /\ d_set d' = d_set d /\ d_oth d' = d_oth d.
Proof.
  intros d s B E. cbn [d_step]. unfold d_udre. destruct (r_is (d_b d) 5) eqn:ON.
  - rewrite E. eexists. split; [reflexivity|].
    set (b := if t_ien s then fst (write_internal (d_b d) (last (t_sent s) 0)) else r_put (d_b d) 5 false).
    assert (BB : byte b /\ Z.testbit b 5 = t_ien s).
    { unfold b. destruct (t_ien s).
      - destruct (wi_bits (d_b d) (last (t_sent s) 0) 5 B) as [B1 B2]. split; [exact B1|]. rewrite B2 by lia. now rewrite <- is_bit by (auto; lia).
      - split; [apply r_put_byte|]. rewrite r_put_bits by lia. reflexivity. }
    destruct BB as [B1 B2]. clearbody b. cbn [d_b d_rx d_set d_oth]. split; [|auto].
    unfold txof. cbn [d_tx d_b]. rewrite is_bit, B2 by (auto; lia). destruct s; reflexivity.
  - unfold tx_isr in E. cbn [txof t_ien] in E. rewrite ON in E. injection E as <-. exists d. auto 10.
Qed.
Lemma udre_run : forall n d s, byte (d_b d) -> tx_run St (txof d) (repeat TxIsr n) = Some s -> exists d', d_run St Sr d (repeat DUdre n) = Some d' /\
  txof d' = s /\ byte (d_b d') /\ d_rx d' = d_rx d.
Proof.
  induction n as [|n IH]; intros d s B E; cbn [repeat tx_run d_run] in *.
  - injection E as <-. exists d. auto.
  - cbn [tx_step] in E. destruct (tx_isr St (txof d)) as [s1|] eqn:E1; [|discriminate E].
    destruct (udre_tx d s1 B E1) as (d1 & R1 & T1 & B1 & X1 & _). rewrite R1. rewrite <- T1 in E.
    destruct (IH d1 s B1 E) as (d' & R & T & B' & X). exists d'. rewrite X, X1. auto.
Qed.
Lemma d_run_app : forall a b d, d_run St Sr d (a ++ b) = match d_run St Sr d a with Some d' => d_run St Sr d' b | None => None end.
Proof. induction a as [|e a IH]; intros b d; [reflexivity|]. cbn [app d_run]. destruct (d_step St Sr d e); [apply IH|reflexivity]. Qed.
Lemma dx_drain_l : forall mt mr b evs d, byte b -> Z.testbit b 7 = false -> Forall switch evs -> d_polite St Sr (d_init mt mr b) false false evs = true ->
  d_run St Sr (d_init mt mr b) evs = Some d -> t_pc (d_tx d) = TIdle ->
  exists n d', Z.of_nat n <= St /\ d_run St Sr (d_init mt mr b) (evs ++ repeat DUdre n) = Some d' /\
    t_sent (d_tx d') = accepted (t_done (d_tx d)) /\ Z.testbit (d_b d') 5 = false /\ t_done (d_tx d') = t_done (d_tx d) /\ d_rx d' = d_rx d.
Proof.
  intros mt mr b evs d B H7 W P R PC. destruct (d_run_inv evs _ _ _ _ _ (d_init_inv mt mr b B H7) W P) as (d0 & st & sr & qt & qr & E & D & _).
  rewrite R in E. injection E as <-. pose proof (i_b _ _ _ _ _ D) as BB.
  destruct (tx_good_l _ _ _ _ _ D) as (G1 & G2 & G3). rewrite PC in G1. rewrite app_nil_r in G1.
  destruct (r_is (d_b d) 5) eqn:ON.
  - destruct (tx_drain St HSt qt (txof d) st (i_tx _ _ _ _ _ D) PC ON) as (s & T & S1 & S2 & S3 & S4).
    destruct (udre_run _ d s BB T) as (d' & R' & T' & B' & X'). exists (Datatypes.S (length qt)), d'. split; [lia|]. rewrite d_run_app, R.
    split; [exact R'|]. subst s. cbn [txof t_sent t_ien t_done t_pc] in *. rewrite is_bit in S2 by (auto; lia). auto.
  - exists 0%nat, d. cbn [repeat]. rewrite app_nil_r. split; [lia|]. split; [exact R|]. rewrite is_bit in ON by (auto; lia).
    destruct (G3 PC) as [_ G4]. destruct qt as [|x qt]; [rewrite app_nil_r in G1; auto|]. rewrite G4 in ON; discriminate.
Qed.

Lemma rest_l : forall d, t_pc (d_tx d) = TIdle -> r_pc (d_rx d) = RIdle -> d_oth d = None -> at_rest d = true.
Proof. intros d A B C. unfold at_rest. now rewrite A, B, C. Qed.
Lemma tx_isr_pc : forall s s', tx_isr St s = Some s' -> t_pc s' = t_pc s.
Proof.
  intros s s' E. unfold tx_isr in E. destruct (t_ien s); [|now injection E as <-]. destruct (negb _); [|now injection E as <-].
  destruct (ring_read St (t_ring s)) as [[r v]|]; [now injection E as <-|discriminate E].
Qed.
Lemma rx_isr_pc : forall s v ok s', rx_isr Sr s v ok = Some s' -> r_pc s' = r_pc s.
Proof.
  intros s v ok s' E. unfold rx_isr in E. destruct (r_ien s && ok); [|now injection E as <-].
  destruct (ring_write Sr (r_ring s) (u8 v)) as [[r w]|]; [now injection E as <-|discriminate E].
Qed.
(** The switch is in progress, or done. *)
Definition in_switch (k : Z) (v : bool) (d : dxs) : Prop :=
  t_pc (d_tx d) = TIdle /\ r_pc (d_rx d) = RIdle /\ (d_oth d = Some (k, v) \/ (d_oth d = None /\ Z.testbit (d_b d) k = v)).
Lemma sw_step : forall d st sr qt qr e k v d', dinv d st sr qt qr -> k = 3 \/ k = 4 \/ k = 6 -> no_call e -> in_switch k v d ->
  d_step St Sr d e = Some d' -> in_switch k v d'.
Proof.
  intros d st sr qt qr e k v d' D K N (P1 & P2 & P3) E. pose proof (i_b _ _ _ _ _ D) as B.
  destruct e as [w| |k' w| | |data ok]; try contradiction; cbn [d_step] in E.
  - unfold d_main in E. rewrite P1, P2 in E. destruct P3 as [P3|[P3 P4]]; rewrite P3 in E.
    + assert (J : on_job d k v) by (right; right; auto).
      pose proof (set_part _ _ _ _ _ _ _ D J) as SP. destruct (set_step d k v) as [d1 l]. destruct SP as (E1 & E2 & E3 & SP). injection E as <-.
      destruct l; unfold in_switch; cbn [d_tx d_rx d_oth d_b]; rewrite ?E1, ?E2, ?E3; (split; [exact P1|]); (split; [exact P2|]); [|now left].
      right. split; [reflexivity|apply SP].
    + injection E as <-. unfold in_switch. auto.
  - unfold d_udre in E. destruct (r_is (d_b d) 5) eqn:ON; [|injection E as <-; unfold in_switch; auto].
    destruct (tx_isr St (txof d)) as [s|] eqn:T; [|discriminate E]. injection E as <-. unfold in_switch. cbn [d_tx d_rx d_oth d_b].
    rewrite (tx_isr_pc _ _ T). split; [exact P1|]. split; [exact P2|]. destruct P3 as [P3|[P3 P4]]; [now left|right]. split; [exact P3|]. rewrite <- P4.
    destruct (t_ien s); [apply wi_bits; [exact B|lia]|]. rewrite ?r_put_bits, ?r_clr_bits by lia. destruct (Z.eqb_spec k 5); [lia|reflexivity].
  - destruct (rx_isr Sr (rxof d) data ok) as [s|] eqn:R; [|discriminate E]. injection E as <-. unfold in_switch, put_rx. cbn [d_tx d_rx d_oth d_b].
    rewrite (rx_isr_pc _ _ _ _ R). auto.
Qed.
Lemma sw_run : forall evs d st sr qt qr k v, dinv d st sr qt qr -> k = 3 \/ k = 4 \/ k = 6 -> Forall no_call evs -> in_switch k v d ->
  d_polite St Sr d st sr evs = true -> forall d', d_run St Sr d evs = Some d' -> in_switch k v d'.
Proof.
  induction evs as [|e evs IH]; intros d st sr qt qr k v D K N S P d' R; cbn [d_run d_polite] in *.
  - now injection R as <-.
  - inversion N as [|? ? N1 N2]; subst.
    match type of P with (if ?c then _ else _) = _ => destruct c eqn:G; [discriminate P|] end.
    destruct (d_step_inv d st sr qt qr e D) as (d1 & qt1 & qr1 & E & D1 & _); [destruct e; (contradiction || exact Logic.I)|exact G|]. rewrite E in *.
    eapply IH; [exact D1|exact K|exact N2| |exact P|exact R]. eapply sw_step; [exact D|exact K|exact N1|exact S|exact E].
Qed.
Lemma polite_app : forall a b d st sr, d_polite St Sr d st sr (a ++ b) = true -> exists st' sr', d_polite St Sr d st sr a = true /\
  forall d', d_run St Sr d a = Some d' -> d_polite St Sr d' st' sr' b = true /\
   (forall qt qr, Forall switch a -> dinv d st sr qt qr -> exists qt' qr', dinv d' st' sr' qt' qr').
Proof.
  induction a as [|e a IH]; intros b d st sr P.
  - exists st, sr. split; [reflexivity|]. intros d' E. injection E as <-. split; [exact P|]. eauto.
  - cbn [app d_polite d_run] in *. match type of P with (if ?c then _ else _) = _ => destruct c eqn:G; [discriminate P|] end.
    destruct (d_step St Sr d e) as [d1|] eqn:E; [|exists st, sr; split; [reflexivity|discriminate]].
    destruct (IH _ _ _ _ P) as (st' & sr' & P1 & P2). exists st', sr'. split; [exact P1|]. intros d' R. destruct (P2 d' R) as [P3 P4]. split; [exact P3|].
    intros qt qr W D. inversion W as [|? ? W1 W2]; subst. destruct (d_step_inv d st sr qt qr e D W1 G) as (d2 & qt1 & qr1 & E' & D1 & _).
    rewrite E in E'. injection E' as <-. eapply P4; eassumption.
Qed.
Lemma dx_switch_l : forall mt mr b evs k v evs' d d', byte b -> Z.testbit b 7 = false -> Forall switch evs -> k = 3 \/ k = 4 \/ k = 6 ->
  d_polite St Sr (d_init mt mr b) false false (evs ++ DSet k v :: evs') = true ->
  d_run St Sr (d_init mt mr b) evs = Some d -> at_rest d = true -> Forall no_call evs' -> d_run St Sr d (DSet k v :: evs') = Some d' ->
  at_rest d' = true -> Z.testbit (d_b d') k = v.
Proof.
  intros mt mr b evs k v evs' d d' B H7 W K P R A N R' A'. destruct (polite_app _ _ _ _ _ P) as (st & sr & P1 & P2).
  destruct (P2 d R) as [P3 P4]. destruct (P4 _ _ W (d_init_inv mt mr b B H7)) as (qt & qr & D).
  cbn [d_run d_polite] in R', P3. match type of P3 with (if ?c then _ else _) = _ => destruct c eqn:G; [discriminate P3|] end.
  destruct (d_step_inv d st sr qt qr (DSet k v) D K G) as (d1 & qt1 & qr1 & E & D1 & _). rewrite E in *.
  assert (S : in_switch k v d1).
  { cbn [d_step] in E. rewrite A in E. injection E as <-. destruct (rest_spec d A) as (A1 & A2 & A3). unfold in_switch. cbn [d_tx d_rx d_oth]. auto. }
  destruct (sw_run _ _ _ _ _ _ _ _ D1 K N S P3 _ R') as (_ & _ & [Q|[_ Q]]); [|exact Q].
  destruct (rest_spec d' A') as (_ & _ & A3). congruence.
Qed.

(** Which Writes are accepted, and which characters stored. *)
Lemma dx_accept_l : forall mt mr b evs d v, byte b -> Z.testbit b 7 = false -> Forall switch evs -> d_polite St Sr (d_init mt mr b) false false evs = true ->
  d_run St Sr (d_init mt mr b) evs = Some d -> t_pc (d_tx d) = TCheck v ->
  exists d', d_step St Sr d DStep = Some d' /\
    (if Z.of_nat (length (accepted (t_done (d_tx d)))) - Z.of_nat (length (t_sent (d_tx d))) <? St - 1
     then t_pc (d_tx d') = TStore v /\ t_done (d_tx d') = t_done (d_tx d) else t_pc (d_tx d') = TEnable /\ t_done (d_tx d') = t_done (d_tx d) ++ [(v, false)]).
Proof.
  intros mt mr b evs d v B H7 W P R PC. destruct (d_run_inv evs _ _ _ _ _ (d_init_inv mt mr b B H7) W P) as (d0 & st & sr & qt & qr & E & D & _).
  rewrite R in E. injection E as <-. destruct (accept_inv St (txof d) st qt v (i_tx _ _ _ _ _ D) PC) as (s & E & A).
  cbn [tx_step] in E. cbn [d_step]. unfold d_main. rewrite PC, E. cbn [option_map]. eexists. split; [reflexivity|]. exact A.
Qed.
Lemma dx_store_l : forall mt mr b evs d v ok, byte b -> Z.testbit b 7 = false -> Forall switch evs -> d_polite St Sr (d_init mt mr b) false false (evs ++ [DRxc v ok]) = true ->
  d_run St Sr (d_init mt mr b) evs = Some d ->
  exists d', d_step St Sr d (DRxc v ok) = Some d' /\ d_tx d' = d_tx d /\ d_b d' = d_b d /\ r_got (d_rx d') = r_got (d_rx d) /\
    r_acc (d_rx d') = r_acc (d_rx d) ++ (if Z.testbit (d_b d) 7 && ok && (rx_waiting (d_rx d) <? Sr - 1) then [u8 v] else []).
Proof.
  intros mt mr b evs d v ok B H7 W P R. destruct (polite_app _ _ _ _ _ P) as (st & sr & P1 & P2).
  destruct (P2 d R) as [P3 P4]. destruct (P4 _ _ W (d_init_inv mt mr b B H7)) as (qt & qr & D).
  cbn [d_polite] in P3. match type of P3 with (if ?c then _ else _) = _ => destruct c eqn:G; [discriminate P3|clear P3] end.
  apply orb_false_iff in G. destruct G as [_ G]. rewrite andb_true_r in G.
  destruct (store_inv Sr HSr (rxof d) sr qr v ok (i_rx _ _ _ _ _ D) G) as (s & E & A1 & A2 & A3 & A4).
  cbn [rx_step] in E. cbn [d_step]. rewrite E. cbn [option_map]. eexists. split; [reflexivity|]. unfold put_rx. cbn [d_tx d_b d_rx].
  do 2 (split; [reflexivity|]). split; [exact A1|]. rewrite A4. cbn [rxof r_acc r_ien]. rewrite (is_bit _ 7 (i_b _ _ _ _ _ D)) by lia. reflexivity.
Qed.
Lemma offered_tx : forall d, offered (txof d) = offered (d_tx d). Proof. reflexivity. Qed.
Lemma dcalls_step : forall d e d', d_step St Sr d e = Some d' ->
  offered (d_tx d') = offered (d_tx d) ++ (match e with DWrite v => if at_rest d then [u8 v] else [] | _ => [] end).
Proof.
  assert (X : forall d, d_tx (fst (set_step d 0 true)) = d_tx d) by (intros d; unfold set_step; destruct (d_set d); reflexivity).
  assert (SS : forall d k v, d_tx (fst (set_step d k v)) = d_tx d) by (intros d k v; unfold set_step; destruct (d_set d), v; reflexivity). clear X.
  intros d e d' E. destruct e as [v| |k v| | |data ok]; cbn [d_step] in E.
  - destruct (at_rest d) eqn:A; [|injection E as <-; now rewrite app_nil_r]. destruct (rest_spec d A) as (A1 & _).
    destruct (tx_step St (txof d) (TxStart v)) as [s|] eqn:T; [|discriminate E]. injection E as <-. unfold put_tx. cbn [d_tx].
    rewrite (calls_step _ _ _ _ T), offered_tx. cbn [txof t_pc]. now rewrite A1.
  - rewrite app_nil_r. destruct (at_rest d); [|now injection E as <-]. destruct (rx_step Sr (rxof d) RxStart) as [s|]; [|discriminate E]. now injection E as <-.
  - rewrite app_nil_r. injection E as <-. now destruct (at_rest d).
  - rewrite app_nil_r. unfold d_main in E.
    assert (TM : forall d0 d1, d_tx d0 = d_tx d -> option_map (put_tx d0) (tx_main St (txof d0)) = Some d1 -> offered (d_tx d1) = offered (d_tx d)).
    { intros d0 d1 D0 H. destruct (tx_main St (txof d0)) as [s|] eqn:T; [|discriminate H]. injection H as <-. unfold put_tx. cbn [d_tx].
      rewrite (calls_step St (txof d0) TxStep s T), app_nil_r, offered_tx. now rewrite D0. }
    assert (RM : forall d0 d1, d_tx d0 = d_tx d -> option_map (put_rx d0) (rx_main Sr (rxof d0)) = Some d1 -> offered (d_tx d1) = offered (d_tx d)).
    { intros d0 d1 D0 H. destruct (rx_main Sr (rxof d0)) as [s|]; [|discriminate H]. injection H as <-. unfold put_rx. cbn [d_tx]. now rewrite D0. }
    destruct (t_pc (d_tx d)); try (eapply TM; [reflexivity|exact E]).
    + destruct (r_pc (d_rx d)); try (eapply RM; [reflexivity|exact E]).
      * destruct (d_oth d) as [[k v]|]; [|now injection E as <-]. pose proof (SS d k v) as Q. destruct (set_step d k v) as [d1 l]. cbn [fst] in Q. injection E as <-.
        destruct l; cbn [d_tx]; now rewrite Q.
      * pose proof (SS d 7 true) as Q. destruct (set_step d 7 true) as [d1 l]. cbn [fst] in Q. destruct l; [eapply RM; [exact Q|exact E]|]. injection E as <-. now rewrite Q.
    + pose proof (SS d 5 true) as Q. destruct (set_step d 5 true) as [d1 l]. cbn [fst] in Q. destruct l; [eapply TM; [exact Q|exact E]|]. injection E as <-. now rewrite Q.
  - rewrite app_nil_r. unfold d_udre in E. destruct (r_is (d_b d) 5); [|now injection E as <-].
    destruct (tx_isr St (txof d)) as [s|] eqn:T; [|discriminate E]. injection E as <-. cbn [d_tx].
    rewrite (calls_step St (txof d) TxIsr s T), app_nil_r. reflexivity.
  - rewrite app_nil_r. destruct (rx_isr Sr (rxof d) data ok) as [s|]; [|discriminate E]. now injection E as <-.
Qed.
Lemma dcalls_run : forall evs d d', d_run St Sr d evs = Some d' -> offered (d_tx d') = offered (d_tx d) ++ map u8 (d_calls St Sr d evs).
Proof.
  induction evs as [|e evs IH]; intros d d' E; cbn [d_run d_calls] in *.
  - injection E as <-. cbn [map]. now rewrite app_nil_r.
  - destruct (d_step St Sr d e) as [d1|] eqn:E1; [|discriminate E]. rewrite (IH _ _ E), (dcalls_step _ _ _ E1), <- app_assoc. f_equal.
    rewrite map_app. f_equal. destruct e; try reflexivity. destruct (at_rest d); reflexivity.
Qed.

End P.

Lemma handler_write_l : exists b d1 d2 d, byte b /\ d_run 4 4 (d_init (fun _ => 0) (fun _ => 0) b) in_read = Some d1 /\
  isr_write 4 d1 65 = Some d2 /\ d_run 4 4 d2 [DStep; DStep; DStep] = Some d /\ at_rest d = true /\
  accepted (t_done (d_tx d)) = [65] /\ t_sent (d_tx d) = [] /\ ring_length 4 (t_ring (d_tx d)) = 1 /\ d_b d = 152 /\
  forall n, d_run 4 4 d (repeat DUdre n) = Some d.
Proof.
  exists 24. do 3 eexists. split; [unfold byte; lia|]. split; [lazy; reflexivity|]. split; [lazy; reflexivity|]. split; [lazy; reflexivity|].
  do 5 (split; [reflexivity|]). induction n as [|n IH]; [reflexivity|]. cbn [repeat d_run]. exact IH.
Qed.
