(** C106: what TextWriter puts on the line. *)
Require Import ZArith List Bool Lia ZifyBool.
Import ListNotations.
From Verif Require Import Base BaseFacts AvrModel AvrSpec WireModel WireSpec RingModel RingSpec RingProofs StreamModel StreamSpec StreamProofs
  LinkProofs MidiWireProofs HwRxModel HwRxSpec HwTxModel HwTxSpec HwTxProofs WireLinkModel WireLinkProofs TextModel TextSpec PrintModel PrintSpec PrintProofs PrintProps PromptModel PromptProofs
  PromptProps TextWireModel TextWireSpec.
Open Scope Z_scope.

Notation y_tx := HwTxModel.y_tx.

Section Text.
Variables (iw p s : Z) (f : format).
Hypothesis Hi : iw = 16 \/ iw = 32.
Hypothesis Hp : 24 <= p.
Hypothesis Hs : p + 5 <= s.
Hypothesis Hf : format_ok f.

Section Sender.
Variable Size : Z.
Hypothesis HS : 1 <= Size <= 65535.

Definition z_inv (z : tsend) (ts : list (list Z)) : Prop :=
  (Forall2 (call_shows p s f) (z_calls z) ts /\ Forall (call_ok iw p s f) (z_calls z)) /\ Forall is_char (z_todo z) /\
  map fst (t_done (y_tx (z_port z))) ++ current (t_pc (y_tx (z_port z))) ++ z_todo z = concat ts.

Lemma char_u8 : forall c, is_char c -> u8 c = c.
Proof. intros c H. unfold is_char in H. unfold u8. apply Z.mod_small. lia. Qed.

Lemma z_does_inv : forall z ts e ys todo calls x, z_inv z ts -> tev_ok iw p s f e -> z_does iw p s f z e = Some (ys, (todo, calls)) ->
  xport_run Size (z_port z) ys = Some x -> exists ts', z_inv (mkTs x todo calls) ts'.
Proof.
  intros z ts e ys todo calls x I OK D R. pose proof I as (SH & CH & B).
  assert (SAME : forall y, (forall v, y = YWrite v -> False) -> xport_run Size (z_port z) [y] = Some x -> z_inv (mkTs x (z_todo z) (z_calls z)) ts).
  { intros y NW X. cbn [xport_run] in X. destruct (xport_step Size (z_port z) y) as [p1|] eqn:K; [|discriminate]. injection X as <-.
    split; [exact SH|]. split; [exact CH|]. cbn [z_port z_todo]. rewrite app_assoc, (xport_bytes_same _ _ _ _ NW K), <- app_assoc. exact B. }
  destruct e as [c| | |]; cbn [z_does] in D.
  - unfold z_ready, z_pc in D. cbn [tev_ok] in OK.
    assert (KEEP : Some (@nil yev, (z_todo z, z_calls z)) = Some (ys, (todo, calls)) -> exists ts', z_inv (mkTs x todo calls) ts').
    { intros K. injection K as <- <- <-. cbn [xport_run] in R. injection R as <-. exists ts. exact I. }
    destruct (t_pc (y_tx (z_port z))) eqn:P; try (apply KEEP; exact D). destruct (z_todo z) eqn:T; [|apply KEEP; exact D].
    assert (CO : call_ok iw p s f c) by (destruct c; try exact OK; contradiction).
    destruct (call_l iw p s f Hi Hp Hs Hf c CO) as (t & E & X & F). rewrite E in D. injection D as <- <- <-. cbn [xport_run] in R. injection R as <-.
    exists (ts ++ [t]). split; [|split; [exact F|]]; cbn [z_port z_todo z_calls].
    + destruct SH as [SH SO]. split; [apply Forall2_app; [exact SH|]; constructor; [exact X|constructor]|]. apply Forall_app. split; [exact SO|]. constructor; [exact CO|constructor].
    + rewrite P. cbn [current app] in *. rewrite concat_app, <- B. cbn [concat]. rewrite !app_nil_r. reflexivity.
  - assert (K : Some (ys, (todo, calls)) = Some ([YStep], (z_todo z, z_calls z)) \/ (z_todo z = [] /\ Some (ys, (todo, calls)) = Some ([], (z_todo z, z_calls z))) \/
      (z_pc z = TIdle /\ exists b rest, z_todo z = b :: rest /\ Some (ys, (todo, calls)) = Some ([YWrite b], (rest, z_calls z)))).
    { destruct (z_pc z); try (left; congruence). destruct (z_todo z) as [|b rest]; right; [left; split; [reflexivity|congruence]|right; split; [reflexivity|]; exists b, rest; split; [reflexivity|congruence]]. }
    destruct K as [K|[(T & K)|(P & b & rest & T & K)]].
    + injection K as -> -> ->. exists ts. apply (SAME YStep); [discriminate|exact R].
    + injection K as -> -> ->. exists ts. cbn [xport_run] in R. injection R as <-. exact I.
    + injection K as -> -> ->. unfold z_pc in P. cbn [xport_run xport_step tx_step] in R. rewrite P in R. injection R as <-.
      rewrite P, T in B. rewrite T in CH. inversion CH as [|? ? C1 C2 [X1 X2]]; subst. exists ts. split; [exact SH|]. split; [exact C2|].
      cbn [z_port z_todo HwTxModel.y_tx t_done t_pc current app] in *. rewrite (char_u8 b C1). exact B.
  - injection D as <- <- <-. exists ts. apply (SAME YIsr); [discriminate|exact R].
  - injection D as <- <- <-. exists ts. apply (SAME YTick); [discriminate|exact R].
Qed.
Lemma z_does_some : forall z e, tev_ok iw p s f e -> exists ys todo calls, z_does iw p s f z e = Some (ys, (todo, calls)).
Proof.
  intros z e OK. destruct e as [c| | |]; cbn [z_does]; [| |eauto|eauto].
  - destruct (z_ready z); [|eauto]. assert (CO : call_ok iw p s f c) by (destruct c; try exact OK; contradiction).
    destruct (call_l iw p s f Hi Hp Hs Hf c CO) as (t & -> & _). eauto.
  - destruct (z_pc z), (z_todo z); eauto.
Qed.
Lemma z_steps_l : forall evs z ts ys z', z_inv z ts -> Forall (tev_ok iw p s f) evs -> z_steps iw p s f Size z evs = (ys, z') ->
  xport_run Size (z_port z) ys = option_map z_port z' /\ (forall z1, z' = Some z1 -> exists ts', z_inv z1 ts').
Proof.
  induction evs as [|e evs IH]; intros z ts ys z' I OK E; cbn [z_steps] in E.
  - injection E as <- <-. split; [reflexivity|]. intros z1 X. injection X as <-. exists ts. exact I.
  - inversion OK as [|? ? O1 O2 [X1 X2]]; subst. destruct (z_does_some z e O1) as (y & todo & calls & D). rewrite D in E.
    destruct (xport_run Size (z_port z) y) as [x|] eqn:R.
    + destruct (z_does_inv _ _ _ _ _ _ _ I O1 D R) as (ts1 & I1). destruct (z_steps iw p s f Size (mkTs x todo calls) evs) as [more z2] eqn:K. injection E as <- <-.
      destruct (IH _ _ _ _ I1 O2 K) as [A B]. split; [|exact B]. rewrite xport_run_app, R. exact A.
    + injection E as <- <-. split; [exact R|discriminate].
Qed.
Lemma z_start_inv : forall m, z_inv (z_start m) [].
Proof. intros m. split; [split; constructor|]. split; [constructor|reflexivity]. Qed.

Lemma z_sends_l : forall m evs ys z', Forall (tev_ok iw p s f) evs -> z_steps iw p s f Size (z_start m) evs = (ys, z') ->
  xport_polite Size (xport_init m) false ys = true ->
  exists z ts, z' = Some z /\ Forall2 (call_shows p s f) (z_calls z) ts /\ Forall (call_ok iw p s f) (z_calls z) /\
    (Forall (fun d => snd d = true) (t_done (y_tx (z_port z))) ->
     exists waiting, concat ts = x_line (y_utx (z_port z)) ++ waiting ++ z_todo z /\ Z.of_nat (length waiting) <= Size + 2).
Proof.
  intros m evs ys z' OK E P. destruct (hw_tx_stream_l Size HS m ys P) as (x & queued & R & B & L1 & L2).
  destruct (z_steps_l evs (z_start m) [] ys z' (z_start_inv m) OK E) as [XR SI]. cbn [z_start z_port] in XR. rewrite R in XR.
  destruct z' as [z|]; [|discriminate]. cbn [option_map] in XR. destruct (SI z eq_refl) as (ts & [SH SO] & CH & SB).
  exists z, ts. split; [reflexivity|]. split; [exact SH|]. split; [exact SO|]. intros AC.
  assert (x = z_port z) by congruence. subst x. rewrite (all_done _ AC) in B. rewrite <- SB.
  exists (outstanding (y_utx (z_port z)) ++ queued ++ match t_pc (y_tx (z_port z)) with TWrap _ => [] | q => current q end).
  split.
  - destruct (t_pc (y_tx (z_port z))) eqn:Q; cbn [current] in *; rewrite ?app_nil_r in *; rewrite ?app_assoc in *; rewrite ?B; rewrite <- ?app_assoc; reflexivity.
  - rewrite !app_length. assert (length match t_pc (y_tx (z_port z)) with TWrap _ => [] | q => current q end <= 1)%nat; [|lia].
    destruct (t_pc (y_tx (z_port z))); cbn [current length]; lia.
Qed.

(** ** A text that fits is accepted *)
Definition roomy (x : xport) (n : nat) : Prop :=
  Forall (fun d => snd d = true) (t_done (y_tx x)) /\
  Z.of_nat (length (map fst (t_done (y_tx x)) ++ current (t_pc (y_tx x)))) + Z.of_nat n - Z.of_nat (length (t_sent (y_tx x))) <= Size - 1.
Lemma roomy_step : forall x n y x' seen q, xport_inv Size x seen q -> roomy x n -> (forall v, y = YWrite v -> False) ->
  xport_step Size x y = Some x' -> roomy x' n.
Proof.
  intros x n y x' seen q (TI & _ & _) (AC & RM) NW E. pose proof (xport_bytes_same _ _ _ _ NW E) as SAME.
  destruct y as [v| | |]; [destruct (NW v eq_refl)| | |]; cbn [xport_step] in E.
  - destruct (tx_step Size (y_tx x) TxStep) as [t|] eqn:K; [|discriminate]. injection E as <-. cbn [HwTxModel.y_tx] in *.
    pose proof (other_sent Size _ _ _ K ltac:(discriminate)) as SE. split; cbn [HwTxModel.y_tx]; [|rewrite SAME, SE; exact RM].
    cbn [tx_step] in K. unfold tx_main in K. destruct TI as [_ TI]. destruct (t_pc (y_tx x)) eqn:PC; try (injection K as <-; cbn [t_done]; try exact AC).
    + destruct TI as (_ & HO & AQ & _). destruct (holds_write Size HS _ _ v HO) as (r' & WR & _). unfold ring_write in WR.
      destruct (if rb_wr (t_ring (y_tx x)) + 1 >=? Size then 0 =? rb_rd (t_ring (y_tx x)) else rb_wr (t_ring (y_tx x)) + 1 =? rb_rd (t_ring (y_tx x)));
        [|injection K as <-; exact AC].
      exfalso. injection WR as _ WR. rewrite (all_done _ AC) in AQ. cbn [current] in RM. rewrite app_length, AQ, app_length in RM. cbn [length] in RM. lia.
    + destruct (inb (rb_wr (t_ring (y_tx x))) Size); [|discriminate]. injection K as <-. exact AC.
    + apply Forall_app. split; [exact AC|]. constructor; [reflexivity|constructor].
  - destruct (t_ien (y_tx x) && accept_data (y_utx x)); [|injection E as <-; split; assumption].
    destruct (tx_step Size (y_tx x) TxIsr) as [t|] eqn:K; [|discriminate]. injection E as <-. cbn [HwTxModel.y_tx tx_step] in *.
    destruct (tx_isr_bytes _ _ _ K) as [DE _]. unfold roomy. cbn [HwTxModel.y_tx]. rewrite SAME, DE. split; [exact AC|].
    destruct (isr_sent Size _ _ K) as [-> | [v ->]]; [exact RM|]. rewrite (app_length (t_sent _)). cbn [length]. lia.
  - injection E as <-. split; assumption.
Qed.

Lemma z_fits_l : forall evs z ts ys z1 seen q, z_inv z ts -> Forall (tev_ok iw p s f) evs -> xport_inv Size (z_port z) seen q ->
  roomy (z_port z) (length (z_todo z)) -> z_steps iw p s f Size z evs = (ys, Some z1) -> xport_polite Size (z_port z) seen ys = true ->
  Size <= 256 -> z_fits iw p s f Size z evs = true -> Forall (fun d => snd d = true) (t_done (y_tx (z_port z1))).
Proof.
  induction evs as [|e evs IH]; intros z ts ys z1 seen q I OK XI RM E PO SM FT; cbn [z_steps z_fits] in *.
  - injection E as <- <-. exact (proj1 RM).
  - inversion OK as [|? ? O1 O2 [X1 X2]]; subst. destruct (z_does iw p s f z e) as [[y [todo calls]]|] eqn:D; [|discriminate].
    destruct (xport_run Size (z_port z) y) as [x|] eqn:R; [|discriminate].
    destruct (z_steps iw p s f Size (mkTs x todo calls) evs) as [more z2] eqn:K. assert (E1 := f_equal fst E). assert (E2 := f_equal snd E). cbn [fst snd] in E1, E2. subst ys z2. clear E.
    apply andb_prop in FT. destruct FT as [FT1 FT2].
    destruct (z_does_inv _ _ _ _ _ _ _ I O1 D R) as (ts1 & I1).
    (* no event of the stream, or one *)
    assert (NONE : y = [] -> x = z_port z -> roomy (z_port z) (length todo) -> Forall (fun d => snd d = true) (t_done (y_tx (z_port z1)))).
    { intros -> -> RM1. exact (IH (mkTs (z_port z) todo calls) ts1 more z1 seen q I1 O2 XI RM1 K PO SM FT2). }
    assert (ONE : forall w, y = [w] -> roomy x (length todo) -> Forall (fun d => snd d = true) (t_done (y_tx (z_port z1)))).
    { intros w -> RM1. cbn [app xport_polite] in PO. cbn [xport_run] in R.
      destruct (tx_in_window Size (y_tx (z_port z)) && _ && seen) eqn:G; [discriminate|].
      destruct (xport_step_inv Size HS (z_port z) seen q w XI G) as (x' & q' & E' & XI'). rewrite E' in R, PO. injection R as <-.
      exact (IH (mkTs x' todo calls) ts1 more z1 _ q' I1 O2 XI' RM1 K PO SM FT2). }
    assert (KEEP : forall w, (forall v, w = YWrite v -> False) -> xport_run Size (z_port z) [w] = Some x -> roomy x (length (z_todo z))).
    { intros w NW X. cbn [xport_run] in X. destruct (xport_step Size (z_port z) w) as [x1|] eqn:W; [|discriminate]. injection X as <-.
      exact (roomy_step _ _ _ _ _ _ XI RM NW W). }
    destruct e as [c| | |]; cbn [z_does] in D.
    + destruct (z_ready z) eqn:RD.
      * destruct (call_text iw p s f c) as [t|] eqn:CT; [|discriminate]. injection D as <- <- <-. cbn [xport_run] in R. injection R as <-.
        apply NONE; auto. unfold z_ready, z_pc in RD. destruct RM as [AC _]. split; [exact AC|]. pose proof XI as ((_ & TI) & _ & _).
        destruct (t_pc (y_tx (z_port z))) eqn:PC; try discriminate. destruct TI as (HO & AQ & _). unfold out_length in FT1. rewrite (holds_length Size HS _ _ HO) in FT1. rewrite u8_small in FT1 by (destruct HO as (_ & HO & _); unfold is_byte; lia).
        rewrite (all_done _ AC) in AQ. cbn [current]. rewrite app_nil_r, AQ, app_length. lia.
      * injection D as <- <- <-. cbn [xport_run] in R. injection R as <-. apply NONE; auto.
    + assert (KK : Some (y, (todo, calls)) = Some ([YStep], (z_todo z, z_calls z)) \/ (z_todo z = [] /\ Some (y, (todo, calls)) = Some ([], (z_todo z, z_calls z))) \/
        (z_pc z = TIdle /\ exists b rest, z_todo z = b :: rest /\ Some (y, (todo, calls)) = Some ([YWrite b], (rest, z_calls z)))).
      { destruct (z_pc z); try (left; congruence). destruct (z_todo z) as [|b rest]; right; [left; split; [reflexivity|congruence]|right; split; [reflexivity|]; exists b, rest; split; [reflexivity|congruence]]. }
      destruct KK as [KK|[(T & KK)|(P & b & rest & T & KK)]].
      * injection KK as -> -> ->. apply (ONE YStep); [reflexivity|]. apply (KEEP YStep); [discriminate|exact R].
      * injection KK as -> -> ->. cbn [xport_run] in R. injection R as <-. apply NONE; auto.
      * injection KK as -> -> ->. apply (ONE (YWrite b)); [reflexivity|]. unfold z_pc in P. cbn [xport_run xport_step tx_step] in R. rewrite P in R. injection R as <-.
        destruct RM as [AC RM]. rewrite P, T in RM. split; [exact AC|]. cbn [HwTxModel.y_tx t_done t_pc t_sent current] in *. rewrite app_length in *. cbn [length] in *. lia.
    + injection D as <- <- <-. apply (ONE YIsr); [reflexivity|]. apply (KEEP YIsr); [discriminate|exact R].
    + injection D as <- <- <-. apply (ONE YTick); [reflexivity|]. apply (KEEP YTick); [discriminate|exact R].
Qed.
Lemma z_fits_start : forall m evs ys z, Forall (tev_ok iw p s f) evs -> z_steps iw p s f Size (z_start m) evs = (ys, Some z) ->
  xport_polite Size (xport_init m) false ys = true -> Size <= 256 -> z_fits iw p s f Size (z_start m) evs = true ->
  Forall (fun d => snd d = true) (t_done (y_tx (z_port z))).
Proof.
  intros m evs ys z OK E PO SM FT. refine (z_fits_l evs (z_start m) [] ys z false [] (z_start_inv m) OK (xport_init_inv Size HS m) _ E PO SM FT).
  split; [constructor|]. cbn. lia.
Qed.

(** ** A text that does not fit is cut off *)
Definition rank (q : txpc) : nat := match q with TIdle => 0 | TCheck _ => 5 | TStore _ => 4 | TInc _ => 3 | TWrap _ => 2 | TEnable => 1 end.
Definition cut_inv (done : list (Z * bool)) (sent : list Z) (room : nat) (t w : list Z) (z : tsend) : Prop :=
  t_sent (y_tx (z_port z)) = sent /\ w ++ current (z_pc z) ++ z_todo z = t /\ Forall is_char (z_todo z) /\
  accepted (t_done (y_tx (z_port z))) = accepted done ++ firstn room w /\
  match z_pc z with TStore _ | TInc _ | TWrap _ => (length w < room)%nat | _ => True end.
Lemma cut_l : forall done sent q0 t, accepted done = sent ++ q0 -> Z.of_nat (length q0) <= Size - 1 -> forall n z w q,
  xport_inv Size (z_port z) false q -> cut_inv done sent (Z.to_nat (Size - 1 - Z.of_nat (length q0))) t w z -> (6 * length (z_todo z) + rank (z_pc z) <= n)%nat ->
  exists ys z', z_steps iw p s f Size z (repeat TvStep n) = (ys, Some z') /\ z_calls z' = z_calls z /\ z_ready z' = true /\
    accepted (t_done (y_tx (z_port z'))) = accepted done ++ firstn (Z.to_nat (Size - 1 - Z.of_nat (length q0))) t /\
    ring_length Size (t_ring (y_tx (z_port z'))) = Z.of_nat (length q0) + Z.of_nat (length (firstn (Z.to_nat (Size - 1 - Z.of_nat (length q0))) t)).
Proof.
  intros done sent q0 t A0 L0. set (room := Z.to_nat _). induction n as [|n IH]; intros z w q XI J M.
  - destruct J as (J1 & J2 & J3 & J4 & J5). assert (z_todo z = []) as T by (destruct (z_todo z); [reflexivity|cbn [length] in M; lia]).
    assert (z_pc z = TIdle) as P by (destruct (z_pc z); cbn [rank] in M; try lia; reflexivity).
    exists [], z. split; [reflexivity|]. split; [reflexivity|]. split; [unfold z_ready; now rewrite P, T|]. rewrite P, T in J2. cbn [current app] in J2. rewrite app_nil_r in J2. subst w.
    split; [exact J4|]. destruct XI as ((FB & TI) & _ & _). unfold z_pc in P. rewrite P in TI. destruct TI as (HO & AQ & _). rewrite (holds_length Size HS _ _ HO).
    rewrite J4, A0, J1, <- app_assoc in AQ. apply app_inv_head in AQ. rewrite <- AQ, app_length. fold room. lia.
  - cbn [repeat z_steps].
    (* nothing left *)
    destruct (z_ready z) eqn:RD.
    { unfold z_ready in RD. cbn [z_does]. destruct z as [x todo calls]. cbn [z_port z_todo z_calls z_pc] in *. destruct (z_pc _) eqn:P; try discriminate. destruct todo; [|discriminate]. cbn [xport_run].
      destruct (IH (mkTs x [] calls) w q XI J) as (ys & z' & E & R). { cbn [z_todo length]. rewrite P. cbn [rank]. lia. } rewrite E. exists ys, z'. split; [reflexivity|]. exact R. }
    assert (STEP : exists y x' todo w', z_does iw p s f z TvStep = Some ([y], (todo, z_calls z)) /\ (match y with YIsr => True | _ => False end -> False) /\
      xport_step Size (z_port z) y = Some x' /\ cut_inv done sent room t w' (mkTs x' todo (z_calls z)) /\ (6 * length todo + rank (z_pc (mkTs x' todo (z_calls z))) <= n)%nat).
    { destruct XI as ((FB & TI) & _ & _). destruct J as (J1 & J2 & J3 & J4 & J5). unfold z_ready, z_pc in *. cbn [z_does]. unfold z_pc.
      destruct (z_port z) as [u [r ien pc se dn]] eqn:ZP. cbn [HwTxModel.y_tx t_pc t_sent t_done t_ring] in *. subst se.
      destruct pc as [|v|v|v|v|]; cbn [current app rank] in *.
      - destruct (z_todo z) as [|b rest] eqn:T; [discriminate|]. inversion J3; subst. exists (YWrite b), (mkXport u (mkTx r ien (TCheck (u8 b)) sent dn)), rest, w.
        split; [reflexivity|]. split; [tauto|]. split; [reflexivity|]. split; [|cbn [z_port HwTxModel.y_tx t_pc rank length] in *; lia].
        unfold cut_inv, z_pc. cbn [z_port HwTxModel.y_tx t_pc t_sent t_done z_todo current app]. rewrite char_u8 by assumption. auto.
      - destruct TI as (_ & HO & AQ & _). destruct (holds_write Size HS _ _ v HO) as (r' & WR & _). unfold ring_write in WR.
        assert (LQ : Z.of_nat (length q) = Z.of_nat (length q0) + Z.of_nat (length (firstn room w))).
        { rewrite J4, A0, <- app_assoc in AQ. apply app_inv_head in AQ. rewrite <- AQ, app_length. lia. }
        rewrite firstn_length in LQ. assert (LR : Z.of_nat room = Size - 1 - Z.of_nat (length q0)) by (unfold room; lia).
        destruct (if rb_wr r + 1 >=? Size then 0 =? rb_rd r else rb_wr r + 1 =? rb_rd r) eqn:FU.
        + exists YStep, (mkXport u (mkTx r ien TEnable sent (dn ++ [(v, false)]))), (z_todo z), (w ++ [v]). split; [reflexivity|]. split; [tauto|].
          split; [cbn [xport_step HwTxModel.y_tx tx_step tx_main t_pc t_ring]; unfold tx_main; cbn [t_pc t_ring t_ien t_sent t_done]; rewrite FU; reflexivity|].
          injection WR as _ WR. unfold cut_inv, z_pc. cbn [z_port HwTxModel.y_tx t_pc t_sent t_done z_todo current app rank].
          split; [|lia]. split; [reflexivity|]. split; [rewrite <- app_assoc; exact J2|]. split; [exact J3|]. split; [|exact Logic.I].
          rewrite accepted_snoc, J4. rewrite app_nil_r. f_equal. rewrite firstn_app. replace (room - length w)%nat with 0%nat by lia. cbn [firstn]. now rewrite app_nil_r.
        + exists YStep, (mkXport u (mkTx r ien (TStore v) sent dn)), (z_todo z), w. split; [reflexivity|]. split; [tauto|].
          split; [cbn [xport_step HwTxModel.y_tx tx_step]; unfold tx_main; cbn [t_pc t_ring t_ien t_sent t_done]; rewrite FU; reflexivity|].
          unfold cut_inv, z_pc. cbn [z_port HwTxModel.y_tx t_pc t_sent t_done z_todo current app rank].
          split; [|lia]. split; [reflexivity|]. split; [exact J2|]. split; [exact J3|]. split; [exact J4|].
          destruct (inb (rb_wr r) Size); [|discriminate]. assert (Z.of_nat (length q) < Size - 1); [|lia].
          destruct (Z.of_nat (length q) <? Size - 1) eqn:LT; [lia|]. exfalso. congruence.
      - destruct TI as (_ & HO & _). assert (IB : inb (rb_wr r) Size = true) by (pose proof (holds_wr Size _ _ _ HO); unfold inb; lia).
        exists YStep, (mkXport u (mkTx (mkRing (upd (rb_mem r) (rb_wr r) v) (rb_wr r) (rb_rd r)) ien (TInc v) sent dn)), (z_todo z), w. split; [reflexivity|]. split; [tauto|].
        split; [cbn [xport_step HwTxModel.y_tx tx_step]; unfold tx_main; cbn [t_pc t_ring t_ien t_sent t_done]; rewrite IB; reflexivity|].
        unfold cut_inv, z_pc. cbn [z_port HwTxModel.y_tx t_pc t_sent t_done z_todo current app rank]. split; [auto|lia].
      - exists YStep, (mkXport u (mkTx (mkRing (rb_mem r) (rb_wr r + 1) (rb_rd r)) ien (TWrap v) sent dn)), (z_todo z), w. split; [reflexivity|]. split; [tauto|]. split; [reflexivity|].
        unfold cut_inv, z_pc. cbn [z_port HwTxModel.y_tx t_pc t_sent t_done z_todo current app rank]. split; [auto|lia].
      - exists YStep, (mkXport u (mkTx (mkRing (rb_mem r) (if rb_wr r >=? Size then 0 else rb_wr r) (rb_rd r)) ien TEnable sent (dn ++ [(v, true)]))), (z_todo z), (w ++ [v]). split; [reflexivity|]. split; [tauto|]. split; [reflexivity|].
        unfold cut_inv, z_pc. cbn [z_port HwTxModel.y_tx t_pc t_sent t_done z_todo current app rank]. split; [|lia].
        split; [reflexivity|]. split; [rewrite <- app_assoc; exact J2|]. split; [exact J3|]. split; [|exact Logic.I].
        rewrite accepted_snoc, J4. rewrite <- app_assoc. f_equal. rewrite !firstn_all2; [reflexivity|rewrite app_length; cbn [length]; lia|lia].
      - exists YStep, (mkXport u (mkTx r true TIdle sent dn)), (z_todo z), w. split; [reflexivity|]. split; [tauto|]. split; [reflexivity|].
        unfold cut_inv, z_pc. cbn [z_port HwTxModel.y_tx t_pc t_sent t_done z_todo current app rank]. split; [auto|lia]. }
    destruct STEP as (y & x' & todo & w' & D & NI & XS & J' & M'). rewrite D. cbn [xport_run]. rewrite XS.
    assert (G : tx_in_window Size (y_tx (z_port z)) && match y with YIsr => t_ien (y_tx (z_port z)) && accept_data (y_utx (z_port z)) | _ => false end && false = false) by apply andb_false_r.
    destruct (xport_step_inv Size HS (z_port z) false q y XI G) as (x2 & q' & E' & XI'). rewrite XS in E'. injection E' as <-.
    replace (match y with YIsr => _ | _ => _ end) with false in XI' by (destruct y; [reflexivity|reflexivity|elim NI; exact Logic.I|reflexivity]). rewrite andb_false_r in XI'.
    destruct (IH (mkTs x' todo (z_calls z)) w' q' XI' J' M') as (ys & z' & E & R1 & R2). cbn [z_calls] in R1. rewrite E. exists ([y] ++ ys), z'. auto.
Qed.
Lemma text_cut_l : forall m evs ys z c t, Forall (tev_ok iw p s f) evs -> z_steps iw p s f Size (z_start m) evs = (ys, Some z) ->
  xport_polite Size (xport_init m) false ys = true -> z_ready z = true -> tev_ok iw p s f (TvCall c) -> call_text iw p s f c = Some t ->
  exists ys' z', z_steps iw p s f Size z (TvCall c :: repeat TvStep (6 * length t)) = (ys', Some z') /\
    z_calls z' = z_calls z ++ [c] /\ z_ready z' = true /\
    accepted (t_done (y_tx (z_port z'))) = accepted (t_done (y_tx (z_port z))) ++
      firstn (Z.to_nat (Size - 1 - ring_length Size (t_ring (y_tx (z_port z))))) t /\
    ring_length Size (t_ring (y_tx (z_port z'))) = Z.min (Size - 1) (ring_length Size (t_ring (y_tx (z_port z))) + Z.of_nat (length t)).
Proof.
  intros m evs ys z c t OK E PO RD CO CT. destruct (z_steps_l evs (z_start m) [] ys (Some z) (z_start_inv m) OK E) as [XR SI]. cbn [z_start z_port option_map] in XR.
  destruct (xport_run_inv Size HS _ _ _ _ (xport_init_inv Size HS m) PO) as (x & seen & q & XR' & XI). rewrite XR in XR'. injection XR' as <-.
  assert (CH : Forall is_char t).
  { assert (C1 : call_ok iw p s f c) by (destruct c; try exact CO; contradiction). destruct (call_l iw p s f Hi Hp Hs Hf c C1) as (t' & CT' & X & CHR). rewrite CT in CT'. injection CT' as <-. exact CHR. }
  pose proof RD as RD'. unfold z_ready, z_pc in RD. pose proof XI as ((FB & TI) & WF & AL). destruct (t_pc (y_tx (z_port z))) eqn:PC; try discriminate. destruct (z_todo z) eqn:TD; [|discriminate].
  destruct TI as (HO & AQ & IE). rewrite (holds_length Size HS _ _ HO). cbn [z_steps z_does]. rewrite RD', CT. cbn [xport_run].
  assert (LQ : Z.of_nat (length q) <= Size - 1) by (destruct HO as (_ & HO & _); lia).
  assert (XI0 : xport_inv Size (z_port z) false q) by (split; [split; [exact FB|]; rewrite PC; auto|]; split; assumption).
  destruct (cut_l (t_done (y_tx (z_port z))) (t_sent (y_tx (z_port z))) q t AQ LQ (6 * length t) (mkTs (z_port z) t (z_calls z ++ [c])) [] q XI0) as (ys' & z' & E' & R).
  - unfold cut_inv, z_pc. cbn [z_port z_todo]. rewrite PC. cbn [current app]. rewrite firstn_nil, app_nil_r. auto.
  - unfold z_pc. cbn [z_port z_todo]. rewrite PC. cbn [rank]. lia.
  - rewrite E'. exists ([] ++ ys'), z'. split; [reflexivity|]. destruct R as (R1 & R2 & R3 & R4). split; [exact R1|]. split; [exact R2|]. split; [exact R3|]. rewrite R4, firstn_length. lia.
Qed.
End Sender.

(** ** Reading *)
Hypothesis Hr : readable f.
Lemma lines_back : forall cs ts bs more, only_lines cs -> Forall (call_ok iw p s f) cs -> Forall (one_line f) (line_items cs) ->
  Forall2 (call_shows p s f) cs ts -> concat ts = bs ++ more ->
  exists n, (n <= length (line_items cs))%nat /\ (more = [] -> n = length (line_items cs)) /\
    Forall2 (fun i t => same_item p s f i (read_as f i t)) (firstn n (line_items cs)) (lines_of (f_newline f) 0 [] bs).
Proof.
  intros cs ts bs more OL O OI SH W.
  assert (T : exists us, Forall2 (item_text p s f) (line_items cs) us /\ concat ts = concat (map (fun t => t ++ f_newline f) us)).
  { clear - SH OL. induction SH as [|c t cs ts X SH IH]; [exists []; split; [constructor|reflexivity]|]. inversion OL as [|? ? L1 L2 [Y1 Y2]]; subst.
    destruct (IH L2) as (us & U & E). destruct c as [i|i| |o]; try contradiction. destruct X as (u & X & ->).
    exists (u :: us). split; [constructor; assumption|]. cbn [concat map]. now rewrite E. }
  destruct T as (us & U & T). rewrite T in W. pose proof Hr as (_ & _ & R). destruct (f_newline f) as [|c nl] eqn:NL; [contradiction|].
  assert (OK : Forall (item_ok iw p s f) (line_items cs)).
  { clear - O. induction O as [|x cs X O IH]; [constructor|]. destruct x; cbn [line_items flat_map app]; try exact IH. constructor; assumption. }
  assert (F : Forall (fun t => ~ In c t) us).
  { clear - U OI NL Hr Hf. induction U as [|i t is us X U IH]; [constructor|]. inversion OI; subst. constructor; [|apply IH; assumption].
    apply (no_newline p s f Hf Hr i t c nl NL); assumption. }
  destruct (lines_prefix c nl us bs more F W) as (n & LN & N & M).
  assert (LE : length (line_items cs) = length us) by (clear - U; induction U; cbn [length]; congruence).
  exists n. rewrite LE. split; [exact N|]. split; [exact M|]. rewrite LN. clear - U OK Hr Hf Hi Hp Hs. revert n.
  induction U as [|i t is us X U IH]; intros [|n]; cbn [firstn]; try constructor.
  - inversion OK; subst. apply (read_as_l iw p s f); assumption.
  - inversion OK; subst. apply IH; assumption.
Qed.

(** ** Over the line *)
Lemma text_wire_l : forall F G c1 c2 id1 id2 m1 m2 cs a t0 sched Size m evs ys z,
  1 <= F -> 1 <= G -> id1 = 0 \/ id1 = 1 -> id2 = 0 \/ id2 = 1 -> c_bits c1 = 3 -> c_bits c2 = 3 -> c_par c2 = c_par c1 ->
  0 <= c_ubrr c1 < 65536 -> 0 <= c_ubrr c2 < 65536 -> c_div c1 = 8 \/ c_div c1 = 16 -> c_div c2 = 8 \/ c_div c2 = 16 ->
  tolerable (speed_samples (c_div c2)) (speed_middle (c_div c2)) (last_bit 8 (c_par c1))
    (bit_time G (c_div c1) (c_ubrr c1)) (sample_time F (c_ubrr c2)) ->
  WireSpec.spaced (frame_time G c1) t0 cs -> a - sample_time F (c_ubrr c2) < t0 ->
  1 <= Size <= 65535 -> Forall (tev_ok iw p s f) evs -> z_steps iw p s f Size (z_start m) evs = (ys, Some z) ->
  tx_prompt Size (xport_init m) false ys = true -> tx_quick Size (xport_init m) false ys = true ->
  Forall (fun d => snd d = true) (t_done (y_tx (z_port z))) ->
  only_lines (z_calls z) -> Forall (one_line f) (line_items (z_calls z)) ->
  map snd cs = x_line (y_utx (z_port z)) -> Forall (fun sw => forallb software sw = true) sched ->
  let B := c_div c2 * (match c_par c1 with POff => 9 | _ => 10 end) in
  exists tevs, receiving F G (opened m1 id1 c1) id1 (opened m2 id2 c2) id2 cs a sched = Some tevs /\
    forall Size' m', 1 <= Size' <= 65535 -> rx_prompt (port_step Size') (port_init m') false (map snd tevs) = true ->
      rx_brief (port_step Size') B (port_init m') (-1) tevs = true ->
      HwRxSpec.served (2 * B) [] false (timed Size' (port_init m') tevs) = true ->
      exists r, port_run Size' (port_init m') (map snd tevs) = Some r /\
        (length (r_acc (p_rx r)) = length (p_taken r) \/ Z.of_nat (length (p_taken r)) <= Size' - 1 ->
         exists n, (n <= length (line_items (z_calls z)))%nat /\
           Forall2 (fun i t => same_item p s f i (read_as f i t)) (firstn n (line_items (z_calls z)))
             (lines_of (f_newline f) 0 [] (filter (fun v => 0 <=? v) (r_got (p_rx r)))) /\
           (z_ready z = true -> ring_length Size (t_ring (y_tx (z_port z))) = 0 -> outstanding (y_utx (z_port z)) = [] ->
            Forall (fun fr => fst fr + frame_time G c1 <= a + (Z.of_nat (length sched) - 1) * sample_time F (c_ubrr c2)) cs ->
            r_pc (p_rx r) = RIdle -> ring_length Size' (r_ring (p_rx r)) = 0 -> unread (p_uart r) = [] ->
            n = length (line_items (z_calls z)))).
Proof.
  intros F G c1 c2 id1 id2 m1 m2 cs a t0 sched Size m evs ys z HF HG I1 I2 B1 B2 EP U1 U2 D1 D2 TOL SP BE HS OK E XP XQ AC OL OI LX SW B.
  destruct (z_steps_l Size evs (z_start m) [] ys (Some z) (z_start_inv m) OK E) as [XR SI]. cbn [z_start z_port option_map] in XR.
  destruct (SI z eq_refl) as (ts & [SH SO] & CH & SB). clear SI.
  destruct (prompt_wire F G c1 c2 id1 id2 m1 m2 cs a t0 sched Size m ys (z_port z) HF HG I1 I2 B1 B2 EP U1 U2 D1 D2 TOL SP BE HS XP XQ XR LX SW)
    as (tevs & c & R & HE & ST).
  exists tevs. split; [exact R|]. intros Size' m' HS' P BR SE. destruct (ST Size' m' HS' P BR SE) as (r & PR & Q). exists r. split; [exact PR|].
  intros LL. destruct (Q LL) as (queued & later & IR & QA & QB). clear Q ST. rewrite (all_done _ AC) in QB.
  assert (W : exists more, concat ts = firstn c (map snd cs) ++ more).
  { rewrite <- SB. destruct (t_pc (y_tx (z_port z))) eqn:Q; cbn [current app] in *; rewrite ?app_nil_r in QB; try (rewrite QB, <- app_assoc; eexists; reflexivity).
    match goal with |- exists _, ?u ++ ?v :: ?w = _ => change (u ++ v :: w) with (u ++ [v] ++ w) end. rewrite app_assoc, QB, <- app_assoc. eexists. reflexivity. }
  destruct W as [more W]. pose proof W as W0. rewrite <- QA, <- app_assoc in W.
  destruct (lines_back _ _ _ _ OL SO OI SH W) as (n & N1 & N2 & N3). exists n. split; [exact N1|]. split; [exact N3|].
  intros RD RL OU FA RP RE UN. apply N2. rewrite RP, UN. specialize (IR RP). destruct IR as [IL _]. rewrite RE in IL. assert (queued = []) as -> by (destruct queued; [reflexivity|cbn [length] in IL; lia]).
  cbn [app map].
  assert (CL : c = length cs).
  { destruct HE as [H1 H2]. destruct (Nat.eq_dec c (length cs)) as [|NE]; [assumption|]. exfalso.
    destruct (nth_error cs c) as [[q d]|] eqn:NT; [|apply nth_error_None in NT; lia].
    destruct (H2 c q d NT) as [H3 _]. pose proof (proj1 (Forall_forall _ _) FA (q, d) (nth_error_In _ _ NT)) as H4. cbn [fst] in H4. specialize (H3 H4). lia. }
  (* everything written is on the line *)
  pose proof (prompt_tx _ _ _ XP XQ) as PO.
  destruct (xport_run_inv Size HS _ _ _ _ (xport_init_inv Size HS m) PO) as (x & sn & q & XR' & (_ & TI) & _ & AL). rewrite XR in XR'. injection XR' as <-.
  unfold z_ready, z_pc in RD. destruct (t_pc (y_tx (z_port z))) eqn:PC; try discriminate. destruct (z_todo z) eqn:TD; [|discriminate].
  destruct TI as (HO & AQ & _). rewrite (holds_length Size HS _ _ HO) in RL. assert (q = []) as -> by (destruct q; [reflexivity|cbn [length] in RL; lia]).
  rewrite (all_done _ AC), app_nil_r in AQ. cbn [current app] in SB. rewrite app_nil_r in SB.
  assert (AO : all_of (y_utx (z_port z)) = x_line (y_utx (z_port z)) ++ outstanding (y_utx (z_port z))) by (unfold all_of, outstanding; now rewrite ?app_assoc).
  rewrite OU, app_nil_r in AO. rewrite <- SB, AQ, <- AL, AO, <- LX in W0. rewrite firstn_all2 in W0 by (rewrite map_length, CL; lia).
  apply (f_equal (@length Z)) in W0. rewrite app_length in W0. destruct more; [reflexivity|]. cbn [length] in W0. lia.
Qed.
End Text.

Lemma text_length_l : forall Size m, 257 <= Size <= 65535 ->
  exists ys z, z_steps 16 24 149 default_format Size (z_start m) (TvCall (PText (TStr (repeat 65 256))) :: repeat TvStep (6 * 256)) = (ys, Some z) /\
    z_ready z = true /\ ring_length Size (t_ring (y_tx (z_port z))) = 256 /\ out_length Size (z_port z) = 0.
Proof.
  intros Size m HS. assert (FO : format_ok default_format) by exact (proj1 formats_ok).
  set (t := repeat 65 256).
  assert (CT : call_text 16 24 149 default_format (PText (TStr t)) = Some t) by (unfold t; lazy; reflexivity).
  assert (LT : length t = 256%nat) by (unfold t; apply repeat_length).
  assert (OK : tev_ok 16 24 149 default_format (TvCall (PText (TStr t)))).
  { cbn [tev_ok call_ok item_ok]. unfold t. apply Forall_forall. intros x X. apply repeat_spec in X. subst x. unfold is_char. lia. }
  destruct (text_cut_l 16 24 149 default_format ltac:(lia) ltac:(lia) ltac:(lia) FO Size ltac:(lia) m [] [] (z_start m) (PText (TStr t)) t
    ltac:(constructor) eq_refl eq_refl eq_refl OK CT) as (ys & z & E & _ & R & _ & L).
  rewrite LT in E, L. exists ys, z. split; [exact E|]. split; [exact R|]. assert (L1 : ring_length Size (t_ring (y_tx (z_port z))) = 256).
  { rewrite L. replace (ring_length Size (t_ring (y_tx (z_port (z_start m))))) with 0 by reflexivity. lia. }
  split; [exact L1|]. unfold out_length. rewrite L1. reflexivity.
Qed.
