(** C104: what MidiReader reports across the line. *)
Require Import ZArith List Bool Lia ZifyBool.
Import ListNotations.
From Verif Require Import Base BaseFacts AvrModel AvrSpec WireModel WireSpec WireProofs RingModel RingSpec RingProofs StreamModel StreamSpec StreamProofs
  HwRxModel HwRxSpec HwRxProofs HwTxModel HwTxSpec HwTxProofs WireLinkModel WireLinkProofs MidiModel MidiSpec MidiProofs LinkModel LinkProofs MidiWireModel.
Open Scope Z_scope.

(** ** The sending board *)
Definition s_tx (s : msend) : txs := HwTxModel.y_tx (s_port s).
Definition s_inv (s : msend) : Prop :=
  map fst (t_done (s_tx s)) ++ current (t_pc (s_tx s)) ++ map u8 (s_todo s) = map u8 (write_all 0 (s_ops s)) /\
  s_run s = run_after 0 (s_ops s).

Section Sender.
Variable Size : Z.
Lemma xport_bytes_same : forall p e p', (forall v, e = YWrite v -> False) -> xport_step Size p e = Some p' ->
  map fst (t_done (HwTxModel.y_tx p')) ++ current (t_pc (HwTxModel.y_tx p')) = map fst (t_done (HwTxModel.y_tx p)) ++ current (t_pc (HwTxModel.y_tx p)).
Proof.
  intros p e p' NW E. destruct e as [v| | |]; [destruct (NW v eq_refl)| | |]; cbn [xport_step] in E.
  - destruct (tx_step Size (HwTxModel.y_tx p) TxStep) as [s|] eqn:K; [|discriminate]. injection E as <-. cbn [HwTxModel.y_tx]. exact (tx_main_bytes _ _ _ K).
  - destruct (t_ien (HwTxModel.y_tx p) && accept_data (y_utx p)); [|injection E as <-; reflexivity].
    destruct (tx_step Size (HwTxModel.y_tx p) TxIsr) as [s|] eqn:K; [|discriminate]. injection E as <-. cbn [HwTxModel.y_tx]. destruct (tx_isr_bytes _ _ _ K) as [-> ->]. reflexivity.
  - injection E as <-. reflexivity.
Qed.
Lemma s_does_inv : forall s e ys run todo ops p, s_inv s -> s_does s e = (ys, (run, todo, ops)) -> xport_run Size (s_port s) ys = Some p ->
  s_inv (mkMs p run todo ops).
Proof.
  intros s e ys run todo ops p I D R. pose proof I as [B U].
  assert (SAME : forall y, (forall v, y = YWrite v -> False) -> xport_run Size (s_port s) [y] = Some p -> s_inv (mkMs p (s_run s) (s_todo s) (s_ops s))).
  { intros y NW X. cbn [xport_run] in X. destruct (xport_step Size (s_port s) y) as [p1|] eqn:K; [|discriminate]. injection X as <-.
    split; [|exact U]. unfold s_tx. cbn [s_port s_todo s_ops]. rewrite app_assoc, (xport_bytes_same _ _ _ NW K), <- app_assoc. exact B. }
  assert (NONE : forall t, ys = [] -> s_inv (mkMs (s_port s) run t ops) -> todo = t -> s_inv (mkMs p run todo ops)).
  { intros t -> X ->. cbn [xport_run] in R. injection R as <-. exact X. }
  destruct e as [o| | |]; cbn [s_does] in D.
  - assert (K : (ys, (run, todo, ops)) = ([], (s_run s, s_todo s, s_ops s)) \/ (s_pc s = TIdle /\ s_todo s = [] /\ (ys, (run, todo, ops)) = let (run, out) := write_op (s_run s) o in ([], (run, out, s_ops s ++ [o])))).
    { destruct (s_pc s); try (left; congruence). destruct (s_todo s); [right; split; [reflexivity|split; [reflexivity|congruence]]|left; congruence]. }
    destruct K as [K|(P & T & K)].
    + injection K as -> -> -> ->. apply (NONE (s_todo s)); auto.
    + destruct (write_op (s_run s) o) as [run' out] eqn:W. injection K as -> -> -> ->. apply (NONE out); auto. unfold s_pc in P. unfold s_tx in B. rewrite P, T in B.
      split; unfold s_tx; cbn [s_port s_todo s_ops s_run].
      * rewrite P. cbn [current app map] in *. rewrite app_nil_r in B. rewrite write_all_snoc, map_app, <- U, W, <- B. reflexivity.
      * rewrite run_after_snoc, <- U, W. reflexivity.
  - assert (K : (ys, (run, todo, ops)) = ([YStep], (s_run s, s_todo s, s_ops s)) \/ (s_todo s = [] /\ (ys, (run, todo, ops)) = ([], (s_run s, s_todo s, s_ops s))) \/
      (s_pc s = TIdle /\ exists b rest, s_todo s = b :: rest /\ (ys, (run, todo, ops)) = ([YWrite b], (s_run s, rest, s_ops s)))).
    { destruct (s_pc s); try (left; congruence). destruct (s_todo s) as [|b rest]; right; [left; split; [reflexivity|congruence]|right; split; [reflexivity|]; exists b, rest; split; [reflexivity|congruence]]. }
    destruct K as [K|[(T & K)|(P & b & rest & T & K)]].
    + injection K as -> -> -> ->. apply (SAME YStep); [discriminate|exact R].
    + injection K as -> -> -> ->. apply (NONE (s_todo s)); auto.
    + injection K as -> -> -> ->. unfold s_pc in P. cbn [xport_run xport_step tx_step] in R. rewrite P in R. injection R as <-.
      unfold s_tx in B. rewrite P, T in B. split; [|exact U]. unfold s_tx. cbn [s_port s_todo s_ops HwTxModel.y_tx t_done t_pc current map app] in *. exact B.
  - injection D as <- <- <- <-. apply (SAME YIsr); [discriminate|exact R].
  - injection D as <- <- <- <-. apply (SAME YTick); [discriminate|exact R].
Qed.
Lemma s_steps_l : forall evs s ys s', s_inv s -> s_steps Size s evs = (ys, s') ->
  xport_run Size (s_port s) ys = option_map s_port s' /\ (forall s1, s' = Some s1 -> s_inv s1).
Proof.
  induction evs as [|e evs IH]; intros s ys s' I E; cbn [s_steps] in E.
  - injection E as <- <-. split; [reflexivity|]. intros s1 X. injection X as <-. exact I.
  - destruct (s_does s e) as [y [[run todo] ops]] eqn:D. destruct (xport_run Size (s_port s) y) as [p|] eqn:R.
    + pose proof (s_does_inv _ _ _ _ _ _ _ I D R) as I1. destruct (s_steps Size (mkMs p run todo ops) evs) as [more s2] eqn:K. injection E as <- <-.
      destruct (IH _ _ _ I1 K) as [A B]. split; [|exact B]. rewrite xport_run_app, R. exact A.
    + injection E as <- <-. split; [exact R|discriminate].
Qed.
End Sender.
Lemma s_start_inv : forall m, s_inv (s_start m).
Proof. intros m. split; reflexivity. Qed.

(** ** The receiving board *)
Definition boot (r : rxs) : Prop := r_ien r = false /\ rb_wr (r_ring r) = rb_rd (r_ring r) /\ r_got r = [].
Definition v_inv (x : mrecv) : Prop :=
  let r := p_rx (v_port x) in
  (exists ns, read_all r_init (map u8 (vals (r_got r))) = (v_reader x, ns) /\ concat ns = v_notes x) /\
  match v_pc x with
  | VBoot => r_pc r = RIdle /\ boot r
  | VFirst => (r_pc r = RCmp \/ r_pc r = RSub true \/ r_pc r = REnable) /\ boot r
  | VMidi MRead => r_pc r <> RIdle
  | VMidi _ => r_pc r = RIdle
  end.
Lemma after_keep : forall p pc rd ns, match pc with VFirst | VMidi MRead => r_pc (p_rx p) <> RIdle | _ => True end ->
  v_after p pc rd ns = mkMr p pc rd ns.
Proof.
  intros p pc rd ns H. unfold v_after. destruct pc as [| |[| | |]]; try reflexivity; destruct (r_pc (p_rx p)); congruence.
Qed.
Lemma after_port : forall p pc rd ns, v_port (v_after p pc rd ns) = p.
Proof.
  intros p pc rd ns. unfold v_after. destruct pc as [| |[| | |]]; try reflexivity; destruct (r_pc (p_rx p)); try reflexivity.
  destruct (last (r_got (p_rx p)) (-1) =? -1); [reflexivity|]. destruct (dispatch rd (u8 (last (r_got (p_rx p)) (-1)))) as [[rd' more] ok]. reflexivity.
Qed.

Section Receiver.
Variable Size : Z.
Hypothesis HS : 1 <= Size <= 65535.
Lemma port_run_app : forall a b p, port_run Size p (a ++ b) = match port_run Size p a with Some p' => port_run Size p' b | None => None end.
Proof. induction a as [|e a IH]; intros b p; cbn [app port_run]; [reflexivity|]. destruct (port_step Size p e); auto. Qed.
Lemma polite_one : forall p seen q e more, port_inv Size p seen q -> port_polite Size p seen (e :: more) = true ->
  exists p' seen' q', port_step Size p e = Some p' /\ port_inv Size p' seen' q' /\ port_polite Size p' seen' more = true.
Proof.
  intros p seen q e more I P. cbn [port_polite] in P.
  destruct (rx_in_window Size (p_rx p) && (match e with PIsr => port_ready p | _ => false end) && seen) eqn:G; [discriminate|].
  destruct (port_step_inv Size HS p seen q e I G) as (p' & q' & E & I'). rewrite E in P. eauto 8.
Qed.
Lemma isr_same : forall p p', port_step Size p PIsr = Some p' -> (r_ien (p_rx p) = false -> p_rx p' = p_rx p) /\ r_pc (p_rx p') = r_pc (p_rx p) /\ r_got (p_rx p') = r_got (p_rx p).
Proof.
  intros p p' E. cbn [port_step] in E. destruct (r_ien (p_rx p)); [|injection E as <-; auto].
  destruct (uart_take (p_uart p)) as [u [[d ov]|]]; [|injection E as <-; split; [discriminate|auto]].
  destruct (rx_step Size (p_rx p) (RxIsr d (negb ov))) as [s|] eqn:K; [|discriminate]. injection E as <-. cbn [p_rx]. cbn [rx_step] in K.
  destruct (rx_isr_pc _ _ _ _ _ K) as (A & B & _). split; [discriminate|auto].
Qed.
Lemma v_inv_keep : forall x p, v_inv x -> p_rx p = p_rx (v_port x) -> v_inv (mkMr p (v_pc x) (v_reader x) (v_notes x)).
Proof. intros x p I E. unfold v_inv in *. cbn [v_port v_pc v_reader v_notes]. rewrite E. exact I. Qed.

Lemma read_step : forall s s' seen q, rx_inv Size s seen q -> r_pc s <> RIdle -> rx_step Size s RxStep = Some s' ->
  (r_pc s' <> RIdle /\ r_got s' = r_got s) \/ (r_pc s' = RIdle /\ (r_got s' = r_got s ++ [-1] \/ exists v, is_byte v /\ r_got s' = r_got s ++ [v])).
Proof.
  intros s s' seen q [_ H] N S1. cbn [rx_step] in S1. unfold rx_main in S1. destruct (r_pc s) eqn:Q.
  - congruence.
  - injection S1 as <-. left. split; [discriminate|reflexivity].
  - injection S1 as <-. left. cbn [r_pc r_got]. split; [|reflexivity].
    match goal with |- (if ?c then _ else _) <> _ => destruct c end; discriminate.
  - match type of S1 with (if ?c then _ else _) = _ => destruct c end; [|discriminate].
    injection S1 as <-. left. split; [discriminate|reflexivity].
  - injection S1 as <-. left. split; [discriminate|reflexivity].
  - injection S1 as <-. right. split; [reflexivity|]. right. exists v. destruct H as [V _]. split; [exact V|].
    cbn [r_got]. unfold is_byte in V. rewrite s16_small by lia. reflexivity.
  - injection S1 as <-. right. split; [reflexivity|]. left. reflexivity.
Qed.
Lemma port_read : forall p, port_step Size p PRead = Some (mkPort (p_uart p) (match r_pc (p_rx p) with RIdle => mkRx (r_ring (p_rx p)) (r_ien (p_rx p)) RCmp (r_got (p_rx p)) (r_acc (p_rx p)) | _ => p_rx p end) (p_taken p)).
Proof. intros p. cbn [port_step rx_step]. destruct (r_pc (p_rx p)); reflexivity. Qed.

Lemma v_event : forall x seen q e ps pc more, port_inv Size (v_port x) seen q -> v_inv x -> v_does Size x e = (ps, pc) ->
  port_polite Size (v_port x) seen (ps ++ more) = true ->
  exists p seen' q', port_run Size (v_port x) ps = Some p /\ port_inv Size p seen' q' /\
    v_inv (v_after p pc (v_reader x) (v_notes x)) /\ port_polite Size p seen' more = true.
Proof.
  intros x seen q e ps pc more PI I D P. pose proof I as [(ns & R & C) M]. cbv zeta in *.
  assert (NONE : ps = [] -> v_inv (v_after (v_port x) pc (v_reader x) (v_notes x)) -> exists p seen' q', port_run Size (v_port x) ps = Some p /\ port_inv Size p seen' q' /\
    v_inv (v_after p pc (v_reader x) (v_notes x)) /\ port_polite Size p seen' more = true).
  { intros -> K. exists (v_port x), seen, q. cbn [port_run app] in *. auto. }
  assert (ONE : forall y, ps = [y] -> (forall p, port_step Size (v_port x) y = Some p -> v_inv (v_after p pc (v_reader x) (v_notes x))) -> exists p seen' q', port_run Size (v_port x) ps = Some p /\ port_inv Size p seen' q' /\
    v_inv (v_after p pc (v_reader x) (v_notes x)) /\ port_polite Size p seen' more = true).
  { intros y -> K. cbn [app] in P. destruct (polite_one _ _ _ _ _ PI P) as (p & s' & q' & E & I' & P'). exists p, s', q'. cbn [port_run]. rewrite E. auto. }
  destruct e; cbn [v_does] in D; cbv zeta in D.
  - injection D as <- <-. apply NONE; [reflexivity|]. rewrite after_keep by (destruct (v_pc x) as [| |[| | |]]; try exact Logic.I; [destruct M as [[->|[->| ->]] _]; discriminate|exact M]).
    unfold v_inv. cbn [v_port v_pc v_reader v_notes]. cbv zeta. split; [exists ns; auto|]. destruct (v_pc x) as [| |[| | |]]; exact M.
  - destruct (v_pc x) as [| |[| |ge|]] eqn:Ep.
    + injection D as <- <-. apply (ONE PRead); [reflexivity|]. intros p E. rewrite port_read in E. injection E as <-. destruct M as [Mp [B1 [B2 B3]]]. rewrite Mp.
      rewrite after_keep by discriminate. unfold v_inv, boot. cbn [v_port v_pc v_reader v_notes p_rx r_pc r_ien r_ring r_got]. split; [exists ns; auto|]. auto.
    + injection D as <- <-. apply (ONE PStep); [reflexivity|]. intros p E. cbn [port_step rx_step] in E. destruct M as [Mp [B1 [B2 B3]]]. unfold rx_main in E.
      destruct Mp as [Mp|[Mp|Mp]]; rewrite Mp in E.
      * injection E as <-. rewrite after_keep by discriminate. unfold v_inv, boot. cbn [v_port v_pc v_reader v_notes p_rx r_pc r_ien r_ring r_got]. split; [exists ns; auto|].
        split; [right; left; rewrite B2; f_equal; lia|auto].
      * injection E as <-. rewrite B2, Z.sub_diag. change (u16 0 >? 0) with false. cbv iota.
        rewrite after_keep by discriminate. unfold v_inv, boot. cbn [v_port v_pc v_reader v_notes p_rx r_pc r_ien r_ring r_got]. split; [exists ns; auto|auto].
      * injection E as <-. unfold v_after. cbn [p_rx r_pc]. unfold v_inv. cbn [v_port v_pc v_reader v_notes p_rx r_pc r_got]. split; [|reflexivity].
        exists ns. rewrite vals_app. cbn [vals filter]. change (0 <=? -1) with false. cbv iota. rewrite app_nil_r. auto.
    + injection D as <- <-. apply NONE; [reflexivity|]. rewrite after_keep by exact Logic.I. unfold v_inv. cbn [v_port v_pc v_reader v_notes]. split; [exists ns; auto|exact M].
    + injection D as <- <-. apply NONE; [reflexivity|]. rewrite after_keep by exact Logic.I. unfold v_inv. cbn [v_port v_pc v_reader v_notes]. split; [exists ns; auto|exact M].
    + destruct (v_len Size ge (r_ring (p_rx (v_port x))) >? 0); injection D as <- <-.
      * apply (ONE PRead); [reflexivity|]. intros p E. rewrite port_read, M in E. injection E as <-.
        rewrite after_keep by discriminate. unfold v_inv. cbn [v_port v_pc v_reader v_notes p_rx r_pc r_got]. split; [exists ns; auto|discriminate].
      * apply NONE; [reflexivity|]. rewrite after_keep by exact Logic.I. unfold v_inv. cbn [v_port v_pc v_reader v_notes]. split; [exists ns; auto|exact M].
    + injection D as <- <-. apply (ONE PStep); [reflexivity|]. intros p E. cbn [port_step] in E. destruct (rx_step Size (p_rx (v_port x)) RxStep) as [s|] eqn:K; [|discriminate]. injection E as <-.
      destruct PI as [RI _]. destruct (read_step _ _ _ _ RI M K) as [[C1 C2]|[C1 C2]].
      * rewrite after_keep by exact C1. unfold v_inv. cbn [v_port v_pc v_reader v_notes p_rx]. split; [exists ns; rewrite C2; auto|exact C1].
      * unfold v_after. cbn [p_rx]. rewrite C1. destruct C2 as [C2|(v & V & C2)]; rewrite C2, last_last.
        -- cbn [Z.eqb Pos.eqb]. unfold v_inv. cbn [v_port v_pc v_reader v_notes p_rx]. split; [|exact C1]. exists ns. rewrite C2, vals_app.
           cbn [vals filter]. change (0 <=? -1) with false. cbv iota. rewrite app_nil_r. auto.
        -- unfold is_byte in V. replace (v =? -1) with false by lia. destruct (dispatch (v_reader x) (u8 v)) as [[rd' n] ok] eqn:DD.
           unfold v_inv. cbn [v_port v_pc v_reader v_notes p_rx]. split; [|exact C1]. exists (ns ++ [n]).
           rewrite C2, vals_app. cbn [vals filter]. replace (0 <=? v) with true by lia. rewrite map_app. cbn [map].
           rewrite (read_all_snoc _ _ _ _ _ R), DD, concat_app, C. cbn [concat]. rewrite app_nil_r. auto.
  - injection D as <- <-. apply (ONE PIsr); [reflexivity|]. intros p E. destruct (isr_same _ _ E) as (S1 & S2 & S3).
    rewrite after_keep by (rewrite S2; destruct (v_pc x) as [| |[| | |]]; try exact Logic.I; [destruct M as [[->|[->| ->]] _]; discriminate|exact M]).
    unfold v_inv. cbn [v_port v_pc v_reader v_notes]. rewrite S2, S3. split; [exists ns; auto|].
    destruct (v_pc x) as [| |[| | |]]; try exact M.
    + destruct M as [Mp B]. split; [exact Mp|]. rewrite S1 by apply B. exact B.
    + destruct M as [Mp B]. split; [exact Mp|]. rewrite S1 by apply B. exact B.
Qed.

Lemma v_steps_l : forall evs x seen q ps x' more, port_inv Size (v_port x) seen q -> v_inv x -> v_steps Size x evs = (ps, x') ->
  port_polite Size (v_port x) seen (ps ++ more) = true ->
  exists x1 seen' q', x' = Some x1 /\ port_run Size (v_port x) ps = Some (v_port x1) /\ port_inv Size (v_port x1) seen' q' /\ v_inv x1 /\
    port_polite Size (v_port x1) seen' more = true.
Proof.
  induction evs as [|e evs IH]; intros x seen q ps x' more PI I E P; cbn [v_steps] in E.
  - injection E as <- <-. exists x, seen, q. cbn [app port_run] in *. auto.
  - destruct (v_does Size x e) as [ps1 pc] eqn:D.
    destruct (port_run Size (v_port x) ps1) as [p|] eqn:R1.
    + destruct (v_steps Size (v_after p pc (v_reader x) (v_notes x)) evs) as [ps2 x2] eqn:K. injection E as <- <-. rewrite <- app_assoc in P.
      destruct (v_event _ _ _ _ _ _ _ PI I D P) as (p' & s' & q' & R' & PI' & I' & P'). rewrite R1 in R'. injection R' as <-.
      destruct (IH _ s' q' _ _ more ltac:(rewrite after_port; exact PI') I' K ltac:(rewrite after_port; exact P')) as (x1 & s1 & q1 & A1 & A2 & A3 & A4 & A5).
      exists x1, s1, q1. rewrite after_port in A2. split; [exact A1|]. split; [rewrite port_run_app, R1; exact A2|]. auto.
    + injection E as <- <-. destruct (v_event _ _ _ _ _ _ _ PI I D P) as (p' & s' & q' & R' & _). congruence.
Qed.
Lemma hw_steps : forall hw p seen q more, port_inv Size p seen q -> forallb (fun e => negb (software e)) hw = true -> port_polite Size p seen (hw ++ more) = true ->
  exists p' seen' q', port_run Size p hw = Some p' /\ p_rx p' = p_rx p /\ port_inv Size p' seen' q' /\ port_polite Size p' seen' more = true.
Proof.
  induction hw as [|e hw IH]; intros p seen q more PI H P.
  - exists p, seen, q. auto.
  - cbn [app] in P. destruct (polite_one _ _ _ _ _ PI P) as (p1 & s1 & q1 & E & I1 & P1). cbn [forallb] in H. apply andb_prop in H. destruct H as [H1 H2].
    destruct (IH p1 s1 q1 more I1 H2 P1) as (p2 & s2 & q2 & E2 & X & K). exists p2, s2, q2. cbn [port_run]. rewrite E. split; [exact E2|]. split; [|exact K].
    rewrite X. destruct e; try discriminate; cbn [port_step] in E; injection E as <-; reflexivity.
Qed.
Lemma v_steps_soft : forall evs x ps x', v_steps Size x evs = (ps, x') -> forallb software ps = true.
Proof.
  induction evs as [|e evs IH]; intros x ps x' E; cbn [v_steps] in E; [injection E as <- <-; reflexivity|].
  destruct (v_does Size x e) as [ps1 pc] eqn:D.
  assert (S1 : forallb software ps1 = true).
  { destruct e; cbn [v_does] in D; cbv zeta in D; [injection D as <- <-; reflexivity| |injection D as <- <-; reflexivity].
    destruct (v_pc x) as [| |[| |ge|]]; try (injection D as <- <-; reflexivity).
    destruct (v_len Size ge (r_ring (p_rx (v_port x))) >? 0); injection D as <- <-; reflexivity. }
  destruct (port_run Size (v_port x) ps1) as [p|]; [|injection E as <- <-; exact S1].
  destruct (v_steps Size (v_after p pc (v_reader x) (v_notes x)) evs) as [ps2 x2] eqn:K. injection E as <- <-. rewrite forallb_app, S1. exact (IH _ _ _ K).
Qed.

Section Line.
Variables (samples middle last : nat) (n : nat) (par : parity).
Lemma line_hw : forall r b r' hw, line_step samples middle last n par r b = Some (r', hw) -> forallb (fun e => negb (software e)) hw = true.
Proof.
  intros r b r' hw E. unfold line_step in E. destruct (rcv_step samples middle last r b) as [r1 [|f out]].
  - injection E as <- <-. destruct r1 as [|xs]; [reflexivity|]. destruct (Nat.eqb (length xs) (middle + 1)); reflexivity.
  - destruct (decode n par f) as [[d fe] pe]. destruct (fe || pe); [discriminate|]. injection E as <- <-. reflexivity.
Qed.
Lemma v_line_l : forall sched f r i x seen q tevs x' evs, port_inv Size (v_port x) seen q -> v_inv x ->
  line_events samples middle last n par f r i (map (fun _ => []) sched) = Some evs ->
  v_line Size samples middle last n par f r i x sched = (tevs, x') -> port_polite Size (v_port x) seen (map snd tevs) = true ->
  exists x1 psched, x' = Some x1 /\ v_inv x1 /\ length psched = length sched /\ Forall (fun sw => forallb software sw = true) psched /\
    line_events samples middle last n par f r i psched = Some tevs /\ port_run Size (v_port x) (map snd tevs) = Some (v_port x1).
Proof.
  induction sched as [|sw sched IH]; intros f r i x seen q tevs x' evs PI I D E P; cbn [v_line map line_events] in *.
  - injection E as <- <-. exists x, []. cbn [map port_run line_events]. auto 8.
  - destruct (line_step samples middle last n par r (f i)) as [[r' hw]|] eqn:L; [|discriminate].
    destruct (line_events samples middle last n par f r' (i + 1) (map (fun _ => []) sched)) as [evs'|] eqn:D'; [|discriminate]. clear D evs.
    pose proof (line_hw _ _ _ _ L) as NS.
    destruct (port_run Size (v_port x) hw) as [p|] eqn:R1.
    + destruct (v_steps Size (mkMr p (v_pc x) (v_reader x) (v_notes x)) sw) as [ps x2] eqn:K.
      set (tail := match x2 with Some y => fst (v_line Size samples middle last n par f r' (i + 1) y sched) | None => [] end).
      assert (T : tevs = map (fun e => (i, e)) (hw ++ ps) ++ tail /\ (match x2 with Some y => snd (v_line Size samples middle last n par f r' (i + 1) y sched) | None => None end) = x').
      { unfold tail. destruct x2 as [y|]; [destruct (v_line Size samples middle last n par f r' (i + 1) y sched); injection E as <- <-; auto|injection E as <- <-; rewrite app_nil_r; auto]. }
      destruct T as [T1 T2]. clearbody tail || idtac.
      assert (M : map snd tevs = hw ++ ps ++ map snd tail) by (rewrite T1, map_app, map_map; cbn [snd]; rewrite map_id, <- app_assoc; reflexivity).
      rewrite M in P. destruct (hw_steps _ _ _ _ _ PI NS P) as (p1 & s1 & q1 & R1' & X1 & PI1 & P1). rewrite R1 in R1'. injection R1' as <-.
      destruct (v_steps_l sw (mkMr p (v_pc x) (v_reader x) (v_notes x)) s1 q1 ps x2 (map snd tail) PI1 (v_inv_keep x p I X1) K P1) as (y & s2 & q2 & -> & R2 & PI2 & I2 & P2).
      destruct (v_line Size samples middle last n par f r' (i + 1) y sched) as [more x3] eqn:V. injection E as E1 E2. subst x3. rewrite <- E1 in T1. apply app_inv_head in T1. subst tail.
      destruct (IH f r' (i + 1) y s2 q2 more x' evs' PI2 I2 D' V P2) as (x1 & psched & A1 & A2 & A3 & A4 & A5 & A6).
      exists x1, (ps :: psched). split; [exact A1|]. split; [exact A2|]. split; [cbn [length]; congruence|]. split; [constructor; [exact (v_steps_soft _ _ _ _ K)|exact A4]|].
      cbn [line_events]. rewrite L, A5. split; [congruence|]. rewrite M, port_run_app, R1, port_run_app. cbn [v_port] in R2. rewrite R2. exact A6.
    + injection E as <- <-. rewrite map_map in P. cbn [snd] in P. rewrite map_id, <- (app_nil_r hw) in P.
      destruct (hw_steps _ _ _ _ _ PI NS P) as (p1 & s1 & q1 & R1' & _). congruence.
Qed.
End Line.
End Receiver.
Lemma v_start_inv : forall m, v_inv (v_start m).
Proof. intros m. split; [exists []; split; reflexivity|]. split; [reflexivity|]. repeat split. Qed.

(** The reports are those of the bytes answered. *)
Lemma notes_l : forall x ops tail, v_inv x -> Forall w_valid ops -> write_all 0 ops = vals (r_got (p_rx (v_port x))) ++ tail ->
  exists rest, map w_seen ops = map seen (v_notes x) ++ rest /\ (tail = [] -> rest = []).
Proof.
  intros x ops tail [(ns & R & C) _] V W. pose proof (written_bytes ops V) as WB. rewrite W, map_app in WB.
  assert (WV : map u8 (vals (r_got (p_rx (v_port x)))) = vals (r_got (p_rx (v_port x)))) by (eapply app_inj_len; [apply map_length|exact WB]).
  rewrite WV in R. pose proof (writer_reader_l ops V) as WR. rewrite W, read_all_app, R in WR.
  destruct (read_all (v_reader x) tail) as [r2 n2] eqn:E2. cbn [snd] in WR. rewrite concat_app, map_app, C in WR.
  exists (map seen (concat n2)). split; [symmetry; exact WR|]. intros ->. cbn [read_all] in E2. injection E2 as _ <-. reflexivity.
Qed.

(** ** Emptying the buffer *)
Section Drain.
Variable Size : Z.
Hypothesis HS : 1 <= Size <= 65535.
Lemma v_steps_app : forall a b x, v_steps Size x (a ++ b) =
  match v_steps Size x a with
  | (ps, Some y) => let (more, z) := v_steps Size y b in (ps ++ more, z)
  | (ps, None) => (ps, None)
  end.
Proof.
  induction a as [|e a IH]; intros b x; cbn [app v_steps].
  - destruct (v_steps Size x b). reflexivity.
  - destruct (v_does Size x e) as [ps pc]. destruct (port_run Size (v_port x) ps) as [p|]; [|reflexivity]. rewrite IH.
    destruct (v_steps Size (v_after p pc (v_reader x) (v_notes x)) a) as [ps1 [y|]]; [|reflexivity].
    destruct (v_steps Size y b). now rewrite app_assoc.
Qed.
Lemma vals_snoc : forall l v, is_byte v -> vals (l ++ [v]) = vals l ++ [v].
Proof.
  intros l v B. unfold vals. rewrite filter_app. cbn [filter]. unfold is_byte in B. replace (0 <=? v) with true by lia. reflexivity.
Qed.
Lemma round_l : forall x v q, v_inv x -> v_pc x = VMidi MIdle -> is_byte v -> holds Size (r_ring (p_rx (v_port x))) (v :: q) ->
  exists ps x', v_steps Size x (VvRead :: repeat VvStep 7) = (ps, Some x') /\ v_inv x' /\ v_pc x' = VMidi MIdle /\
    holds Size (r_ring (p_rx (v_port x'))) q /\ r_got (p_rx (v_port x')) = r_got (p_rx (v_port x)) ++ [v].
Proof.
  intros x v q I P B H. destruct x as [[u [r ien pc got acc] tk] vpc rd ns]. cbn [v_pc v_port p_rx r_ring r_got] in *. subst vpc.
  destruct I as [(nn & R & C) PC]. cbn [v_port p_rx r_got v_reader v_notes v_pc r_pc] in R, C, PC. subst pc.
  assert (SL : (if rb_wr r >=? rb_rd r then u16 (rb_wr r - rb_rd r) else u16 (Size - (rb_rd r - rb_wr r))) >? 0 = true).
  { rewrite (StreamProofs.sub_length Size HS r (v :: q) _ H); [reflexivity|]. intros X. clear - X. lia. }
  destruct (holds_read Size HS r v q H) as (r' & E & H').
  unfold ring_read in E. destruct (inb (rb_rd r) Size) eqn:IB; [|discriminate].
  assert (E1 : rb_mem r (rb_rd r) = v) by congruence. assert (E2 : r' = mkRing (rb_mem r) (rb_wr r) (if rb_rd r + 1 >=? Size then 0 else rb_rd r + 1)) by congruence. clear E.
  destruct (dispatch rd (u8 (s16 v))) as [[rd' more] ok] eqn:D.
  eexists _, (mkMr (mkPort u (mkRx r' ien RIdle (got ++ [s16 v]) acc) tk) (VMidi MIdle) rd' (ns ++ more)).
  assert (VV : s16 v = v) by (unfold is_byte in B; rewrite s16_small by lia; reflexivity).
  split; [|split; [|split; [reflexivity|split; [exact H'|cbn [v_port p_rx r_got]; rewrite VV; reflexivity]]]].
  - cbn [repeat v_steps v_does v_pc v_port p_rx r_ring port_run v_after v_reader v_notes]. unfold v_len. rewrite SL.
    cbn [v_steps v_does v_pc v_port p_rx r_ring r_ien r_pc r_got r_acc p_uart p_taken port_run port_step rx_step rx_main v_after v_reader v_notes rb_wr rb_rd rb_mem].
    rewrite SL.
    cbn [v_steps v_does v_pc v_port p_rx r_ring r_ien r_pc r_got r_acc p_uart p_taken port_run port_step rx_step rx_main v_after v_reader v_notes rb_wr rb_rd rb_mem].
    rewrite IB, E1.
    cbn [v_steps v_does v_pc v_port p_rx r_ring r_ien r_pc r_got r_acc p_uart p_taken port_run port_step rx_step rx_main v_after v_reader v_notes rb_wr rb_rd rb_mem].
    rewrite last_last. replace (s16 v =? -1) with false by (rewrite VV; unfold is_byte in B; clear - B; lia). rewrite D, E2.
    reflexivity.
  - split; [|reflexivity]. cbn [v_port p_rx r_got v_reader v_notes v_pc r_pc]. rewrite VV in *. exists (nn ++ [more]).
    rewrite vals_snoc, map_app, read_all_app, R by exact B. cbn [map read_all]. rewrite D. split; [reflexivity|]. rewrite concat_app, C. cbn [concat]. now rewrite app_nil_r.
Qed.
Lemma drain_l : forall q x, v_inv x -> v_pc x = VMidi MIdle -> Forall is_byte q -> holds Size (r_ring (p_rx (v_port x))) q ->
  exists ps x', v_steps Size x (concat (repeat (VvRead :: repeat VvStep 7) (length q))) = (ps, Some x') /\ v_inv x' /\
    v_pc x' = VMidi MIdle /\ holds Size (r_ring (p_rx (v_port x'))) [] /\ r_got (p_rx (v_port x')) = r_got (p_rx (v_port x)) ++ q.
Proof.
  induction q as [|v q IH]; intros x I P B H.
  - exists [], x. cbn [length repeat concat v_steps]. rewrite app_nil_r. auto 8.
  - inversion B; subst. destruct (round_l x v q I P ltac:(assumption) H) as (ps & x1 & E & I1 & P1 & H1 & G1).
    destruct (IH x1 I1 P1 ltac:(assumption) H1) as (ps2 & x2 & E2 & I2 & P2 & HH2 & G2).
    match goal with |- context [repeat ?r (length (v :: q))] => change (repeat r (length (v :: q))) with (r :: repeat r (length q)) end. cbn [concat].
    rewrite v_steps_app, E, E2. exists (ps ++ ps2), x2. rewrite G2, G1, <- app_assoc. auto 8.
Qed.
Lemma vals_app_bytes : forall q l, Forall is_byte q -> vals (l ++ q) = vals l ++ q.
Proof.
  induction q as [|v q IH]; intros l B; [now rewrite !app_nil_r|]. inversion B; subst.
  change (v :: q) with ([v] ++ q). rewrite !app_assoc. rewrite IH, vals_snoc by assumption. reflexivity.
Qed.
End Drain.

(** ** End to end *)
Lemma midi_wire_l : forall F G c1 c2 id1 id2 m1 m2 cs a t0 sched Size m evs ys s,
  1 <= F -> 1 <= G -> id1 = 0 \/ id1 = 1 -> id2 = 0 \/ id2 = 1 -> c_bits c1 = 3 -> c_bits c2 = 3 -> c_par c2 = c_par c1 ->
  0 <= c_ubrr c1 < 65536 -> 0 <= c_ubrr c2 < 65536 -> c_div c1 = 8 \/ c_div c1 = 16 -> c_div c2 = 8 \/ c_div c2 = 16 ->
  tolerable (speed_samples (c_div c2)) (speed_middle (c_div c2)) (last_bit 8 (c_par c1))
    (bit_time G (c_div c1) (c_ubrr c1)) (sample_time F (c_ubrr c2)) ->
  WireSpec.spaced (frame_time G c1) t0 cs -> a - sample_time F (c_ubrr c2) < t0 ->
  1 <= Size <= 65535 -> s_steps Size (s_start m) evs = (ys, Some s) -> xport_polite Size (xport_init m) false ys = true ->
  map snd cs = x_line (y_utx (s_port s)) ->
  Forall w_valid (s_ops s) -> Forall (fun d => snd d = true) (t_done (HwTxModel.y_tx (s_port s))) ->
  forall Size' m', 1 <= Size' <= 65535 ->
  exists tevs x', midi_receiving F G (opened m1 id1 c1) id1 (opened m2 id2 c2) id2 cs a Size' m' sched = Some (tevs, x') /\
  (port_polite Size' (port_init m') false (map snd tevs) = true ->
   HwRxSpec.served (2 * (c_div c2 * (match c_par c1 with POff => 9 | _ => 10 end))) [] false (timed Size' (port_init m') tevs) = true ->
   exists x, x' = Some x /\
     (length (r_acc (p_rx (v_port x))) = length (p_taken (v_port x)) \/ Z.of_nat (length (p_taken (v_port x))) <= Size' - 1 ->
      (exists rest, map w_seen (s_ops s) = map seen (v_notes x) ++ rest) /\
      (v_pc x = VMidi MIdle -> unread (p_uart (v_port x)) = [] ->
       length cs = length (write_all 0 (s_ops s)) ->
       Forall (fun f => fst f + frame_time G c1 <= a + (Z.of_nat (length sched) - 1) * sample_time F (c_ubrr c2)) cs ->
       exists ps x1, v_steps Size' x (concat (repeat (VvRead :: repeat VvStep 7) (Z.to_nat (ring_length Size' (r_ring (p_rx (v_port x))))))) = (ps, Some x1) /\
         v_pc x1 = VMidi MIdle /\ map seen (v_notes x1) = map w_seen (s_ops s)))).
Proof.
  intros F G c1 c2 id1 id2 m1 m2 cs a t0 sched Size m evs ys s HF HG I1 I2 B1 B2 EP U1 U2 D1 D2 TOL SP BE HS XS XP LX V AC Size' m' HS'.
  destruct (s_steps_l Size evs (s_start m) ys (Some s) (s_start_inv m) XS) as [XR SI]. specialize (SI s eq_refl). cbn [option_map s_start s_port] in XR.
  pose proof (fun sched' SW => wire_rates_l F G c1 c2 id1 id2 m1 m2 cs a t0 sched' Size m ys (s_port s)
    HF HG I1 I2 B1 B2 EP U1 U2 D1 D2 TOL SP BE HS XP XR LX SW) as WS.
  destruct (WS (map (fun _ => []) sched)) as (ev0 & c0 & R0 & _).
  { apply Forall_forall. intros sw IN. apply in_map_iff in IN. destruct IN as (_ & <- & _). reflexivity. }
  unfold receiving in R0. unfold midi_receiving.
  destruct (hw_frame (opened m1 id1 c1) id1) as [[[n1 p1] two]|] eqn:E1; [|discriminate].
  destruct (hw_frame (opened m2 id2 c2) id2) as [[[n2 p2] two2]|] eqn:E2; [|discriminate]. cbv zeta in *.
  destruct (v_line Size' (speed_samples (hw_divider (opened m2 id2 c2) id2)) (speed_middle (hw_divider (opened m2 id2 c2) id2)) (last_bit (Z.to_nat n2) p2)
    (Z.to_nat n2) p2 (sampled (bit_time G (hw_divider (opened m1 id1 c1) id1) (hw_ubrr (opened m1 id1 c1) id1)) (sample_time F (hw_ubrr (opened m2 id2 c2) id2)) a
      (frames_of (Z.to_nat n1) p1 two cs)) (WIdle true) 0 (v_start m') sched) as [tevs x'] eqn:VL.
  exists tevs, x'. split; [reflexivity|]. intros PO SE.
  destruct (v_line_l Size' HS' _ _ _ _ _ _ _ _ _ (v_start m') _ _ _ _ _ (port_init_inv Size' HS' m') (v_start_inv m') R0 VL PO) as (x & ps & -> & VI & LP & SW & LE & PR).
  destruct (WS ps SW) as (ev1 & c & R1 & HE & ST). unfold receiving in R1. rewrite E1, E2 in R1. cbv zeta in R1. rewrite LE in R1. injection R1 as <-.
  exists x. split; [reflexivity|]. rewrite LP in HE.
  destruct (ST Size' m' HS' PO SE) as (r & PR' & Q). cbn [v_start v_port] in PR. rewrite PR in PR'. injection PR' as <-.
  intros LL. destruct (Q LL) as (queued & later & IR & QA & QB). clear Q ST WS.
  set (A := vals (r_got (p_rx (v_port x)))). fold (vals (r_got (p_rx (v_port x)))) in QA. fold A in QA.
  destruct SI as [SB _]. unfold s_tx in SB. rewrite (all_done _ AC) in QB. rewrite (written_bytes _ V) in SB.
  assert (W : exists more, write_all 0 (s_ops s) = firstn c (map snd cs) ++ more).
  { rewrite <- SB. destruct (t_pc (HwTxModel.y_tx (s_port s))) eqn:Q; cbn [current app] in *; rewrite ?app_nil_r in QB; try (rewrite QB, <- app_assoc; eexists; reflexivity).
    match goal with |- exists _, ?u ++ ?v :: ?w = _ => change (u ++ v :: w) with (u ++ [v] ++ w) end. rewrite app_assoc, QB, <- app_assoc. eexists. reflexivity. }
  destruct W as [more W]. rewrite <- QA, <- app_assoc in W.
  destruct (notes_l x (s_ops s) _ VI V W) as (rest & X1 & X2). split; [exists rest; exact X1|].
  intros P U LC FA.
  assert (CL : c = length cs).
  { destruct HE as [H1 H2]. destruct (Nat.eq_dec c (length cs)) as [|NE]; [assumption|]. exfalso.
    destruct (nth_error cs c) as [[q d]|] eqn:NT; [|apply nth_error_None in NT; lia].
    destruct (H2 c q d NT) as [H3 _]. pose proof (proj1 (Forall_forall _ _) FA (q, d) (nth_error_In _ _ NT)) as H4. cbn [fst] in H4. specialize (H3 H4). lia. }
  destruct (port_run_inv Size' HS' _ _ _ _ (port_init_inv Size' HS' m') PO) as (r' & sn & q & PR2 & [RI _]). rewrite PR in PR2. injection PR2 as <-.
  pose proof VI as [_ VP]. rewrite P in VP. destruct RI as [BQ RI]. rewrite VP in *. destruct RI as [HO _]. specialize (IR VP). destruct IR as [IL (r1 & an & RR & AN)].
  pose proof (holds_length Size' HS' _ _ HO) as HL.
  assert (QQ : queued = q).
  { destruct (holds_run Size' HS' q _ HO) as (r2 & an2 & RR2 & AN2). assert (LL2 : length queued = length q) by lia. rewrite LL2 in RR. rewrite RR2 in RR. injection RR as <- <-.
    rewrite AN in AN2. revert AN2. clear. revert q. induction queued as [|u l IH]; intros [|w q] E; try discriminate; [reflexivity|]. injection E as -> E. now rewrite (IH q E). }
  subst queued. rewrite HL, Nat2Z.id. destruct (drain_l Size' HS' q x VI P BQ HO) as (ps1 & x1 & DS & VI1 & P1 & _ & G1). exists ps1, x1. split; [exact DS|]. split; [exact P1|].
  rewrite U in *. cbn [map app] in *. rewrite app_nil_r in *.
  assert (more = []) as ->.
  { destruct more as [|? ?]; [reflexivity|]. exfalso. apply (f_equal (@length Z)) in QA. rewrite firstn_length, map_length in QA.
    apply (f_equal (@length Z)) in W. rewrite !app_length in W. rewrite app_length in QA. cbn [length] in W. fold A in W. lia. }
  rewrite app_nil_r in W. destruct (notes_l x1 (s_ops s) [] VI1 V) as (rest' & Y1 & Y2).
  { rewrite G1, vals_app_bytes, app_nil_r by exact BQ. exact W. }
  rewrite Y1, (Y2 eq_refl), app_nil_r. reflexivity.
Qed.

(** ** What the sender has put on the line *)
Lemma s_sends_l : forall Size m evs ys s', 1 <= Size <= 65535 -> s_steps Size (s_start m) evs = (ys, s') ->
  xport_polite Size (xport_init m) false ys = true ->
  exists s, s' = Some s /\
    (Forall w_valid (s_ops s) -> Forall (fun d => snd d = true) (t_done (HwTxModel.y_tx (s_port s))) ->
     exists waiting, write_all 0 (s_ops s) = x_line (y_utx (s_port s)) ++ waiting ++ map u8 (s_todo s) /\
       Z.of_nat (length waiting) <= Size + 2).
Proof.
  intros Size m evs ys s' HS E P.
  destruct (hw_tx_stream_l Size HS m ys P) as (p & queued & R & B & L1 & L2).
  destruct (s_steps_l Size evs (s_start m) ys s' (s_start_inv m) E) as [XR SI]. cbn [s_start s_port] in XR. rewrite R in XR.
  destruct s' as [s|]; [|discriminate]. cbn [option_map] in XR. exists s. split; [reflexivity|]. intros V AC.
  specialize (SI s eq_refl). destruct SI as [SB _]. unfold s_tx in SB. assert (p = s_port s) by congruence. subst p.
  rewrite (all_done _ AC) in B. rewrite (written_bytes _ V) in SB.
  rewrite <- SB.
  exists (outstanding (y_utx (s_port s)) ++ queued ++ match t_pc (HwTxModel.y_tx (s_port s)) with TWrap _ => [] | q => current q end).
  split.
  - destruct (t_pc (HwTxModel.y_tx (s_port s))) eqn:Q; cbn [current] in *; rewrite ?app_nil_r in *; rewrite ?app_assoc in *; rewrite ?B; rewrite <- ?app_assoc; reflexivity.
  - rewrite !app_length. assert (length match t_pc (HwTxModel.y_tx (s_port s)) with TWrap _ => [] | q => current q end <= 1)%nat; [|lia].
    destruct (t_pc (HwTxModel.y_tx (s_port s))); cbn [current length]; lia.
Qed.
