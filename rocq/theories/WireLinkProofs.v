(** Proofs for C101. *)
Require Import ZArith List Bool Lia ZifyBool.
Import ListNotations.
From Verif Require Import Base BaseFacts AvrModel AvrSpec WireModel WireSpec WireProofs RingModel StreamModel StreamSpec StreamProofs HwRxModel HwRxSpec HwRxProofs
  HwTxModel HwTxSpec HwTxProofs HwLinkProps WireLinkModel.
Open Scope Z_scope.
Local Ltac Zify.zify_post_hook ::= idtac.

(** The characters of a schedule, by its events. *)
Fixpoint pchars (busy : bool) (evs : list pev) : list Z :=
  match evs with
  | [] => []
  | PStart :: rest => pchars true rest
  | PStop d :: rest => if busy then d :: pchars false rest else pchars false rest
  | _ :: rest => pchars busy rest
  end.
Lemma timed_wire : forall Size evs p, map snd (timed Size p evs) = wire Size p (map snd evs).
Proof.
  intros Size evs. induction evs as [|[t e] evs IH]; intros p; [reflexivity|]. cbn [timed wire map snd].
  rewrite map_app, map_map. f_equal.
  - rewrite map_ext with (g := fun u => u) by reflexivity. apply map_id.
  - destruct (port_step Size p e); [apply IH|reflexivity].
Qed.
Lemma wire_pchars : forall Size evs p p' b, port_run Size p evs = Some p' -> chars b (wire Size p evs) = pchars b evs.
Proof.
  intros Size evs. induction evs as [|e evs IH]; intros p p' b R; [reflexivity|]. cbn [port_run] in R. cbn [wire].
  destruct (port_step Size p e) as [p1|] eqn:E; [|discriminate].
  destruct e as [|d| | |]; cbn [app chars pchars].
  - apply (IH p1 p'); exact R.
  - destruct b; [f_equal|]; apply (IH p1 p'); exact R.
  - destruct (r_ien (p_rx p)); cbn [app chars]; apply (IH p1 p'); exact R.
  - apply (IH p1 p'); exact R.
  - apply (IH p1 p'); exact R.
Qed.
Lemma pchars_software : forall sw b evs, forallb software sw = true -> pchars b (sw ++ evs) = pchars b evs.
Proof.
  intros sw. induction sw as [|e sw IH]; intros b evs H; [reflexivity|]. cbn [forallb] in H. apply andb_prop in H. destruct H as [H1 H2].
  cbn [app]. destruct e; try discriminate H1; cbn [pchars]; apply IH; exact H2.
Qed.

Section Line.
Variables (SA MI LA : nat) (n : nat) (par : parity).
Hypothesis MI1 : (1 <= MI)%nat.
Hypothesis SA1 : (1 <= SA)%nat.
Hypothesis LA1 : (1 <= LA)%nat.
Let L := (LA * SA + MI + 1)%nat.
Lemma L_big : (MI + 1 < L)%nat. Proof. unfold L. nia. Qed.

(** A receiver on its way: the number of samples is below the end. *)
Definition on_way (r : rcv) : Prop := match r with WIdle _ => True | WBusy xs => (1 <= length xs < L)%nat end.
Definition is_busy (r : rcv) : bool := match r with WIdle _ => false | WBusy xs => (MI + 1 <=? length xs)%nat end.

Lemma line_step_l : forall r x, on_way r ->
  match snd (rcv_step SA MI LA r x) with
  | [] => exists hw, line_step SA MI LA n par r x = Some (fst (rcv_step SA MI LA r x), hw) /\ on_way (fst (rcv_step SA MI LA r x)) /\
      ((hw = [] /\ is_busy (fst (rcv_step SA MI LA r x)) = is_busy r) \/
       (hw = [PStart] /\ is_busy r = false /\ is_busy (fst (rcv_step SA MI LA r x)) = true))
  | [f] => is_busy r = true /\ is_busy (fst (rcv_step SA MI LA r x)) = false /\ on_way (fst (rcv_step SA MI LA r x)) /\
      forall d, decode n par f = (d, false, false) -> line_step SA MI LA n par r x = Some (fst (rcv_step SA MI LA r x), [PStop d])
  | _ => False
  end.
Proof.
  assert (LB := L_big).
  intros [pv|xs] x W; unfold line_step; cbn [rcv_step].
  - cbn [fst snd]. destruct (pv && negb x).
    + replace (length [x] =? MI + 1)%nat with false by (cbn [length]; symmetry; apply Nat.eqb_neq; lia).
      exists []. refine (conj eq_refl (conj _ (or_introl (conj eq_refl _)))); [cbn; lia|].
      cbn [is_busy length]. apply Nat.leb_gt. lia.
    + exists []. refine (conj eq_refl (conj Logic.I (or_introl (conj eq_refl eq_refl)))).
  - cbn [on_way] in W. assert (E : length (xs ++ [x]) = S (length xs)) by (rewrite app_length; cbn; lia). rewrite E.
    destruct (Nat.eqb (S (length xs)) (MI + 1)) eqn:E1; cbn [andb].
    + apply Nat.eqb_eq in E1. assert (B0 : is_busy (WBusy xs) = false) by (cbn [is_busy]; apply Nat.leb_gt; lia).
      destruct (vote SA MI (xs ++ [x]) 0).
      * cbn [fst snd]. exists []. refine (conj eq_refl (conj Logic.I (or_introl (conj eq_refl _)))). rewrite B0. reflexivity.
      * replace (Nat.eqb (S (length xs)) (LA * SA + MI + 1)) with false by (symmetry; apply Nat.eqb_neq; fold L; lia).
        cbn [fst snd]. rewrite E. replace (Nat.eqb (S (length xs)) (MI + 1)) with true by (symmetry; apply Nat.eqb_eq; lia).
        exists [PStart]. refine (conj eq_refl (conj _ (or_intror (conj eq_refl (conj B0 _))))).
        -- cbn [on_way]. rewrite E. lia.
        -- cbn [is_busy]. rewrite E. apply Nat.leb_le. lia.
    + apply Nat.eqb_neq in E1. destruct (Nat.eqb (S (length xs)) (LA * SA + MI + 1)) eqn:E2; cbn [fst snd].
      * apply Nat.eqb_eq in E2. fold L in E2. split; [cbn [is_busy]; apply Nat.leb_le; lia|]. split; [reflexivity|]. split; [exact Logic.I|].
        intros d D. rewrite D. reflexivity.
      * apply Nat.eqb_neq in E2. fold L in E2. rewrite E. replace (Nat.eqb (S (length xs)) (MI + 1)) with false by (symmetry; apply Nat.eqb_neq; lia).
        exists []. refine (conj eq_refl (conj _ (or_introl (conj eq_refl _)))).
        -- cbn [on_way]. rewrite E. lia.
        -- cbn [is_busy]. rewrite E. apply Bool.eq_iff_eq_true. rewrite !Nat.leb_le. lia.
Qed.

Lemma line_events_l : forall f sched r i ds, on_way r -> Forall (fun sw => forallb software sw = true) sched ->
  map (decode n par) (snd (rcv_run SA MI LA f r i (length sched))) = map (fun d => (d, false, false)) ds ->
  exists evs, line_events SA MI LA n par f r i sched = Some evs /\ pchars (is_busy r) (map snd evs) = ds.
Proof.
  intros f sched. induction sched as [|sw sched IH]; intros r i ds W SW H.
  - cbn in H. destruct ds; [|discriminate]. exists []. split; reflexivity.
  - inversion SW as [|? ? SW1 SW2 [X1 X2]]; subst. cbn [length rcv_run] in H. cbn [line_events].
    assert (ST := line_step_l r (f i) W). destruct (rcv_step SA MI LA r (f i)) as [r1 out] eqn:E. cbn [fst snd] in ST.
    destruct (rcv_run SA MI LA f r1 (i + 1) (length sched)) as [r2 outs] eqn:E2. cbn [snd] in H. rewrite map_app in H.
    destruct out as [|fr [|? ?]]; [| |contradiction].
    + destruct ST as [hw [S1 [S2 S3]]]. rewrite S1.
      destruct (IH r1 (i + 1) ds S2 SW2) as [evs [V1 V2]]; [rewrite E2; exact H|]. rewrite V1. eexists. split; [reflexivity|].
      rewrite map_app, map_map, map_ext with (g := fun e => e) by reflexivity. rewrite map_id, <- app_assoc.
      destruct S3 as [[-> B] | [-> [B1 B2]]]; cbn [app pchars]; rewrite pchars_software by exact SW1.
      * rewrite <- B. exact V2.
      * rewrite <- B2. exact V2.
    + destruct ST as [B1 [B2 [S2 S3]]]. cbn [map app] in H. destruct ds as [|d ds]; [discriminate|]. cbn [map] in H. assert (H1 := f_equal (fun l => hd (0, false, false) l) H). assert (H2 := f_equal (@tl _) H). cbn [hd tl] in H1, H2. clear H.
      rewrite (S3 d H1). destruct (IH r1 (i + 1) ds S2 SW2) as [evs [V1 V2]]; [rewrite E2; exact H2|]. rewrite V1. eexists. split; [reflexivity|].
      rewrite map_app, map_map, map_ext with (g := fun e => e) by reflexivity. rewrite map_id, <- app_assoc. cbn [app pchars]. rewrite B1.
      rewrite pchars_software by exact SW1. rewrite <- B2. f_equal. exact V2.
Qed.

(** A character takes its number of samples. *)
Definition started (r : rcv) (i : Z) : option Z :=
  match r with
  | WIdle _ => None
  | WBusy xs => if (MI + 1 <=? length xs)%nat then Some (i - 1 - (Z.of_nat (length xs) - Z.of_nat (MI + 1))) else None
  end.
Definition hw_ev (e : pev) : Prop := match e with PStart | PStop _ => True | _ => False end.

Lemma paced_now : forall B evs now now' st, now' <= now -> paced B now st evs = true -> paced B now' st evs = true.
Proof.
  intros B evs now now' st LE H. destruct evs as [|[t e] evs]; [reflexivity|]. cbn [paced] in *. apply andb_prop in H. destruct H as [H1 H2].
  rewrite H2. replace (now' <=? t) with true by lia. reflexivity.
Qed.
Lemma paced_software : forall Size B t st rest sw p, forallb software sw = true ->
  (forall p', paced B t st (timed Size p' rest) = true) -> paced B t st (timed Size p (map (fun e => (t, e)) sw ++ rest)) = true.
Proof.
  intros Size B t st rest sw. induction sw as [|e sw IH]; intros p H R; [apply R|]. cbn [forallb] in H. apply andb_prop in H. destruct H as [H1 H2].
  cbn [map app timed].
  assert (K : paced B t st (match port_step Size p e with Some p' => timed Size p' (map (fun e => (t, e)) sw ++ rest) | None => [] end) = true).
  { destruct (port_step Size p e); [apply IH; assumption|reflexivity]. }
  destruct e; try discriminate H1; cbn [map app]; try exact K.
  destruct (r_ien (p_rx p)); cbn [map app]; [|exact K]. cbn [paced]. rewrite K, Z.leb_refl. reflexivity.
Qed.

Lemma paced_l : forall Size f sched r i evs p, on_way r -> Forall (fun sw => forallb software sw = true) sched ->
  line_events SA MI LA n par f r i sched = Some evs ->
  paced (Z.of_nat (LA * SA)) (i - 1) (started r i) (timed Size p evs) = true.
Proof.
  assert (LB := L_big).
  intros Size f sched. induction sched as [|sw sched IH]; intros r i evs p W SW H.
  - cbn in H. injection H as <-. reflexivity.
  - inversion SW as [|? ? SW1 SW2 [X1 X2]]; subst. cbn [line_events] in H.
    destruct (line_step SA MI LA n par r (f i)) as [[r1 hw]|] eqn:E; [|discriminate].
    destruct (line_events SA MI LA n par f r1 (i + 1) sched) as [evs'|] eqn:E2; [|discriminate]. injection H as <-.
    assert (W1 : on_way r1 /\ ((hw = [] /\ started r1 (i + 1) = started r i) \/ (hw = [PStart] /\ started r i = None /\ started r1 (i + 1) = Some i) \/
                 (exists d, hw = [PStop d] /\ started r1 (i + 1) = None /\ started r i = Some (i - Z.of_nat (LA * SA))))).
    { clear - E W MI1 SA1 LA1 LB. unfold line_step in E. destruct r as [pv|xs]; cbn [rcv_step] in E.
      - injection E as <- <-. destruct (pv && negb (f i)).
        + replace (length [f i] =? MI + 1)%nat with false by (cbn [length]; symmetry; apply Nat.eqb_neq; lia).
          split; [cbn; lia|]. left. split; [reflexivity|]. unfold started. replace (MI + 1 <=? length [f i])%nat with false by (cbn [length]; symmetry; apply Nat.leb_gt; lia). reflexivity.
        + split; [exact Logic.I|]. left. split; reflexivity.
      - cbn [on_way] in W. assert (EL : length (xs ++ [f i]) = S (length xs)) by (rewrite app_length; cbn; lia). rewrite EL in E.
        change (started (WBusy xs) i) with (if (MI + 1 <=? length xs)%nat then Some (i - 1 - (Z.of_nat (length xs) - Z.of_nat (MI + 1))) else None).
        destruct (Nat.eqb (S (length xs)) (MI + 1)) eqn:E1; cbn [andb] in E.
        + apply Nat.eqb_eq in E1. replace (MI + 1 <=? length xs)%nat with false by (symmetry; apply Nat.leb_gt; lia).
          destruct (vote SA MI (xs ++ [f i]) 0); [injection E as <- <-; split; [exact Logic.I|left; split; reflexivity]|].
          replace (Nat.eqb (S (length xs)) (LA * SA + MI + 1)) with false in E by (symmetry; apply Nat.eqb_neq; fold L; lia).
          rewrite EL in E. replace (Nat.eqb (S (length xs)) (MI + 1)) with true in E by (symmetry; apply Nat.eqb_eq; lia).
          injection E as <- <-. split; [cbn [on_way]; rewrite EL; lia|]. right; left. split; [reflexivity|]. split; [reflexivity|].
          unfold started. rewrite EL. replace (MI + 1 <=? S (length xs))%nat with true by (symmetry; apply Nat.leb_le; lia). f_equal. lia.
        + apply Nat.eqb_neq in E1. destruct (Nat.eqb (S (length xs)) (LA * SA + MI + 1)) eqn:E3.
          * apply Nat.eqb_eq in E3. destruct (decode n par (map (vote SA MI (xs ++ [f i])) (seq 0 (S LA)))) as [[d fe] pe]. destruct (fe || pe); [discriminate|].
            injection E as <- <-. split; [exact Logic.I|]. right; right. exists d. split; [reflexivity|]. split; [reflexivity|].
            fold L in E3. replace (MI + 1 <=? length xs)%nat with true by (symmetry; apply Nat.leb_le; lia). f_equal. unfold L in E3. lia.
          * apply Nat.eqb_neq in E3. fold L in E3. rewrite EL in E. replace (Nat.eqb (S (length xs)) (MI + 1)) with false in E by (symmetry; apply Nat.eqb_neq; lia).
            injection E as <- <-. split; [cbn [on_way]; rewrite EL; lia|]. left. split; [reflexivity|]. unfold started. rewrite EL.
            destruct (MI + 1 <=? length xs)%nat eqn:E4.
            -- apply Nat.leb_le in E4. replace (MI + 1 <=? S (length xs))%nat with true by (symmetry; apply Nat.leb_le; lia). f_equal. lia.
            -- apply Nat.leb_gt in E4. replace (MI + 1 <=? S (length xs))%nat with false by (symmetry; apply Nat.leb_gt; lia). reflexivity. }
    destruct W1 as [W1 C].
    assert (REST : forall p', paced (Z.of_nat (LA * SA)) i (started r1 (i + 1)) (timed Size p' evs') = true).
    { intros p'. replace i with (i + 1 - 1) at 1 by lia. apply (IH r1 (i + 1) evs' p' W1 SW2 E2). }
    destruct C as [[-> C] | [[-> [C1 C2]] | [d [-> [C1 C2]]]]]; cbn [app map].
    + rewrite <- C. apply paced_now with (now := i); [lia|]. apply paced_software; assumption.
    + cbn [timed port_step map app]. cbn [paced]. replace (i - 1 <=? i) with true by lia. rewrite C1. cbn [andb]. rewrite C2 in REST. apply paced_software; assumption.
    + cbn [timed port_step map app]. cbn [paced]. replace (i - 1 <=? i) with true by lia. rewrite C2. cbn [andb].
      replace (i - Z.of_nat (LA * SA) + Z.of_nat (LA * SA) <=? i) with true by lia. cbn [andb]. rewrite C1 in REST. apply paced_software; assumption.
Qed.
End Line.

Lemma receiving_l : forall F G m1 id1 m2 id2 cs a sched ds b par two, hw_frame m2 id2 = Some (5 + b, par, two) -> 0 <= b ->
  Forall (fun sw => forallb software sw = true) sched ->
  heard F G m1 id1 m2 id2 cs a (length sched) = Some (map (fun d => (d, false, false)) ds) ->
  exists evs, receiving F G m1 id1 m2 id2 cs a sched = Some evs /\ pchars false (map snd evs) = ds /\
    forall Size p, paced (hw_divider m2 id2 * (6 + b + match par with POff => 0 | _ => 1 end)) (-1) None (timed Size p evs) = true.
Proof.
  intros F G m1 id1 m2 id2 cs a sched ds b par two H2 B SW H. unfold heard, receiving in *. rewrite H2 in *.
  destruct (hw_frame m1 id1) as [[[n1 p1] two1]|]; [|discriminate]. cbv zeta in *. injection H as H.
  assert (D : hw_divider m2 id2 = 8 \/ hw_divider m2 id2 = 16) by (unfold hw_divider; destruct (Z.testbit _ 1); auto).
  destruct (speeds _ D) as [D1 [_ [D3 D4]]].
  set (SA := speed_samples (hw_divider m2 id2)) in *. set (MI := speed_middle (hw_divider m2 id2)) in *.
  set (LA := last_bit (Z.to_nat (5 + b)) par) in *.
  assert (LK : Z.of_nat LA = 6 + b + match par with POff => 0 | _ => 1 end) by (unfold LA, last_bit; destruct par; lia).
  assert (L1 : (1 <= LA)%nat) by (unfold LA, last_bit; destruct par; lia).
  destruct (line_events_l SA MI LA (Z.to_nat (5 + b)) par ltac:(lia) ltac:(lia) L1 _ sched (WIdle true) 0 ds Logic.I SW H) as [evs [V1 V2]].
  exists evs. refine (conj V1 (conj V2 _)). intros Size p.
  assert (P := paced_l SA MI LA (Z.to_nat (5 + b)) par ltac:(lia) ltac:(lia) L1 Size _ sched (WIdle true) 0 evs p Logic.I SW V1).
  rewrite Nat2Z.inj_mul, LK, D1, Z.mul_comm in P. exact P.
Qed.

Lemma wire_rates_l : forall F G c1 c2 id1 id2 m1 m2 cs a t0 sched Size m evs p,
  1 <= F -> 1 <= G -> id1 = 0 \/ id1 = 1 -> id2 = 0 \/ id2 = 1 -> c_bits c1 = 3 -> c_bits c2 = 3 -> c_par c2 = c_par c1 ->
  0 <= c_ubrr c1 < 65536 -> 0 <= c_ubrr c2 < 65536 -> c_div c1 = 8 \/ c_div c1 = 16 -> c_div c2 = 8 \/ c_div c2 = 16 ->
  tolerable (speed_samples (c_div c2)) (speed_middle (c_div c2)) (last_bit 8 (c_par c1))
    (bit_time G (c_div c1) (c_ubrr c1)) (sample_time F (c_ubrr c2)) ->
  WireSpec.spaced (frame_time G c1) t0 cs -> a - sample_time F (c_ubrr c2) < t0 ->
  1 <= Size <= 65535 -> xport_polite Size (xport_init m) false evs = true -> xport_run Size (xport_init m) evs = Some p ->
  map snd cs = x_line (y_utx p) -> Forall (fun sw => forallb software sw = true) sched ->
  exists tevs c, receiving F G (opened m1 id1 c1) id1 (opened m2 id2 c2) id2 cs a sched = Some tevs /\
    hears (frame_time G c1) (frame_time G c1 - bit_time G (c_div c1) (c_ubrr c1) * (if c_two c1 then 2 else 1)) cs
      (a + (Z.of_nat (length sched) - 1) * sample_time F (c_ubrr c2)) c /\
    forall Size' m', 1 <= Size' <= 65535 -> port_polite Size' (port_init m') false (map snd tevs) = true ->
      served (2 * (c_div c2 * (match c_par c1 with POff => 9 | _ => 10 end))) [] false (timed Size' (port_init m') tevs) = true ->
      exists r, port_run Size' (port_init m') (map snd tevs) = Some r /\
        (length (r_acc (p_rx r)) = length (p_taken r) \/ Z.of_nat (length (p_taken r)) <= Size' - 1 ->
         exists queued later, in_ring Size' (p_rx r) queued /\
           filter (fun v => 0 <=? v) (r_got (p_rx r)) ++ (match r_pc (p_rx r) with RWrap v => [v] | _ => [] end) ++
             queued ++ map (fun c => u8 (fst c)) (unread (p_uart r)) = firstn c (map snd cs) /\
           accepted (t_done (y_tx p)) ++ (match t_pc (y_tx p) with TWrap v => [v] | _ => [] end) =
             firstn c (map snd cs) ++ later).
Proof.
  intros F G c1 c2 id1 id2 m1 m2 cs a t0 sched Size m evs p HF HG I1 I2 B1 B2 EP U1 U2 D1 D2 TOL SP BE
    HS XP XR LX SW.
  destruct (opened_heard F G id1 id2 c1 c2 m1 m2 cs a t0 (length sched)) as [c [H EX]]; auto; try (rewrite B1; try exact TOL; lia); try congruence.
  assert (BY : Forall is_byte (map snd cs)).
  { rewrite LX. assert (Y : Forall is_byte (all_of (y_utx p))) by (refine (xport_bytes Size evs _ _ _ XR); apply Forall_nil).
    unfold all_of in Y. apply Forall_app in Y. tauto. }
  assert (DS : map (fun x => (snd x mod 2 ^ (5 + c_bits c1), false, false)) (firstn c cs) = map (fun d => (d, false, false)) (firstn c (map snd cs))).
  { rewrite B1. change (2 ^ (5 + 3)) with 256. rewrite firstn_map, map_map. apply map_ext_in. intros x IN.
    assert (K : is_byte (snd x)).
    { rewrite Forall_forall in BY. apply BY. apply in_map. rewrite <- (firstn_skipn c cs). apply in_or_app. left. exact IN. }
    unfold is_byte in K. rewrite Z.mod_small by lia. reflexivity. }
  rewrite DS in H.
  destruct (opened_l m2 id2 c2 I2 ltac:(rewrite B2; lia) U2 D2) as [R1 [R2 R3]].
  rewrite B2, EP in R3.
  destruct (receiving_l F G _ id1 _ id2 cs a sched _ 3 _ _ R3 ltac:(lia) SW H) as [tevs [V1 [V2 V3]]].
  exists tevs, c. refine (conj V1 (conj EX _)). intros Size' m' HS' PO SE.
  assert (PK : 6 + 3 + match swap_parity (c_par c1) with POff => 0 | _ => 1 end = match c_par c1 with POff => 9 | _ => 10 end) by (destruct (c_par c1); reflexivity).
  rewrite PK, R1 in V3.
  destruct (port_all Size' HS' m' (map snd tevs) PO) as (r0 & q0 & o0 & PR & _).
  assert (CH : chars false (wire Size' (port_init m') (map snd tevs)) = firstn c (x_line (y_utx p))).
  { rewrite (wire_pchars Size' _ _ r0 false PR), V2, LX. reflexivity. }
  assert (LO : losses 0 false (wire Size' (port_init m') (map snd tevs)) = 0%nat).
  { rewrite <- timed_wire. refine (hw_latency_l _ _ _ _ _ _ (V3 Size' (port_init m')) SE); [|lia].
    destruct (c_par c1), D2 as [-> | ->]; lia. }
  rewrite LX. exact (hw_link Size m evs p Size' m' (map snd tevs) c HS XP XR HS' PO CH LO).
Qed.

Lemma wire_stream_l : forall F G b c1 c2 c1' c2' id1 id2 m1 m2 cs a t0 sched Size m evs p,
  1 <= F -> 1 <= G -> 1 <= b <= 65535 -> F / (8 * b) <= 32768 -> G / (8 * b) <= 32768 ->
  init_async F c1 b = Some (c1', true) -> init_async G c2 b = Some (c2', true) ->
  F < 16 * b \/ 32 * b <= F \/ b <= 32767 -> G < 16 * b \/ 32 * b <= G \/ b <= 32767 ->
  id1 = 0 \/ id1 = 1 -> id2 = 0 \/ id2 = 1 ->
  c_bits c1 = 3 -> c_bits c2 = 3 -> c_par c2 = c_par c1 -> 42 <= c_ubrr c1' -> 26 <= c_ubrr c2' ->
  WireSpec.spaced (frame_time G c1') t0 cs -> a - sample_time F (c_ubrr c2') < t0 ->
  1 <= Size <= 65535 -> xport_polite Size (xport_init m) false evs = true -> xport_run Size (xport_init m) evs = Some p ->
  map snd cs = x_line (y_utx p) -> Forall (fun sw => forallb software sw = true) sched ->
  exists tevs c, receiving F G (opened m1 id1 c1') id1 (opened m2 id2 c2') id2 cs a sched = Some tevs /\
    hears (frame_time G c1') (frame_time G c1' - bit_time G (c_div c1') (c_ubrr c1') * (if c_two c1' then 2 else 1)) cs
      (a + (Z.of_nat (length sched) - 1) * sample_time F (c_ubrr c2')) c /\
    forall Size' m', 1 <= Size' <= 65535 -> port_polite Size' (port_init m') false (map snd tevs) = true ->
      served (2 * (c_div c2' * (match c_par c1 with POff => 9 | _ => 10 end))) [] false (timed Size' (port_init m') tevs) = true ->
      exists r, port_run Size' (port_init m') (map snd tevs) = Some r /\
        (length (r_acc (p_rx r)) = length (p_taken r) \/ Z.of_nat (length (p_taken r)) <= Size' - 1 ->
         exists queued later, in_ring Size' (p_rx r) queued /\
           filter (fun v => 0 <=? v) (r_got (p_rx r)) ++ (match r_pc (p_rx r) with RWrap v => [v] | _ => [] end) ++
             queued ++ map (fun c => u8 (fst c)) (unread (p_uart r)) = firstn c (map snd cs) /\
           accepted (t_done (y_tx p)) ++ (match t_pc (y_tx p) with TWrap v => [v] | _ => [] end) =
             firstn c (map snd cs) ++ later).
Proof.
  intros F G b c1 c2 c1' c2' id1 id2 m1 m2 cs a t0 sched Size m evs p HF HG HB HU1 HU2 N1 N2 HR1 HR2 I1 I2 B1 B2 EP U1 U2 SP BE
    HS XP XR LX SW.
  destruct (init_fits F b c1 c1' HF HB HU1 HR1 N1) as [X1 [X2 [_ [X4 X5]]]].
  destruct (init_fits G b c2 c2' HG HB HU2 HR2 N2) as [Y1 [Y2 [_ [Y4 Y5]]]].
  assert (V1 : 0 <= c_ubrr c1' < 65536) by (destruct X5 as [? _]; lia).
  assert (V2 : 0 <= c_ubrr c2' < 65536) by (destruct Y5 as [? _]; lia).
  rewrite <- X2. apply wire_rates_l with (t0 := t0) (Size := Size) (m := m) (evs := evs); auto; try congruence.
  destruct (rates_l F G b (c_div c1') (c_ubrr c1') (c_div c2') (c_ubrr c2')) as [RA RB]; try lia; try assumption.
  apply (tolerable_rates (c_div c2') _ _ _ (c_ubrr c1' + 1) (c_ubrr c2' + 1)); auto; try lia.
  - unfold last_bit. destruct (c_par c1'); lia.
  - unfold sample_time. clear - V2 HF. nia.
  - unfold bit_time. clear - V1 HG X4. nia.
Qed.
