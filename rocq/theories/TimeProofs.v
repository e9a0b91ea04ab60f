Require Import ZArith List Bool Lia ZifyBool.
Import ListNotations.
From Verif Require Import Base BaseFacts TimeModel TimeSpec.
Open Scope Z_scope.

(** ** Time *)
Lemma clock_run_l : forall dts now, Forall (fun d => 0 <= d) dts ->
  clock_run (u32 now) now dts = map u32 dts.
Proof.
  intros dts. induction dts as [|d dts IH]; intros now H; cbn [clock_run map time_update]; [reflexivity|].
  inversion_clear H as [|? ? H1 H2]. unfold time_update. f_equal; [|now apply IH].
  unfold u32. rewrite <- Zminus_mod. f_equal. lia.
Qed.

Lemma clock_exact_l : forall dts now, Forall (fun d => 0 <= d < 4294967296) dts ->
  clock_run (u32 now) now dts = dts /\ sumZ (clock_run (u32 now) now dts) = sumZ dts.
Proof.
  intros dts now H. assert (E : clock_run (u32 now) now dts = dts).
  { rewrite clock_run_l by (eapply Forall_impl; [|exact H]; cbn; intros; lia).
    induction H as [|d ds Hd Hds IH]; cbn [map]; [reflexivity|]. f_equal; [now apply u32_small|exact IH]. }
  now rewrite E.
Qed.

Lemma time_conv_l : forall ticks, 0 <= ticks < 4294967296 ->
  time_ms false ticks = ticks /\ time_us true ticks = ticks /\
  (time_us false ticks = ticks * 1000 <-> ticks <= 4294967) /\
  1000 * time_ms true ticks <= ticks < 1000 * (time_ms true ticks + 1) /\
  (ticks <= 4294967 -> time_ms true (time_us false ticks) = ticks).
Proof.
  intros t H. unfold time_ms, time_us. split; [reflexivity|]. split; [reflexivity|]. split; [|split].
  - unfold u32. split; intros E; [|rewrite Z.mod_small; lia].
    pose proof (Z.mod_pos_bound (t * 1000) 4294967296). lia.
  - lia.
  - intros Ht. rewrite u32_small by lia. apply Z.div_mul. lia.
Qed.

(** [now] and [now + dt] are the (unwrapped) readings at two consecutive updates. *)
Lemma tex_delta_l : forall s now dt, te_ticks s = u32 now -> 0 <= dt < 4294967296 ->
  let (s', d) := tex_update s (u32 (now + dt)) in
  d = dt /\ te_start s' = te_start s /\ te_ticks s' = u32 (now + dt) /\
  tex_delta s' = dt mod 65536 /\ (tex_delta s' = dt <-> dt < 65536).
Proof.
  intros [t st pv] now dt E H. cbn in E. subst t. unfold tex_update, time_update, tex_delta.
  cbn [te_ticks te_start te_prev].
  assert (D : u32 (u32 (now + dt) - u32 now) = dt).
  { unfold u32. rewrite <- Zminus_mod. replace (now + dt - now) with dt by lia. apply Z.mod_small. lia. }
  rewrite D. split; [reflexivity|]. split; [reflexivity|]. split; [reflexivity|]. unfold u16. split; [reflexivity|].
  pose proof (Z.mod_pos_bound dt 65536). split; intros; [lia|apply Z.mod_small; lia].
Qed.

(** ** Delays *)
Fixpoint lookup_id (l : list (Z * Z)) (id : Z) : option Z :=
  match l with
  | [] => None
  | (s, d) :: r => if s =? id then Some d else lookup_id r id
  end.
Definition occ (l : list (Z * Z)) : list Z := filter (fun s => negb (s =? 0)) (map fst l).

Definition slot_ok (p : Z * Z) : Prop := 0 <= fst p < 65536 /\ 0 <= snd p < 4294967296.
Definition inv (l : list (Z * Z)) : Prop := NoDup (occ l) /\ Forall slot_ok l.

Lemma waiting_lookup : forall l id, dl_waiting l id = match lookup_id l id with Some _ => true | None => false end.
Proof.
  intros l id. induction l as [|[s d] l IH]; cbn [dl_waiting lookup_id]; [reflexivity|].
  destruct (s =? id); auto.
Qed.

Lemma in_occ : forall l id, In id (occ l) <-> id <> 0 /\ dl_waiting l id = true.
Proof.
  intros l id. unfold occ. induction l as [|[s d] l IH]; cbn [map filter dl_waiting fst].
  - cbn. split; [contradiction|]. intros [_ H]. discriminate.
  - destruct (Z.eqb_spec s id) as [->|N].
    + destruct (Z.eqb_spec id 0); cbn [negb In]; [rewrite IH; tauto|tauto].
    + destruct (s =? 0); cbn [negb In]; rewrite IH; tauto.
Qed.

Lemma occ_cons : forall s d l, occ ((s, d) :: l) = if s =? 0 then occ l else s :: occ l.
Proof. intros s d l. unfold occ. cbn [map filter fst]. now destruct (s =? 0). Qed.

Lemma inv_cons : forall s d l, inv ((s, d) :: l) <->
  slot_ok (s, d) /\ inv l /\ (s <> 0 -> dl_waiting l s = false).
Proof.
  intros s d l. unfold inv. rewrite occ_cons. split.
  - intros [H1 H2]. inversion_clear H2 as [|? ? H3 H4]. destruct (Z.eqb_spec s 0).
    + tauto.
    + inversion_clear H1 as [|? ? H5 H6]. split; [assumption|]. split; [split; assumption|].
      intros _. rewrite in_occ in H5. destruct (dl_waiting l s); [tauto|reflexivity].
  - intros [H1 [[H2 H3] H4]]. split; [|now constructor]. destruct (Z.eqb_spec s 0); [exact H2|].
    constructor; [|exact H2]. rewrite in_occ. intros [_ K]. rewrite H4 in K by lia. discriminate.
Qed.

(** The first loop of Wait. *)
Lemma scan_found : forall l id delta i e d, id <> 0 -> lookup_id l id = Some d ->
  0 <= delta -> Forall slot_ok l ->
  exists l', dl_scan l id delta i e = inl (l', delta >=? d) /\ length l' = length l /\
    (forall j, j <> 0 -> j <> id -> lookup_id l' j = lookup_id l j) /\
    (delta >=? d = false -> lookup_id l' id = Some (d - delta)) /\
    Forall slot_ok l' /\
    (inv l -> inv l' /\ (delta >=? d = true -> lookup_id l' id = None)).
Proof.
  intros l. induction l as [|[s d0] l IH]; intros id delta i e d Hid HL Hd HF; cbn [lookup_id] in HL; [discriminate|].
  inversion_clear HF as [|? ? HF1 HF2]. pose proof HF1 as [Hs Hd0]. cbn [fst snd] in *.
  cbn [dl_scan].
  assert (R : s <> id -> forall e', exists l',
    match dl_scan l id delta (i + 1) e' with inl (r', b) => inl ((s, d0) :: r', b) | inr e0 => inr e0 end
      = inl ((s, d0) :: l', delta >=? d) /\ length ((s, d0) :: l') = length ((s, d0) :: l) /\
    (forall j, j <> 0 -> j <> id -> lookup_id ((s, d0) :: l') j = lookup_id ((s, d0) :: l) j) /\
    (delta >=? d = false -> lookup_id ((s, d0) :: l') id = Some (d - delta)) /\
    Forall slot_ok ((s, d0) :: l') /\
    (inv ((s, d0) :: l) -> inv ((s, d0) :: l') /\ (delta >=? d = true -> lookup_id ((s, d0) :: l') id = None))).
  { intros N e'. assert (s =? id = false) as E by lia. rewrite E in HL.
    destruct (IH id delta (i + 1) e' d Hid HL Hd HF2) as [l' [E1 [E2 [E3 [E4 [E5 E6]]]]]].
    exists l'. rewrite E1. split; [reflexivity|]. split; [cbn [length]; lia|].
    split; [|split; [|split]].
    - intros j J1 J2. cbn [lookup_id]. destruct (s =? j); [reflexivity|]. now apply E3.
    - intros G. cbn [lookup_id]. rewrite E. exact (E4 G).
    - now constructor.
    - intros I. apply inv_cons in I as [I1 [I2 I3]]. destruct (E6 I2) as [I4 I5]. split.
      + apply inv_cons. split; [assumption|]. split; [assumption|]. intros S0.
        rewrite waiting_lookup. rewrite E3 by lia. rewrite <- waiting_lookup. auto.
      + intros G. cbn [lookup_id]. rewrite E. auto. }
  destruct ((e =? -1) && (s =? 0)) eqn:C.
  - destruct (R ltac:(lia) i) as [l' [E1 [E2 [E3 [E4 [E5 E6]]]]]]. exists ((s, d0) :: l').
    split; [exact E1|]. split; [exact E2|]. split; [exact E3|]. split; [exact E4|split; [exact E5|exact E6]].
  - destruct (Z.eqb_spec s id) as [->|N].
    + injection HL as ->. destruct (delta >=? d) eqn:G.
      * eexists. split; [reflexivity|]. split; [reflexivity|]. split; [|split; [|split]].
        -- intros j J1 J2. cbn [lookup_id]. assert (0 =? j = false) as -> by lia.
           assert (id =? j = false) as -> by lia. reflexivity.
        -- discriminate.
        -- constructor; [split; cbn [fst snd]; lia|assumption].
        -- intros I. apply inv_cons in I as [I1 [I2 I3]]. split.
           ++ apply inv_cons. split; [split; cbn [fst snd]; lia|]. split; [assumption|]. intros K; lia.
           ++ intros _. cbn [lookup_id]. assert (0 =? id = false) as -> by lia.
              specialize (I3 Hid). rewrite waiting_lookup in I3. destruct (lookup_id l id); [discriminate|reflexivity].
      * eexists. split; [reflexivity|]. split; [reflexivity|].
        assert (U : u32 (d - delta) = d - delta) by (apply u32_small; lia). rewrite U.
        split; [|split; [|split]].
        -- intros j J1 J2. cbn [lookup_id]. now assert (id =? j = false) as -> by lia.
        -- intros _. cbn [lookup_id]. now rewrite Z.eqb_refl.
        -- constructor; [split; cbn [fst snd]; lia|assumption].
        -- intros I. apply inv_cons in I as [I1 [I2 I3]]. split; [|discriminate].
           apply inv_cons. split; [split; cbn [fst snd]; lia|]. auto.
    + destruct (R N e) as [l' [E1 [E2 [E3 [E4 [E5 E6]]]]]]. exists ((s, d0) :: l').
      split; [exact E1|]. split; [exact E2|]. split; [exact E3|]. split; [exact E4|split; [exact E5|exact E6]].
Qed.

Lemma scan_missing : forall l id delta i e, id <> 0 -> lookup_id l id = None -> 0 <= i ->
  dl_scan l id delta i e = inr (if e =? -1 then dl_first_empty l i else e).
Proof.
  intros l. induction l as [|[s d] l IH]; intros id delta i e Hid HL Hi; cbn [dl_scan lookup_id dl_first_empty] in *.
  - now destruct (Z.eqb_spec e (-1)) as [->|].
  - destruct (Z.eqb_spec s id) as [->|N]; [discriminate|].
    destruct (Z.eqb_spec e (-1)) as [->|Ne]; cbn [andb].
    + destruct (Z.eqb_spec s 0) as [->|N0].
      * rewrite IH by (auto; lia). now assert (i =? -1 = false) as -> by lia.
      * rewrite IH by (auto; lia). reflexivity.
    + rewrite IH by (auto; lia). now assert (e =? -1 = false) as -> by lia.
Qed.

Lemma first_empty_cases : forall l i, 0 <= i ->
  (dl_first_empty l i = -1 /\ length (occ l) = length l) \/
  (i <= dl_first_empty l i < i + Z.of_nat (length l) /\ (length (occ l) < length l)%nat).
Proof.
  intros l. induction l as [|[s d] l IH]; intros i Hi; cbn [dl_first_empty length].
  - left. auto.
  - assert (L : (length (occ l) <= length l)%nat).
    { unfold occ. clear. induction l as [|[x y] l IH]; cbn [map filter length fst]; [lia|].
      destruct (negb (x =? 0)); cbn [length]; lia. }
    rewrite occ_cons. destruct (Z.eqb_spec s 0).
    + right. lia.
    + destruct (IH (i + 1) ltac:(lia)) as [[H1 H2]|[H1 H2]]; [left|right]; cbn [length]; lia.
Qed.

Lemma store_empty : forall l id time, id <> 0 -> slot_ok (id, time) -> lookup_id l id = None ->
  inv l ->
  (length (occ l) = length l /\ dl_store l (dl_first_empty l 0) (id, time) = None) \/
  ((length (occ l) < length l)%nat /\
   exists l', dl_store l (dl_first_empty l 0) (id, time) = Some l' /\ length l' = length l /\
     inv l' /\ lookup_id l' id = Some time /\
     forall j, j <> 0 -> j <> id -> lookup_id l' j = lookup_id l j).
Proof.
  intros l id time Hid Hok.
  assert (G : forall l i, 0 <= i -> lookup_id l id = None -> inv l ->
    (length (occ l) < length l)%nat ->
    exists l', dl_store l (dl_first_empty l i - i) (id, time) = Some l' /\ length l' = length l /\
      inv l' /\ lookup_id l' id = Some time /\
      forall j, j <> 0 -> j <> id -> lookup_id l' j = lookup_id l j).
  { clear l. intros l. induction l as [|[s d] l IH]; intros i Hi HL HI HO; [cbn in HO; lia|].
    apply inv_cons in HI as [I1 [I2 I3]]. cbn [lookup_id] in HL.
    destruct (Z.eqb_spec s id) as [->|N]; [discriminate|].
    rewrite occ_cons in HO. cbn [dl_first_empty dl_store].
    destruct (Z.eqb_spec s 0) as [->|N0].
    - rewrite Z.sub_diag, Z.eqb_refl. eexists. split; [reflexivity|]. split; [reflexivity|].
      split; [|split].
      + apply inv_cons. split; [assumption|]. split; [assumption|]. intros _. rewrite waiting_lookup. now rewrite HL.
      + cbn [lookup_id]. now rewrite Z.eqb_refl.
      + intros j J1 J2. cbn [lookup_id]. assert (id =? j = false) as -> by lia.
        now assert (0 =? j = false) as -> by lia.
    - cbn [length] in HO.
      destruct (IH (i + 1) ltac:(lia) HL I2 ltac:(lia)) as [l' [E1 [E2 [E3 [E4 E5]]]]].
      destruct (first_empty_cases l (i + 1) ltac:(lia)) as [[F1 F2]|[F1 F2]]; [lia|].
      assert (dl_first_empty l (i + 1) - i =? 0 = false) as -> by lia.
      replace (dl_first_empty l (i + 1) - i - 1) with (dl_first_empty l (i + 1) - (i + 1)) by lia.
      rewrite E1. eexists. split; [reflexivity|]. split; [cbn [length]; lia|]. split; [|split].
      + apply inv_cons. split; [assumption|]. split; [assumption|]. intros _.
        rewrite waiting_lookup. rewrite E5 by lia. rewrite <- waiting_lookup. auto.
      + cbn [lookup_id]. now assert (s =? id = false) as -> by lia.
      + intros j J1 J2. cbn [lookup_id]. destruct (s =? j); [reflexivity|]. auto. }
  intros HL HI. destruct (first_empty_cases l 0 ltac:(lia)) as [[F1 F2]|[F1 F2]].
  - left. split; [exact F2|]. rewrite F1. clear.
    assert (K : forall l i, i < 0 -> dl_store l i (id, time) = None).
    { intros m. induction m as [|q m IH]; intros i Hi; cbn [dl_store]; [reflexivity|].
      assert (i =? 0 = false) as -> by lia. now rewrite IH by lia. }
    apply K. lia.
  - right. split; [exact F2|]. specialize (G l 0 ltac:(lia) HL HI F2). now rewrite Z.sub_0_r in G.
Qed.

Lemma wait_spec : forall l delta id time, inv l -> 0 <= delta -> 0 < id < 65536 -> 0 <= time < 4294967296 ->
  match lookup_id l id with
  | Some d => exists l', dl_wait l delta id time = Some (l', delta >=? d) /\ length l' = length l /\ inv l' /\
      lookup_id l' id = (if delta >=? d then None else Some (d - delta)) /\
      forall j, j <> 0 -> j <> id -> lookup_id l' j = lookup_id l j
  | None =>
      (length (occ l) = length l /\ dl_wait l delta id time = None) \/
      ((length (occ l) < length l)%nat /\
       exists l', dl_wait l delta id time = Some (l', false) /\ length l' = length l /\ inv l' /\
         lookup_id l' id = Some time /\ forall j, j <> 0 -> j <> id -> lookup_id l' j = lookup_id l j)
  end.
Proof.
  intros l delta id time HI Hd Hid Ht. destruct (lookup_id l id) as [d|] eqn:E; unfold dl_wait.
  - destruct (scan_found l id delta 0 (-1) d ltac:(lia) E Hd (proj2 HI)) as [l' [E1 [E2 [E3 [E4 [E5 E6]]]]]].
    rewrite E1. destruct (E6 HI) as [I1 I2]. exists l'. split; [reflexivity|]. split; [exact E2|].
    split; [exact I1|]. split; [|exact E3]. destruct (delta >=? d); [now apply I2|now apply E4].
  - rewrite scan_missing by (auto; lia). change (-1 =? -1) with true. cbv iota zeta.
    assert (Q : (if dl_first_empty l 0 =? -1 then dl_first_empty l 0 else dl_first_empty l 0) = dl_first_empty l 0)
      by now destruct (dl_first_empty l 0 =? -1). rewrite Q.
    destruct (store_empty l id time ltac:(lia)) as [[F1 F2]|[F1 [l' [E1 [E2 [E3 [E4 E5]]]]]]]; auto.
    + split; cbn [fst snd]; lia.
    + left. rewrite F2. auto.
    + right. split; [exact F1|]. rewrite E1. eauto 10.
Qed.

Lemma abort_spec : forall l id, inv l -> id <> 0 ->
  length (dl_abort l id) = length l /\ inv (dl_abort l id) /\
  lookup_id (dl_abort l id) id = match lookup_id l id with Some _ => Some 0 | None => None end /\
  forall j, j <> id -> lookup_id (dl_abort l id) j = lookup_id l j.
Proof.
  intros l id HI Hid. split; [unfold dl_abort; apply map_length|]. revert HI.
  induction l as [|[s d] l IH]; intros HI.
  - cbn. auto.
  - apply inv_cons in HI as [I1 [I2 I3]]. destruct (IH I2) as [J1 [J2 J3]].
    unfold dl_abort in *. cbn [map fst lookup_id]. destruct (Z.eqb_spec s id) as [->|N]; cbn [lookup_id].
    + rewrite Z.eqb_refl. split; [|split; [reflexivity|]].
      * apply inv_cons. destruct I1 as [I1 I1']. cbn [fst snd] in *. split; [split; cbn; lia|]. split; [exact J1|].
        intros K. rewrite waiting_lookup, J2. rewrite <- (I3 K), waiting_lookup. now destruct (lookup_id l id).
      * intros j Hj. destruct (Z.eqb_spec id j); [congruence|]. auto.
    + assert (s =? id = false) as -> by lia. split; [|split; [exact J2|]].
      * apply inv_cons. split; [assumption|]. split; [exact J1|]. intros K.
        rewrite waiting_lookup, J3 by assumption. rewrite <- waiting_lookup. auto.
      * intros j Hj. destruct (s =? j); auto.
Qed.

Lemma clear_spec : forall l id, inv l -> id <> 0 ->
  length (dl_clear l id) = length l /\ inv (dl_clear l id) /\
  lookup_id (dl_clear l id) id = None /\
  forall j, j <> 0 -> j <> id -> lookup_id (dl_clear l id) j = lookup_id l j.
Proof.
  intros l id HI Hid. split; [unfold dl_clear; apply map_length|]. revert HI.
  induction l as [|[s d] l IH]; intros HI.
  - cbn. auto.
  - apply inv_cons in HI as [I1 [I2 I3]]. destruct (IH I2) as [J1 [J2 J3]].
    unfold dl_clear in *. cbn [map fst snd lookup_id]. destruct (Z.eqb_spec s id) as [->|N]; cbn [lookup_id].
    + assert (0 =? id = false) as -> by lia. split; [|split; [exact J2|]].
      * apply inv_cons. destruct I1 as [I1 I1']. cbn [fst snd] in *. split; [split; cbn; lia|]. split; [exact J1|].
        intros K; lia.
      * intros j J0 Hj. assert (0 =? j = false) as -> by lia. assert (id =? j = false) as -> by lia. auto.
    + assert (s =? id = false) as -> by lia. split; [|split; [exact J2|]].
      * apply inv_cons. split; [assumption|]. split; [exact J1|]. intros K.
        rewrite waiting_lookup, J3 by assumption. rewrite <- waiting_lookup. auto.
      * intros j J0 Hj. destruct (s =? j); auto.
Qed.

(** One call against all timers at once. *)
Definition dinv (s : delays) : Prop := inv (d_slots s) /\ 0 <= d_delta s < 4294967296.

Definition out_of (id : Z) (o : dl_op) (b : bool) : option bool :=
  match o with
  | DWait j _ | DIsWaiting j => if j =? id then Some b else None
  | _ => None
  end.

Lemma step_timer : forall s o s' b, dinv s -> dl_ok o -> dl_step s o = Some (s', b) ->
  dinv s' /\ length (d_slots s') = length (d_slots s) /\
  forall id, 0 < id < 65536 ->
    tm_step id (lookup_id (d_slots s) id) (d_delta s) o =
      (lookup_id (d_slots s') id, d_delta s', out_of id o b).
Proof.
  intros [l delta] o s' b [HI Hd] Hok E. cbn [d_slots d_delta] in *.
  destruct o as [d|j t|j|j|j]; cbn [dl_step dl_ok tm_step out_of d_slots d_delta] in *.
  - injection E as <- <-. split; [split; assumption|]. split; [reflexivity|]. reflexivity.
  - destruct Hok as [Hj Ht]. pose proof (wait_spec l delta j t HI ltac:(lia) Hj Ht) as W.
    destruct (lookup_id l j) as [d|] eqn:L.
    + destruct W as [l' [W1 [W2 [W3 [W4 W5]]]]]. rewrite W1 in E. injection E as <- <-.
      cbn [d_slots d_delta]. split; [split; assumption|]. split; [exact W2|].
      intros id Hid. destruct (Z.eqb_spec j id) as [->|N].
      * rewrite L, W4. destruct (delta >=? d) eqn:G.
        -- now assert (d <=? delta = true) as -> by lia.
        -- now assert (d <=? delta = false) as -> by lia.
      * rewrite W5 by lia. reflexivity.
    + destruct W as [[W1 W2]|[W0 [l' [W1 [W2 [W3 [W4 W5]]]]]]]; [rewrite W2 in E; discriminate|].
      rewrite W1 in E. injection E as <- <-.
      cbn [d_slots d_delta]. split; [split; assumption|]. split; [exact W2|].
      intros id Hid. destruct (Z.eqb_spec j id) as [->|N].
      * now rewrite L, W4.
      * rewrite W5 by lia. reflexivity.
  - injection E as <- <-. cbn [d_slots d_delta]. destruct (abort_spec l j HI ltac:(lia)) as [A1 [A2 [A3 A4]]].
    split; [split; assumption|]. split; [exact A1|]. intros id Hid.
    destruct (Z.eqb_spec j id) as [->|N]; [now rewrite A3|now rewrite A4 by lia].
  - injection E as <- <-. cbn [d_slots d_delta]. destruct (clear_spec l j HI ltac:(lia)) as [A1 [A2 [A3 A4]]].
    split; [split; assumption|]. split; [exact A1|]. intros id Hid.
    destruct (Z.eqb_spec j id) as [->|N]; [now rewrite A3|now rewrite A4 by lia].
  - injection E as <- <-. cbn [d_slots d_delta]. split; [split; assumption|]. split; [reflexivity|]. intros id Hid.
    destruct (Z.eqb_spec j id) as [->|N]; [now rewrite waiting_lookup|reflexivity].
Qed.

Lemma run_timer : forall ops s s' outs, dinv s -> Forall dl_ok ops -> dl_run s ops = Some (s', outs) ->
  dinv s' /\ length (d_slots s') = length (d_slots s) /\
  forall id, 0 < id < 65536 -> about id ops outs = tm_run id (lookup_id (d_slots s) id) (d_delta s) ops.
Proof.
  intros ops. induction ops as [|o ops IH]; intros s s' outs HI Hok E; cbn [dl_run] in E.
  - injection E as <- <-. split; [assumption|]. split; [reflexivity|]. reflexivity.
  - inversion_clear Hok as [|? ? H1 H2]. destruct (dl_step s o) as [[s1 b]|] eqn:E1; [|discriminate].
    destruct (dl_run s1 ops) as [[s2 bs]|] eqn:E2; [|discriminate]. injection E as <- <-.
    destruct (step_timer s o s1 b HI H1 E1) as [I1 [I2 I3]].
    destruct (IH s1 s2 bs I1 H2 E2) as [J1 [J2 J3]].
    split; [exact J1|]. split; [lia|]. intros id Hid. specialize (I3 id Hid). specialize (J3 id Hid).
    cbn [tm_run]. rewrite I3. rewrite <- J3.
    destruct o as [d|j t|j|j|j]; cbn [about out_of]; try reflexivity; now destruct (j =? id).
Qed.

(** Non-blocking: [None] exactly when a new id is started in a full table. *)
Lemma step_defined : forall s o, dinv s -> dl_ok o ->
  (dl_step s o = None <->
   exists id t, o = DWait id t /\ dl_waiting (d_slots s) id = false /\
     length (occ (d_slots s)) = length (d_slots s)).
Proof.
  intros [l delta] o [HI Hd] Hok. cbn [d_slots d_delta] in *.
  destruct o as [d|j t|j|j|j]; cbn [dl_step dl_ok d_slots d_delta] in *;
    try (split; [discriminate|intros [id [t [E _]]]; discriminate]).
  destruct Hok as [Hj Ht]. pose proof (wait_spec l delta j t HI ltac:(lia) Hj Ht) as W.
  destruct (lookup_id l j) as [d|] eqn:L.
  - destruct W as [l' [W1 _]]. rewrite W1. split; [discriminate|]. intros [id [t' [E [F _]]]].
    injection E as <- <-. rewrite waiting_lookup, L in F. discriminate.
  - destruct W as [[W1 W2]|[W0 [l' [W1 _]]]].
    + rewrite W2. split; [|reflexivity]. intros _. exists j, t. rewrite waiting_lookup, L. auto.
    + rewrite W1. split; [discriminate|]. intros [id [t' [E [_ F]]]]. lia.
Qed.

Lemma init_inv : forall n, dinv (dl_init n).
Proof.
  intros n. unfold dinv, dl_init, inv. cbn [d_slots d_delta]. split; [|lia]. split.
  - assert (occ (repeat (0, 0) n) = []) as ->; [|constructor].
    unfold occ. induction n as [|n IH]; cbn; auto.
  - apply Forall_forall. intros p Hp. apply repeat_spec in Hp. subst. split; cbn; lia.
Qed.

Lemma init_lookup : forall n id, id <> 0 -> lookup_id (d_slots (dl_init n)) id = None.
Proof.
  intros n id H. cbn [dl_init d_slots]. induction n as [|n IH]; cbn [repeat lookup_id]; [reflexivity|].
  assert (0 =? id = false) as -> by lia. exact IH.
Qed.

(** ** Final forms *)
Lemma delays_timers_l : forall n ops s outs, Forall dl_ok ops -> dl_run (dl_init n) ops = Some (s, outs) ->
  forall id, 0 < id < 65536 -> about id ops outs = tm_run id None 0 ops.
Proof.
  intros n ops s outs Hok E id Hid. destruct (run_timer ops _ _ _ (init_inv n) Hok E) as [_ [_ H]].
  rewrite H by assumption. now rewrite init_lookup by lia.
Qed.

Lemma sumZ_cons : forall x l, sumZ (x :: l) = x + sumZ l.
Proof. reflexivity. Qed.

Lemma poll_exact : forall id mid s r s' outs, dinv s -> 0 < id < 65536 ->
  Forall dl_ok mid -> Forall (fun o => is_cancel id o = false) mid ->
  lookup_id (d_slots s) id = Some r -> dl_run s mid = Some (s', outs) ->
  let ds := poll_deltas id (d_delta s) mid in
  let ans := answers (is_wait id) mid outs in
  length ans = length ds /\
  forall k, (k < length ds)%nat -> (forall i, (i < k)%nat -> nth i ans true = false) ->
    nth k ans false = (r <=? sumZ (firstn (S k) ds)).
Proof.
  intros id mid. induction mid as [|o mid IH]; intros s r s' outs HI Hid Hok Hc HL E; cbn [dl_run] in E.
  - injection E as <- <-. cbn. split; [reflexivity|]. intros k Hk. lia.
  - inversion_clear Hok as [|? ? Ho1 Ho2]. inversion_clear Hc as [|? ? Hc1 Hc2].
    destruct (dl_step s o) as [[s1 b]|] eqn:E1; [|discriminate].
    destruct (dl_run s1 mid) as [[s2 bs]|] eqn:E2; [|discriminate]. injection E as <- <-.
    destruct (step_timer s o s1 b HI Ho1 E1) as [I1 [I2 I3]]. specialize (I3 id Hid). rewrite HL in I3.
    assert (Keep : is_wait id o = false -> lookup_id (d_slots s1) id = Some r).
    { intros W. destruct o as [d|j t|j|j|j]; cbn [tm_step is_wait is_cancel] in *; try rewrite W in I3;
        try rewrite Hc1 in I3; injection I3; intros; congruence. }
    assert (D1 : match o with DUpdate d => d_delta s1 = d | _ => d_delta s1 = d_delta s end).
    { destruct o as [d|j t|j|j|j]; cbn [dl_step] in E1; try (injection E1 as <- <-; reflexivity).
      destruct (dl_wait _ _ _ _) as [[l' b']|]; [|discriminate]. injection E1 as <- <-. reflexivity. }
    destruct (is_wait id o) eqn:W.
    + destruct o as [d|j t|j|j|j]; cbn [is_wait] in W; try discriminate.
      cbn [answers poll_deltas is_wait]. rewrite W.
      cbn [tm_step] in I3. rewrite W in I3.
      destruct (Z.leb_spec r (d_delta s)) as [G|G].
      * injection I3 as L1 D2 Eb. cbn [out_of] in Eb. rewrite W in Eb. injection Eb as <-.
        split.
        -- cbn [length]. f_equal. clear -E2.
           assert (Q : forall mid s s' outs delta, dl_run s mid = Some (s', outs) ->
             length (answers (is_wait id) mid outs) = length (poll_deltas id delta mid)).
           { clear. intros mid. induction mid as [|o mid IH]; intros s s' outs delta E; cbn [dl_run] in E.
             - injection E as <- <-. reflexivity.
             - destruct (dl_step s o) as [[s1 b]|]; [|discriminate].
               destruct (dl_run s1 mid) as [[s2 bs]|] eqn:E2; [|discriminate]. injection E as <- <-.
               cbn [answers]. destruct o as [d|j t|j|j|j]; cbn [is_wait poll_deltas];
                 try destruct (j =? id); cbn [length]; try f_equal; eapply IH; eauto. }
           eapply Q; eauto.
        -- intros k Hk Hf. destruct k as [|k].
           ++ cbn [nth firstn sumZ fold_right]. symmetry. lia.
           ++ specialize (Hf O ltac:(lia)). cbn in Hf. discriminate.
      * injection I3 as L1 D2 Eb. cbn [out_of] in Eb. rewrite W in Eb. injection Eb as <-.
        destruct (IH s1 (r - d_delta s) s2 bs I1 Hid Ho2 Hc2 (eq_sym L1) E2) as [J1 J2].
        rewrite <- D2 in J1, J2. split; [cbn [length]; lia|].
        intros k Hk Hf. destruct k as [|k].
        -- cbn [nth firstn sumZ fold_right]. symmetry. lia.
        -- cbn [nth]. rewrite J2.
           ++ rewrite firstn_cons. rewrite sumZ_cons. lia.
           ++ cbn [length] in Hk. lia.
           ++ intros i Hi. specialize (Hf (S i) ltac:(lia)). exact Hf.
    + destruct (IH s1 r s2 bs I1 Hid Ho2 Hc2 (Keep eq_refl) E2) as [J1 J2].
      cbn [answers]. rewrite W.
      destruct o as [d|j t|j|j|j]; cbn [poll_deltas is_wait] in *; try rewrite W; rewrite D1 in J1, J2; auto.
Qed.

Lemma delay_exact_l : forall n pre s0 outs0 id t mid s outs,
  Forall dl_ok pre -> dl_run (dl_init n) pre = Some (s0, outs0) ->
  0 < id < 65536 -> 0 <= t < 4294967296 -> dl_waiting (d_slots s0) id = false ->
  Forall dl_ok mid -> Forall (fun o => is_cancel id o = false) mid ->
  dl_run s0 (DWait id t :: mid) = Some (s, outs) ->
  exists rest, outs = false :: rest /\
  let ds := poll_deltas id (d_delta s0) mid in
  let ans := answers (is_wait id) mid rest in
  length ans = length ds /\
  forall k, (k < length ds)%nat -> (forall i, (i < k)%nat -> nth i ans true = false) ->
    nth k ans false = (t <=? sumZ (firstn (S k) ds)).
Proof.
  intros n pre s0 outs0 id t mid s outs Hp Ep Hid Ht Hw Hm Hc E.
  destruct (run_timer pre _ _ _ (init_inv n) Hp Ep) as [I0 _].
  cbn [dl_run] in E. destruct (dl_step s0 (DWait id t)) as [[s1 b]|] eqn:E1; [|discriminate].
  destruct (dl_run s1 mid) as [[s2 bs]|] eqn:E2; [|discriminate]. injection E as <- <-.
  destruct (step_timer s0 (DWait id t) s1 b I0 (conj Hid Ht) E1) as [I1 [I2 I3]]. specialize (I3 id Hid).
  rewrite waiting_lookup in Hw. destruct (lookup_id (d_slots s0) id) eqn:L; [discriminate|].
  cbn [tm_step out_of] in I3. rewrite Z.eqb_refl in I3. injection I3 as L1 D1 Eb. subst b.
  exists bs. split; [reflexivity|]. rewrite D1. eapply poll_exact; eauto.
Qed.

Lemma elapsed_nonneg : forall ops, Forall dl_ok ops -> 0 <= elapsed ops.
Proof.
  intros ops. induction ops as [|o ops IH]; intros H; cbn [elapsed]; [lia|].
  inversion_clear H as [|? ? H1 H2]. specialize (IH H2). destruct o; cbn [dl_ok] in H1; try assumption. lia.
Qed.

Lemma once_sum : forall id ops delta fresh, Forall dl_ok ops -> 0 <= delta ->
  once_per_update id fresh ops = true -> forall k,
  sumZ (firstn k (poll_deltas id delta ops)) <= (if fresh then delta else 0) + elapsed ops.
Proof.
  intros id ops. induction ops as [|o ops IH]; intros delta fresh Hok Hd Ho k.
  - cbn. rewrite firstn_nil. cbn. destruct fresh; lia.
  - inversion_clear Hok as [|? ? H1 H2].
    destruct o as [d|j t|j|j|j]; cbn [poll_deltas elapsed once_per_update is_wait dl_ok] in *;
      try (apply IH; auto; fail).
    + specialize (IH d true H2 ltac:(lia) Ho k). cbv iota in IH. destruct fresh; lia.
    + destruct (j =? id); [|now apply IH].
      apply andb_prop in Ho as [-> Ho]. destruct k as [|k]; cbn [firstn].
      * change (sumZ []) with 0. pose proof (elapsed_nonneg ops H2). lia.
      * specialize (IH delta false H2 Hd Ho k). cbv iota in IH. rewrite sumZ_cons. lia.
Qed.

Lemma delay_not_early_l : forall n pre s0 outs0 id t mid s outs,
  Forall dl_ok pre -> dl_run (dl_init n) pre = Some (s0, outs0) ->
  0 < id < 65536 -> 0 <= t < 4294967296 -> dl_waiting (d_slots s0) id = false ->
  Forall dl_ok mid -> Forall (fun o => is_cancel id o = false) mid ->
  once_per_update id false mid = true ->
  dl_run s0 (DWait id t :: mid) = Some (s, outs) ->
  In true (answers (is_wait id) mid (tl outs)) -> t <= elapsed mid.
Proof.
  intros n pre s0 outs0 id t mid s outs Hp Ep Hid Ht Hw Hm Hc Hon E Hin.
  destruct (run_timer pre _ _ _ (init_inv n) Hp Ep) as [[_ I0] _].
  destruct (delay_exact_l n pre s0 outs0 id t mid s outs Hp Ep Hid Ht Hw Hm Hc E) as [rest [-> [HL HK]]].
  cbn [tl] in Hin. cbv zeta in HL, HK.
  set (ans := answers (is_wait id) mid rest) in *. set (ds := poll_deltas id (d_delta s0) mid) in *.
  (* first true answer *)
  assert (F : exists k, (k < length ans)%nat /\ nth k ans false = true /\ forall i, (i < k)%nat -> nth i ans true = false).
  { clear -Hin. induction ans as [|b l IH]; [contradiction|]. destruct b.
    - exists O. cbn. split; [lia|]. split; [reflexivity|]. intros i Hi; lia.
    - destruct Hin as [Hin|Hin]; [discriminate|]. destruct (IH Hin) as [k [K1 [K2 K3]]].
      exists (S k). cbn [length nth]. split; [lia|]. split; [exact K2|]. intros [|i] Hi; [reflexivity|]. apply K3. lia. }
  destruct F as [k [K1 [K2 K3]]]. rewrite (HK k) in K2 by (auto; lia).
  pose proof (once_sum id mid (d_delta s0) false Hm ltac:(lia) Hon (S k)) as O.
  fold ds in O. cbv iota in O. lia.
Qed.

Lemma delay_capacity_l : forall n ops s outs, Forall dl_ok ops -> dl_run (dl_init n) ops = Some (s, outs) ->
  let L := filter (fun id => negb (id =? 0)) (map fst (d_slots s)) in
  length (d_slots s) = n /\ NoDup L /\ (forall id, 0 < id < 65536 -> (In id L <-> dl_waiting (d_slots s) id = true)) /\
    (length L <= n)%nat /\
    forall o, dl_ok o -> (dl_step s o = None <-> exists id t, o = DWait id t /\ ~ In id L /\ length L = n).
Proof.
  intros n ops s outs Hok E. destruct (run_timer ops _ _ _ (init_inv n) Hok E) as [I [Hl _]].
  assert (Ln : length (d_slots s) = n).
  { rewrite Hl. cbn [dl_init d_slots]. apply repeat_length. }
  change (filter (fun id => negb (id =? 0)) (map fst (d_slots s))) with (occ (d_slots s)).
  split; [exact Ln|]. split; [apply I|]. split; [|split].
  - intros id Hid. rewrite in_occ. split; [tauto|]. intros H. split; [lia|exact H].
  - destruct (first_empty_cases (d_slots s) 0 ltac:(lia)) as [[_ H]|[_ H]]; lia.
  - intros o Ho. rewrite (step_defined s o I Ho). rewrite Ln. split; intros [id [t [E1 [E2 E3]]]]; exists id, t.
    + split; [exact E1|]. split; [|exact E3]. rewrite in_occ. intros [_ K]. congruence.
    + split; [exact E1|]. split; [|exact E3]. destruct (dl_waiting (d_slots s) id) eqn:W; [|reflexivity].
      exfalso. apply E2. apply in_occ. split; [|exact W]. subst o. cbn in Ho. lia.
Qed.

(** Id 0. *)
Lemma wait_zero_fresh_l : forall n t, (2 <= n)%nat ->
  exists s, dl_step (dl_init n) (DWait 0 t) = Some (s, true).
Proof.
  intros n t Hn. destruct n as [|[|n]]; try lia. eexists. reflexivity.
Qed.

Lemma scan_zero_none : forall l delta i e, e <> -1 -> length (occ l) = length l ->
  dl_scan l 0 delta i e = inr e.
Proof.
  intros l. induction l as [|[s d] l IH]; intros delta i e He Ho; cbn [dl_scan]; [reflexivity|].
  assert (e =? -1 = false) as -> by lia. cbn [andb]. rewrite occ_cons in Ho. cbn [length] in Ho.
  pose proof (first_empty_cases l 0 ltac:(lia)). destruct (Z.eqb_spec s 0); [lia|].
  rewrite IH; auto.
Qed.

Lemma wait_zero_single_l : forall l delta t, (length (occ l) + 1 = length l)%nat ->
  exists l', dl_wait l delta 0 t = Some (l', false) /\ map fst l' = map fst l.
Proof.
  intros l delta t H. unfold dl_wait.
  assert (G : forall l i, 0 <= i -> (length (occ l) + 1 = length l)%nat ->
    exists k, 0 <= k < Z.of_nat (length l) /\ dl_scan l 0 delta i (-1) = inr (i + k) /\
      exists l', dl_store l k (0, t) = Some l' /\ map fst l' = map fst l).
  { clear. intros l. induction l as [|[s d] l IH]; intros i Hi H; [cbn in H; lia|].
    rewrite occ_cons in H. cbn [length dl_scan] in *. change (-1 =? -1) with true. cbn [andb].
    destruct (Z.eqb_spec s 0) as [->|N].
    - exists 0. split; [lia|]. rewrite scan_zero_none by lia. split; [f_equal; lia|].
      cbn [dl_store]. change (0 =? 0) with true. eexists. split; [reflexivity|]. reflexivity.
    - cbn [length] in H. destruct (IH (i + 1) ltac:(lia) ltac:(lia)) as [k [K1 [K2 [l' [K3 K4]]]]].
      exists (k + 1). split; [lia|]. rewrite K2. split; [f_equal; lia|].
      cbn [dl_store]. assert (k + 1 =? 0 = false) as -> by lia. replace (k + 1 - 1) with k by lia.
      rewrite K3. eexists. split; [reflexivity|]. cbn [map fst]. now rewrite K4. }
  destruct (G l 0 ltac:(lia) H) as [k [K1 [K2 [l' [K3 K4]]]]]. rewrite K2. rewrite Z.add_0_l.
  assert (k =? -1 = false) as -> by lia. cbv zeta. rewrite K3. eauto.
Qed.

Lemma occ_free : forall l, (length (occ l) + free_slots l = length l)%nat.
Proof.
  intros l. unfold free_slots. induction l as [|[s d] l IH]; [reflexivity|].
  rewrite occ_cons. cbn [filter fst length]. destruct (s =? 0); cbn [length]; lia.
Qed.

Lemma free_map : forall l l', map fst l' = map fst l -> free_slots l' = free_slots l.
Proof.
  intros l. unfold free_slots. induction l as [|[s d] l IH]; intros [|[s' d'] l'] H; try discriminate; [reflexivity|].
  cbn [map fst] in H. injection H as -> H. cbn [filter fst]. destruct (s =? 0); cbn [length]; auto.
Qed.

Lemma wait_zero_forever_l : forall ts s, free_slots (d_slots s) = 1%nat ->
  exists s', dl_run s (flat_map (fun p => [DUpdate (fst p); DWait 0 (snd p)]) ts)
             = Some (s', repeat false (2 * length ts)).
Proof.
  intros ts. induction ts as [|[d t] ts IH]; intros s H; cbn [flat_map app dl_run length].
  - exists s. reflexivity.
  - cbn [dl_step fst snd d_slots d_delta].
    assert (O : (length (occ (d_slots s)) + 1 = length (d_slots s))%nat) by (rewrite <- (occ_free (d_slots s)); lia).
    destruct (wait_zero_single_l (d_slots s) d t O) as [l' [E1 E2]].
    rewrite E1. destruct (IH (mkDelays l' d)) as [s' E]; [cbn [d_slots]; rewrite (free_map _ _ E2); exact H|].
    rewrite E. exists s'. replace (2 * S (length ts))%nat with (S (S (2 * length ts))) by lia. reflexivity.
Qed.

(** ** TimeEx histories *)
Lemma last_reading_app : forall l now m, last_reading now (l ++ m) = last_reading (last_reading now l) m.
Proof.
  unfold last_reading. intros l now m. rewrite flat_map_app.
  set (f := flat_map _). generalize (f l) as a, (f m) as b. clear. intros a. revert now.
  induction a as [|x a IH]; intros now b; [reflexivity|].
  change (last (now :: (x :: a) ++ b) 0) with (last (x :: a ++ b) 0).
  change (last (now :: x :: a) 0) with (last (x :: a) 0). apply IH.
Qed.

Lemma tex_run_ticks : forall l s, te_ticks (tex_run s l) = last_reading (te_ticks s) l.
Proof.
  induction l as [|o l IH]; intros s; [reflexivity|]. cbn [tex_run fold_left].
  change (te_ticks (tex_run (tex_do s o) l) = last_reading (te_ticks s) (o :: l)). rewrite IH.
  change (o :: l) with ([o] ++ l). rewrite last_reading_app. f_equal. destruct o; reflexivity.
Qed.

Lemma tex_run_start : forall mid s, te_start (tex_run s (map TxUpdate mid)) = te_start s.
Proof. induction mid as [|n mid IH]; intros s; [reflexivity|]. cbn [map tex_run fold_left]. apply (IH (tex_do s (TxUpdate n))). Qed.

Lemma tex_run_app : forall l m s, tex_run s (l ++ m) = tex_run (tex_run s l) m.
Proof. intros. unfold tex_run. apply fold_left_app. Qed.

Lemma tex_start_l : forall us now pre mid,
  let t0 := last_reading now pre in
  let s := tex_run (tex_new now) (pre ++ TxReset :: map TxUpdate mid) in
  tex_start_ms us s = time_ms us t0 /\ tex_start_us us s = time_us us t0 /\
  (mid = [] -> tex_delta s = 0) /\
  (forall mid' n, mid = mid' ++ [n] -> tex_delta s = (n - last (t0 :: mid') 0) mod 65536) /\
  tex_start_ms us (tex_run (tex_new now) (map TxUpdate mid)) = time_ms us now /\
  tex_start_us us (tex_run (tex_new now) (map TxUpdate mid)) = time_us us now.
Proof.
  intros us now pre mid t0 s.
  assert (ES : te_start s = t0).
  { unfold s. rewrite tex_run_app. change (TxReset :: map TxUpdate mid) with ([TxReset] ++ map TxUpdate mid).
    rewrite tex_run_app, tex_run_start. change (te_ticks (tex_run (tex_new now) pre) = t0). apply tex_run_ticks. }
  unfold tex_start_ms, tex_start_us. rewrite ES. rewrite !tex_run_start.
  split; [reflexivity|]. split; [reflexivity|]. split; [|split; [|split; reflexivity]].
  - intros ->. unfold s. rewrite tex_run_app. cbn. unfold tex_delta. cbn. rewrite Z.sub_diag. reflexivity.
  - intros mid' n ->. unfold s. rewrite map_app.
    change (TxReset :: map TxUpdate mid' ++ map TxUpdate [n]) with ((TxReset :: map TxUpdate mid') ++ map TxUpdate [n]).
    rewrite app_assoc, tex_run_app. set (q := tex_run (tex_new now) (pre ++ TxReset :: map TxUpdate mid')).
    assert (EQ : te_ticks q = last (t0 :: mid') 0).
    { unfold q. rewrite tex_run_ticks, last_reading_app. unfold last_reading at 1. cbn [flat_map app].
      change (last_reading (te_ticks (tex_new now)) pre) with t0. f_equal. f_equal.
      clear. induction mid' as [|a l IH]; [reflexivity|]. cbn. f_equal. exact IH. }
    change (map TxUpdate [n]) with [TxUpdate n]. change (tex_run q [TxUpdate n]) with (mkTimeEx n (te_start q) (te_ticks q)).
    unfold tex_delta. cbn [te_ticks te_prev]. rewrite EQ. generalize (n - last (t0 :: mid') 0). clear. intros x.
    unfold u16, u32. rewrite (Z.mod_eq x 4294967296) by lia.
    replace (x - 4294967296 * (x / 4294967296)) with (x + (- (65536 * (x / 4294967296))) * 65536)
      by (generalize (x / 4294967296); intros; lia).
    apply Z_mod_plus_full.
Qed.

Lemma last_delta_gen : forall ops s s' outs, dl_run s ops = Some (s', outs) -> d_delta s' = last_update (d_delta s) ops.
Proof.
  induction ops as [|o ops IH]; intros s s' outs H; cbn [dl_run last_update] in *; [injection H as <- _; reflexivity|].
  destruct (dl_step s o) as [[s1 b]|] eqn:E; [|discriminate].
  destruct (dl_run s1 ops) as [[s2 bs]|] eqn:R; [|discriminate]. injection H as <- _. rewrite (IH _ _ _ R).
  destruct o; cbn [dl_step] in E; try (injection E as <- _; reflexivity).
  destruct (dl_wait _ _ _ _) as [[l b']|]; [|discriminate]. injection E as <- _. reflexivity.
Qed.
Lemma last_update_ok : forall ops d, 0 <= d < 4294967296 -> Forall dl_ok ops -> 0 <= last_update d ops < 4294967296.
Proof.
  induction ops as [|o ops IH]; intros d H F; cbn [last_update]; [exact H|]. inversion F as [|? ? O F']; subst.
  destruct o; apply IH; auto.
Qed.
Lemma last_delta_l : forall n ops s outs, Forall dl_ok ops -> dl_run (dl_init n) ops = Some (s, outs) ->
  let d := last_update 0 ops in
  dl_last_delta s = d mod 65536 /\ (dl_last_delta s = d <-> d < 65536).
Proof.
  intros n ops s outs F H d. pose proof (last_delta_gen _ _ _ _ H) as E. cbn [d_delta dl_init] in E. fold d in E.
  assert (B : 0 <= d < 4294967296) by (apply last_update_ok; [lia|exact F]). clearbody d.
  unfold dl_last_delta, u16. rewrite E. split; [reflexivity|]. clear -B. lia.
Qed.
