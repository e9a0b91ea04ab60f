(** The task and button sketches. *)
Require Import ZArith List Bool Lia ZifyBool.
Import ListNotations.
From Verif Require Import Base BaseFacts TimeModel TimeSpec TimeProofs TaskModel ArduinoModel ArduinoSpec ArduinoProofs SketchModel SketchSpec.
Open Scope Z_scope.
Ltac Zify.zify_post_hook ::= idtac.

(** ** One task *)
Inductive tstate := Fresh | Ready | Since (s : Z).
Definition tstep (T t : Z) (st : tstate) : tstate * bool :=
  match st with
  | Fresh => (Ready, false)
  | Ready => (Since t, false)
  | Since s => if T <=? t - s then (Ready, true) else (Since s, false)
  end.
(** [prev]: the time of the last round. *)
Definition holds (d : delays) (prev : Z) (p : ptask) (st : tstate) : Prop :=
  match st with
  | Fresh => pt_task p = 0 /\ lookup_id (d_slots d) (pt_id p) = None
  | Ready => pt_task p = 56 /\ lookup_id (d_slots d) (pt_id p) = None
  | Since s => pt_task p = 56 /\ lookup_id (d_slots d) (pt_id p) = Some (pt_timeout p - (prev - s))
  end.
Definition p_ok (p : ptask) : Prop := 0 < pt_id p < 65536 /\ 0 <= pt_timeout p < 4294967296.
Definition set_task (p : ptask) (k : Z) : ptask := mkPtask (pt_id p) (pt_timeout p) (pt_pin p) k.

(** The slots in use belong to tasks of the list [all], for which there is room. *)
Definition room (all : list Z) (d : delays) : Prop := NoDup all /\ (length all <= length (d_slots d))%nat /\ incl (occ (d_slots d)) all.

Lemma occ_lookup : forall l id, id <> 0 -> (In id (occ l) <-> lookup_id l id <> None).
Proof.
  intros l id N. rewrite in_occ, waiting_lookup. destruct (lookup_id l id); split; intros H; try tauto; try (split; [exact N|reflexivity]).
  - congruence.
  - destruct H as [_ H]. discriminate.
Qed.
Lemma room_free : forall all d id, room all d -> inv (d_slots d) -> In id all -> ~ In id (occ (d_slots d)) ->
  (length (occ (d_slots d)) < length (d_slots d))%nat.
Proof.
  intros all d id (ND & L & I) [V _] Hin Hn.
  assert (G : (length (id :: occ (d_slots d)) <= length all)%nat).
  { apply NoDup_incl_length; [constructor; assumption|]. intros x [<-|X]; [exact Hin|apply I; exact X]. }
  cbn [length] in G. lia.
Qed.
Lemma room_keep : forall all d l' id delta, room all d -> inv (d_slots d) -> inv l' -> In id all -> length l' = length (d_slots d) ->
  (forall j, j <> 0 -> j <> id -> lookup_id l' j = lookup_id (d_slots d) j) -> room all (mkDelays l' delta).
Proof.
  intros all d l' id delta (ND & L & I) V V' Hin Len K. split; [exact ND|]. split; [cbn [d_slots]; lia|]. cbn [d_slots].
  intros j J. destruct (Z.eq_dec j id) as [->|N]; [exact Hin|].
  assert (N0 : j <> 0) by (apply in_occ in J; tauto).
  apply I. apply occ_lookup; [exact N0|]. apply occ_lookup in J; [|exact N0]. rewrite <- K by assumption. exact J.
Qed.

Lemma one_task : forall all p st d prev t, p_ok p -> holds d prev p st -> dinv d -> room all d -> In (pt_id p) all -> d_delta d = t - prev ->
  let (st', fired) := tstep (pt_timeout p) t st in
  exists k d' r, tt_execute (pt_id p) (pt_timeout p) (pt_task p) d = Some (k, d', r, fired) /\
    holds d' t (set_task p k) st' /\ dinv d' /\ room all d' /\ d_delta d' = d_delta d /\
    forall j, j <> 0 -> j <> pt_id p -> lookup_id (d_slots d') j = lookup_id (d_slots d) j.
Proof.
  intros all p st d prev t [Hid HT] Hh [V D] R Hin Ed. unfold tt_execute.
  pose proof (wait_spec (d_slots d) (d_delta d) (pt_id p) (pt_timeout p) V ltac:(lia) Hid HT) as W.
  destruct st as [| |s]; cbn [holds tstep] in *; destruct Hh as [Et El]; rewrite Et.
  - change (0 =? 0) with true. cbv iota. exists 56, d, true. split; [reflexivity|]. split; [split; [reflexivity|exact El]|]. split; [split; assumption|]. auto.
  - change (56 =? 0) with false. change (56 =? 56) with true. cbv iota. rewrite El in W.
    destruct W as [[W1 W2]|(W1 & l' & W2 & W3 & W4 & W5 & W6)].
    + exfalso. pose proof (room_free all d (pt_id p) R V Hin) as F.
      assert (N : ~ In (pt_id p) (occ (d_slots d))) by (rewrite occ_lookup by lia; intros Q; congruence). specialize (F N). lia.
    + rewrite W2. exists 56. eexists. eexists. split; [reflexivity|]. split.
      { cbn [holds set_task pt_task pt_id pt_timeout d_slots]. split; [reflexivity|]. rewrite W5. f_equal. lia. }
      split; [split; [exact W4|exact D]|]. split; [eapply room_keep; eauto|]. split; [reflexivity|exact W6].
  - change (56 =? 0) with false. change (56 =? 56) with true. cbv iota. rewrite El in W.
    destruct W as (l' & W2 & W3 & W4 & W5 & W6). rewrite W2.
    destruct (Z.leb_spec (pt_timeout p) (t - s)) as [G|G].
    + replace (d_delta d >=? pt_timeout p - (prev - s)) with true in * by lia.
      exists 56. eexists. eexists. split; [reflexivity|]. split; [split; [reflexivity|exact W5]|].
      split; [split; [exact W4|exact D]|]. split; [eapply room_keep; eauto|]. split; [reflexivity|exact W6].
    + replace (d_delta d >=? pt_timeout p - (prev - s)) with false in * by lia.
      exists 56. eexists. eexists. split; [reflexivity|]. split.
      { cbn [holds set_task pt_task pt_id pt_timeout d_slots]. split; [reflexivity|]. rewrite W5. f_equal. lia. }
      split; [split; [exact W4|exact D]|]. split; [eapply room_keep; eauto|]. split; [reflexivity|exact W6].
Qed.

(** ** A round *)
Definition pins_fired (l : list ptask) (fs : list bool) : list pop :=
  flat_map (fun q => if (snd q : bool) then [PToggle (pt_pin (fst q))] else []) (combine l fs).
Definition same (p q : ptask) : Prop := pt_id p = pt_id q /\ pt_timeout p = pt_timeout q /\ pt_pin p = pt_pin q.
Definition steps (t : Z) (l : list ptask) (sts : list tstate) : list (tstate * bool) :=
  map (fun q => tstep (pt_timeout (fst q)) t (snd q)) (combine l sts).

Section R.
Variable timer : Z -> bool.
Variable outside : Z -> bool -> bool.
Lemma round_l : forall all t prev l sts d b, Forall2 (holds d prev) l sts -> Forall p_ok l -> NoDup (map pt_id l) -> dinv d -> room all d ->
  incl (map pt_id l) all -> d_delta d = t - prev ->
  exists l' d', execute_all timer outside l d b = Some (l', d', fst (p_run timer outside b (pins_fired l (map snd (steps t l sts)))), map snd (steps t l sts)) /\
    Forall2 (holds d' t) l' (map fst (steps t l sts)) /\ Forall2 same l l' /\ dinv d' /\ room all d' /\ d_delta d' = d_delta d /\
    forall j, j <> 0 -> ~ In j (map pt_id l) -> lookup_id (d_slots d') j = lookup_id (d_slots d) j.
Proof.
  intros all t prev. induction l as [|p l IH]; intros sts d b H P ND V R I Ed; inversion H as [|? st ? sts' H1 H2]; subst; clear H.
  - exists [], d. cbn. repeat (split; [auto|]); auto.
  - inversion P as [|? ? P1 P2]; subst. cbn [map] in ND. inversion ND as [|? ? N1 N2]; subst. cbn [execute_all].
    pose proof (one_task all p st d prev t P1 H1 V R ltac:(apply I; left; reflexivity) Ed) as O.
    unfold steps. cbn [combine map fst snd]. fold (steps t l sts').
    destruct (tstep (pt_timeout p) t st) as [st' fired]. destruct O as (k & d1 & r & E1 & Hh & V1 & R1 & D1 & K1).
    rewrite E1. cbn [fst snd].
    assert (H2' : Forall2 (holds d1 prev) l sts').
    { clear - H2 K1 N1 P2 P1. revert P2 N1. induction H2 as [|q st0 l sts H H2 IH]; intros P2 N1; constructor.
      - inversion P2 as [|? ? Q1 Q2]; subst. destruct Q1 as [Q1 _]. cbn [map In] in N1.
        assert (E : lookup_id (d_slots d1) (pt_id q) = lookup_id (d_slots d) (pt_id q)).
        { apply K1; [clear - Q1; lia|]. intros Q. apply N1. left. exact Q. }
        unfold holds in *. rewrite E. exact H.
      - inversion P2; subst. apply IH; [assumption|]. intros Q. apply N1. right. exact Q. }
    set (b1 := if fired then fst (p_step timer outside b (PToggle (pt_pin p))) else b).
    destruct (IH sts' d1 b1 H2' P2 N2 V1 R1 ltac:(intros x X; apply I; right; exact X) ltac:(congruence)) as (l' & d' & E2 & F1 & F2 & V2 & R2 & D2 & K2).
    rewrite E2. exists (set_task p k :: l'), d'. split.
    { unfold set_task. do 2 f_equal. f_equal. unfold pins_fired. cbn [combine flat_map fst snd]. unfold b1. destruct fired; [|reflexivity].
      cbn [app p_run]. destruct (p_step timer outside b (PToggle (pt_pin p))) as [b2 v2]. cbn [fst].
      match goal with |- context [p_run timer outside b2 ?x] => destruct (p_run timer outside b2 x) end. reflexivity. }
    split.
    { constructor; [|exact F1]. destruct P1 as [P1 _].
      assert (E : lookup_id (d_slots d') (pt_id p) = lookup_id (d_slots d1) (pt_id p)) by (apply K2; [clear - P1; lia|exact N1]).
      unfold holds in *. cbn [set_task pt_id pt_task pt_timeout] in *. rewrite E. exact Hh. }
    split; [constructor; [repeat split|exact F2]|]. split; [exact V2|]. split; [exact R2|]. split; [congruence|].
    intros j J0 J1. cbn [map In] in J1. rewrite K2, K1; try tauto. intros Q. apply J1. left. congruence.
Qed.
End R.

(** ** The beat *)
Fixpoint trun (T : Z) (st : tstate) (times : list Z) : list bool :=
  match times with [] => [] | t :: rest => let (st', f) := tstep T t st in f :: trun T st' rest end.
Lemma trun_beat : forall T times, trun T Ready times = beat T None times /\ forall s, trun T (Since s) times = beat T (Some s) times.
Proof.
  intros T. induction times as [|t times [IH1 IH2]]; [split; reflexivity|]. cbn [trun beat tstep]. split.
  - rewrite IH2. reflexivity.
  - intros s. destruct (T <=? t - s); [rewrite IH1|rewrite IH2]; reflexivity.
Qed.
Lemma trun_fresh : forall T times, trun T Fresh times = task_beat T times.
Proof. intros T [|t times]; [reflexivity|]. cbn [trun tstep task_beat]. rewrite (proj1 (trun_beat T times)). reflexivity. Qed.

Definition begins (since : option Z) (F : list bool) (i : nat) : Prop :=
  (since = None /\ i = O) \/ exists j, i = S j /\ nth j F false = true.
Lemma beat_l : forall T times since i, let F := beat T since times in
  nth i F false = true <-> (i < length times)%nat /\
    ((exists s, (s < i)%nat /\ begins since F s /\ (forall j, (s <= j < i)%nat -> nth j F false = false) /\ T <= nth i times 0 - nth s times 0) \/
     (exists s0, since = Some s0 /\ (forall j, (j < i)%nat -> nth j F false = false) /\ T <= nth i times 0 - s0)).
Proof.
  intros T. induction times as [|t times IH]; intros since i; cbv zeta; [destruct i; cbn; split; [discriminate|lia|discriminate|lia]|].
  assert (G : forall since' f, beat T since (t :: times) = f :: beat T since' times ->
    (since' = match since, f with None, _ => Some t | Some s0, true => None | Some s0, false => Some s0 end) ->
    (f = match since with None => false | Some s0 => T <=? t - s0 end) ->
    nth i (beat T since (t :: times)) false = true <-> (i < length (t :: times))%nat /\
    ((exists s, (s < i)%nat /\ begins since (beat T since (t :: times)) s /\ (forall j, (s <= j < i)%nat -> nth j (beat T since (t :: times)) false = false) /\ T <= nth i (t :: times) 0 - nth s (t :: times) 0) \/
     (exists s0, since = Some s0 /\ (forall j, (j < i)%nat -> nth j (beat T since (t :: times)) false = false) /\ T <= nth i (t :: times) 0 - s0))).
  { intros since' f E Es Ef. rewrite E. destruct i as [|i].
    - cbn [nth length]. split.
      + intros H. split; [lia|]. right. destruct since as [s0|]; [|congruence]. exists s0. split; [reflexivity|]. split; [intros; lia|]. rewrite H in Ef. symmetry in Ef. lia.
      + intros [_ [(s & L & _)|(s0 & -> & _ & L)]]; [lia|]. rewrite Ef. lia.
    - cbn [nth length]. specialize (IH since' i). cbv zeta in IH. rewrite IH. clear IH. split; intros [L H]; (split; [lia|]).
      + destruct H as [(s & L1 & B & Q & LT)|(s0 & E0 & Q & LT)].
        * left. exists (S s). split; [lia|]. split.
          { right. exists s. split; [reflexivity|]. destruct B as [[B1 ->]|(j & -> & B)]; [|exact B].
            cbn [nth]. destruct since as [s1|]; [|congruence]. destruct f; [reflexivity|congruence]. }
          split; [|exact LT]. intros [|j] J; [lia|]. cbn [nth]. apply Q. lia.
        * destruct since as [s1|].
          -- destruct f; [congruence|]. right. exists s1. split; [reflexivity|]. split; [|rewrite E0 in Es; injection Es as ->; exact LT].
             intros [|j] J; [reflexivity|]. cbn [nth]. apply Q. lia.
          -- left. exists O. split; [lia|]. split; [left; split; reflexivity|]. split.
             ++ intros [|j] J; [cbn [nth]; rewrite Ef; reflexivity|]. cbn [nth]. apply Q. lia.
             ++ cbn [nth]. rewrite E0 in Es. injection Es as ->. exact LT.
      + destruct H as [(s & L1 & B & Q & LT)|(s0 & E0 & Q & LT)].
        * destruct s as [|s].
          -- right. destruct B as [[B1 _]|(j & B & _)]; [|discriminate]. subst since. exists t. split; [congruence|]. split.
             ++ intros j J. apply (Q (S j)). lia.
             ++ exact LT.
          -- left. exists s. split; [lia|]. split.
             { destruct B as [[_ B]|(j & B1 & B2)]; [discriminate|]. injection B1 as <-. destruct s as [|s].
               - left. split; [|reflexivity]. cbn [nth] in B2. destruct since; [rewrite B2 in Es; exact Es|congruence].
               - right. exists s. split; [reflexivity|exact B2]. }
             split; [|exact LT]. intros j J. apply (Q (S j)). lia.
        * right. subst since. exists s0. pose proof (Q O ltac:(lia)) as Q0. cbn [nth] in Q0. rewrite Q0 in Es. split; [exact Es|]. split; [|exact LT].
          intros j J. apply (Q (S j)). lia. }
  destruct since as [s0|]; cbn [beat] in *.
  - destruct (T <=? t - s0) eqn:E; eapply G; try reflexivity.
  - eapply G; reflexivity.
Qed.
Lemma beat_mean_l : forall T times i, let F := beat T None times in
  nth i F false = true <-> (i < length times)%nat /\
    exists s, (s < i)%nat /\ starts F s /\ (forall j, (s <= j < i)%nat -> nth j F false = false) /\ T <= nth i times 0 - nth s times 0.
Proof.
  intros T times i. cbv zeta. rewrite (beat_l T times None i). unfold begins, starts. split.
  - intros [L [(s & L1 & B & Q)|(s0 & E & _)]]; [|discriminate]. split; [exact L|]. exists s. split; [exact L1|]. split; [tauto|exact Q].
  - intros [L (s & L1 & B & Q)]. split; [exact L|]. left. exists s. split; [exact L1|]. split; [tauto|exact Q].
Qed.
(** The gap between two fires is never shorter than the timeout and one round. *)
Lemma length_beat : forall T times since, length (beat T since times) = length times.
Proof. intros T. induction times as [|t times IH]; intros [s|]; cbn [beat length]; [reflexivity|reflexivity| |f_equal; apply IH]. destruct (T <=? t - s); cbn [length]; f_equal; apply IH. Qed.

(** ** Many rounds *)
Definition room_ok (all : list Z) (s : tasks) (now : Z) (sts : list tstate) : Prop :=
  Forall2 (holds (ts_delays s) now) (ts_list s) sts /\ Forall p_ok (ts_list s) /\ NoDup (map pt_id (ts_list s)) /\
  dinv (ts_delays s) /\ room all (ts_delays s) /\ incl (map pt_id (ts_list s)) all.
Lemma same_map {A} : forall (f : ptask -> A) l l', (forall p q, same p q -> f p = f q) -> Forall2 same l l' -> map f l = map f l'.
Proof. intros f l l' H F. induction F; cbn [map]; [reflexivity|]. f_equal; auto. Qed.
Lemma same_p_ok : forall l l', Forall2 same l l' -> Forall p_ok l -> Forall p_ok l'.
Proof. intros l l' F H. induction F as [|p q l l' (E1 & E2 & _) F IH]; inversion H as [|? ? [H1 H2] H3]; subst; constructor; [|auto]. split; congruence. Qed.
Lemma same_fired : forall l l' fs, Forall2 same l l' -> pins_fired l fs = pins_fired l' fs.
Proof.
  intros l l' fs F. revert fs. induction F as [|p q l l' (_ & _ & E) F IH]; intros fs; [reflexivity|]. destruct fs as [|f fs]; [reflexivity|].
  unfold pins_fired in *. cbn [combine flat_map fst snd]. rewrite E. f_equal. apply IH.
Qed.
Lemma F2_len : forall A B (R : A -> B -> Prop) l l', Forall2 R l l' -> length l = length l'.
Proof. intros A B R l l' F. induction F; cbn [length]; congruence. Qed.
Section R2.
Variable timer : Z -> bool.
Variable outside : Z -> bool -> bool.
Lemma run_app_fst : forall xs ys b, fst (p_run timer outside b (xs ++ ys)) = fst (p_run timer outside (fst (p_run timer outside b xs)) ys).
Proof.
  induction xs as [|x xs IH]; intros ys b; [reflexivity|]. cbn [app p_run]. destruct (p_step timer outside b x) as [b1 v].
  specialize (IH ys b1). destruct (p_run timer outside b1 (xs ++ ys)) as [b2 w]. destruct (p_run timer outside b1 xs) as [b3 w3]. cbn [fst] in *. exact IH.
Qed.
(** One loop, whatever the clock remembered: [delta] is what the counter advanced. *)
Lemma loop_l : forall all s now t prev sts, room_ok all s prev sts -> u32 (now - ts_ticks s) = t - prev ->
  exists s', tasks_loop timer outside s now = Some (s', map snd (steps t (ts_list s) sts)) /\
    room_ok all s' t (map fst (steps t (ts_list s) sts)) /\ Forall2 same (ts_list s) (ts_list s') /\ ts_ticks s' = now /\
    ts_board s' = fst (p_run timer outside (ts_board s) (pins_fired (ts_list s) (map snd (steps t (ts_list s) sts)))).
Proof.
  intros all s now t prev sts (H & P & ND & [V D] & R & I) E. unfold tasks_loop, time_update. cbn [dl_step]. rewrite E.
  assert (HB : 0 <= t - prev < 4294967296) by (rewrite <- E; apply Z.mod_pos_bound; lia).
  destruct (round_l timer outside all t prev (ts_list s) sts (mkDelays (d_slots (ts_delays s)) (t - prev)) (ts_board s) H P ND (conj V HB) R I eq_refl)
    as (l' & d' & E1 & F1 & F2 & V2 & R2 & _ & _).
  rewrite E1. eexists. split; [reflexivity|]. cbn [ts_list ts_ticks ts_board ts_delays]. split; [|split; [exact F2|split; reflexivity]].
  unfold room_ok. cbn [ts_list ts_delays].
  assert (EI : map pt_id l' = map pt_id (ts_list s)) by (symmetry; apply same_map; [intros p q (Q & _ & _); exact Q|exact F2]).
  split; [exact F1|]. split; [eapply same_p_ok; eauto|]. rewrite EI. split; [exact ND|]. split; [exact V2|]. split; [exact R2|exact I].
Qed.
Definition columns (l : list ptask) (sts : list tstate) (times : list Z) (fss : list (list bool)) : Prop :=
  forall i p st, nth_error l i = Some p -> nth_error sts i = Some st ->
    map (fun fs => nth i fs false) fss = trun (pt_timeout p) st times.
Lemma steps_nth : forall t l sts i p st, nth_error l i = Some p -> nth_error sts i = Some st -> nth_error (steps t l sts) i = Some (tstep (pt_timeout p) t st).
Proof.
  intros t. induction l as [|q l IH]; intros sts i p st H1 H2; [destruct i; discriminate|]. destruct sts as [|st0 sts]; [destruct i; discriminate|].
  destruct i as [|i]; cbn [nth_error] in *; [injection H1 as <-; injection H2 as <-; reflexivity|]. exact (IH sts i p st H1 H2).
Qed.
Lemma steps_length : forall t l sts, length sts = length l -> length (steps t l sts) = length l.
Proof. intros t l sts H. unfold steps. rewrite map_length, combine_length. lia. Qed.
Lemma same_nth : forall l l' i p, Forall2 same l l' -> nth_error l i = Some p -> exists q, nth_error l' i = Some q /\ same p q.
Proof.
  intros l l' i p F. revert i. induction F as [|a b l l' S F IH]; intros [|i] H; cbn [nth_error] in *; try discriminate.
  - injection H as <-. exists b. auto.
  - auto.
Qed.
Lemma run_l : forall all dts s now sts, room_ok all s now sts -> ts_ticks s = u32 now -> Forall (fun dt => 0 <= dt < 4294967296) dts ->
  exists s' fss, tasks_run timer outside s (map u32 (clock_times now dts)) = Some (s', fss) /\
    columns (ts_list s) sts (clock_times now dts) fss /\ Forall (fun fs => length fs = length (ts_list s)) fss /\
    ts_board s' = fst (p_run timer outside (ts_board s) (flat_map (pins_fired (ts_list s)) fss)).
Proof.
  intros all. induction dts as [|dt dts IH]; intros s now sts R E Hd; cbn [clock_times map tasks_run].
  - exists s, []. split; [reflexivity|]. split; [intros i p st _ _; reflexivity|]. split; [constructor|reflexivity].
  - inversion Hd as [|? ? H1 H2]; subst.
    assert (EL : length sts = length (ts_list s)) by (destruct R as (R & _); symmetry; eapply F2_len; exact R).
    destruct (loop_l all s (u32 (now + dt)) (now + dt) now sts R) as (s1 & E1 & R1 & F1 & T1 & B1).
    { rewrite E. unfold u32. rewrite <- Zminus_mod. replace (now + dt - now) with dt by lia. apply Z.mod_small. exact H1. }
    rewrite E1. destruct (IH s1 (now + dt) _ R1 T1 H2) as (s2 & fss & E2 & C2 & L2 & B2).
    rewrite E2. eexists. eexists. split; [reflexivity|]. split; [|split].
    + intros i p st N1 N2. cbn [map trun]. destruct (same_nth _ _ i p F1 N1) as (q & N3 & S3).
      pose proof (steps_nth (now + dt) _ _ i p st N1 N2) as N4.
      destruct (tstep (pt_timeout p) (now + dt) st) as [st' f] eqn:Et.
      assert (N5 : nth_error (map fst (steps (now + dt) (ts_list s) sts)) i = Some st') by (rewrite nth_error_map, N4; reflexivity).
      specialize (C2 i q st' N3 N5). f_equal.
      * change false with (snd (Fresh, false)). rewrite map_nth. rewrite (nth_error_nth _ _ _ N4). reflexivity.
      * destruct S3 as (_ & ST & _). rewrite ST. exact C2.
    + constructor; [rewrite map_length, steps_length by exact EL; reflexivity|].
      assert (Q : length (ts_list s1) = length (ts_list s)) by (symmetry; eapply F2_len; exact F1). rewrite <- Q. exact L2.
    + rewrite B2, B1. cbn [flat_map]. rewrite run_app_fst. f_equal. f_equal.
      apply flat_map_ext. intros fs. symmetry. apply same_fired. exact F1.
Qed.
End R2.

(** ** The pins *)
Lemma value_fired_none : forall l fs n v, ~ In n (map pt_pin l) -> value_of n v (pins_fired l fs) = v.
Proof.
  induction l as [|p l IH]; intros fs n v H; [reflexivity|]. destruct fs as [|f fs]; [reflexivity|]. unfold pins_fired. cbn [combine flat_map fst snd]. fold (pins_fired l fs).
  cbn [map In] in H. unfold value_of. rewrite fold_left_app. destruct f; cbn [fold_left]; [|apply IH; tauto]. unfold value_after at 2. cbn [pin_of].
  replace (pt_pin p =? n) with false by (symmetry; apply Z.eqb_neq; tauto). apply IH. tauto.
Qed.
Lemma value_fired : forall l fs i p v, NoDup (map pt_pin l) -> length fs = length l -> nth_error l i = Some p ->
  value_of (pt_pin p) v (pins_fired l fs) = xorb v (nth i fs false).
Proof.
  induction l as [|q l IH]; intros fs i p v ND L N; [destruct i; discriminate|]. destruct fs as [|f fs]; [discriminate|].
  cbn [map] in ND. inversion ND as [|? ? N1 N2]; subst. unfold pins_fired. cbn [combine flat_map fst snd]. fold (pins_fired l fs).
  unfold value_of. rewrite fold_left_app. destruct i as [|i]; cbn [nth_error nth] in *.
  - injection N as ->. destruct f; cbn [fold_left]; [unfold value_after at 2; cbn [pin_of]; rewrite Z.eqb_refl|]; fold (value_of (pt_pin p));
      match goal with |- fold_left (value_after ?n) ?o ?w = ?r => change (value_of n w o = r) end; rewrite value_fired_none by exact N1; destruct v; reflexivity.
  - assert (Hp : In (pt_pin p) (map pt_pin l)) by (apply in_map; eapply nth_error_In; exact N).
    assert (Nq : pt_pin q <> pt_pin p) by (intros Q; apply N1; rewrite Q; exact Hp).
    cbn [length] in L. injection L as L. specialize (IH fs i p v N2 L N). destruct f; cbn [fold_left]; [|exact IH].
    unfold value_after at 2. cbn [pin_of]. replace (pt_pin q =? pt_pin p) with false by (symmetry; apply Z.eqb_neq; exact Nq). exact IH.
Qed.
Lemma value_rounds : forall l fss i p v, NoDup (map pt_pin l) -> Forall (fun fs => length fs = length l) fss -> nth_error l i = Some p ->
  value_of (pt_pin p) v (flat_map (pins_fired l) fss) = xorb v (odd_count (map (fun fs => nth i fs false) fss)).
Proof.
  intros l fss i p v ND F N. revert v. induction F as [|fs fss L F IH]; intros v; cbn [flat_map map odd_count fold_right]; [destruct v; reflexivity|].
  unfold value_of. rewrite fold_left_app. fold (value_of (pt_pin p) v (pins_fired l fs)). rewrite (value_fired l fs i p v ND L N).
  match goal with |- fold_left (value_after ?n) ?o ?w = _ => change (value_of n w o = xorb v (xorb (nth i fs false) (odd_count (map (fun fs => nth i fs false) fss)))) end.
  rewrite IH. apply xorb_assoc.
Qed.
Lemma fired_digital : forall n l fss, Forall (digital_on n) (flat_map (pins_fired l) fss).
Proof.
  intros n l fss. apply Forall_forall. intros o Ho. apply in_flat_map in Ho. destruct Ho as (fs & _ & Ho). unfold pins_fired in Ho.
  apply in_flat_map in Ho. destruct Ho as ([p f] & _ & Ho). destruct f; [|destruct Ho]. destruct Ho as [<-|[]]. intros _. exact Logic.I.
Qed.
Lemma run_sane : forall timer outside ops b, sane timer b -> sane timer (fst (p_run timer outside b ops)).
Proof.
  intros timer outside. induction ops as [|o ops IH]; intros b S; [exact S|]. cbn [p_run]. pose proof (proj1 (step_frame timer outside b o S)) as S1.
  destruct (p_step timer outside b o) as [b1 v]. specialize (IH b1 S1). destruct (p_run timer outside b1 ops). exact IH.
Qed.
Lemma outs_new : forall timer outside pins b n, sane timer b -> NoDup pins -> In n pins -> p_pwm (b n) = None ->
  signal_of (fst (p_run timer outside b (map POut pins)) n) = SLevel (p_latch (b n)).
Proof.
  intros timer outside pins b n S ND Hin P. apply in_split in Hin. destruct Hin as (a & c & ->). rewrite map_app. cbn [map].
  rewrite run_app_fst. apply NoDup_remove_2 in ND.
  destruct (pins_frame_l timer outside (map POut a) b n S) as [S1 F1].
  { intros o Ho. apply in_map_iff in Ho. destruct Ho as (m & <- & Hm). cbn [pin_of]. intros ->. apply ND. apply in_or_app. left. exact Hm. }
  set (b1 := fst (p_run timer outside b (map POut a))) in *.
  change (POut n :: map POut c) with ([POut n] ++ map POut c). rewrite run_app_fst.
  destruct (pins_new_l timer outside b1 n S1) as (_ & Q & _). rewrite F1 in Q. specialize (Q P).
  pose proof (proj1 (step_frame timer outside b1 (POut n) S1)) as S2.
  assert (E : fst (p_run timer outside b1 [POut n]) = fst (p_step timer outside b1 (POut n))) by (cbn [p_run]; destruct (p_step timer outside b1 (POut n)); reflexivity).
  rewrite E. destruct (pins_frame_l timer outside (map POut c) (fst (p_step timer outside b1 (POut n))) n S2) as [_ F2].
  { intros o Ho. apply in_map_iff in Ho. destruct Ho as (m & <- & Hm). cbn [pin_of]. intros ->. apply ND. apply in_or_app. right. exact Hm. }
  rewrite F2. exact Q.
Qed.

Lemma tasks_l : forall timer outside slots ts ticks now dts b,
  Forall task_ok ts -> NoDup (map (fun t => fst (fst t)) ts) -> NoDup (map snd ts) -> (length ts <= slots)%nat -> sane timer b ->
  (forall t, In t ts -> p_pwm (b (snd t)) = None) -> Forall (fun dt => 0 <= dt < 4294967296) dts ->
  exists s fss, tasks_run timer outside (tasks_new timer outside slots ts ticks b) (map u32 (rounds now dts)) = Some (s, fss) /\
    forall i id T pin, nth_error ts i = Some (id, T, pin) ->
      map (fun fs => nth i fs false) fss = task_beat T (rounds now dts) /\
      signal_of (ts_board s pin) = SLevel (xorb (p_latch (b pin)) (odd_count (task_beat T (rounds now dts)))).
Proof.
  intros timer outside slots ts ticks now dts b TO ND NP Ls S P Hd.
  set (s0 := tasks_new timer outside slots ts ticks b). set (all := map (fun t : Z * Z * Z => fst (fst t)) ts).
  assert (EI : map pt_id (ts_list s0) = all) by (unfold s0, tasks_new, all; cbn [ts_list]; rewrite map_map; reflexivity).
  assert (EP : map pt_pin (ts_list s0) = map snd ts) by (unfold s0, tasks_new; cbn [ts_list]; rewrite map_map; reflexivity).
  assert (R0 : room_ok all s0 (now - u32 (u32 now - ticks)) (map (fun _ => Fresh) ts)).
  { unfold room_ok. rewrite EI. split.
    - unfold s0, tasks_new; cbn [ts_list ts_delays]. clear - TO. induction TO as [|t ts [H1 H2] TO IH]; cbn [map]; constructor; [|exact IH].
      cbn [holds pt_task pt_id]. split; [reflexivity|]. apply init_lookup. lia.
    - split; [unfold s0, tasks_new; cbn [ts_list]; clear - TO; induction TO as [|t ts [H1 H2] TO IH]; cbn [map]; constructor; [|exact IH]; split; [exact H1|exact H2]|].
      split; [exact ND|]. split; [apply init_inv|]. split; [|apply incl_refl]. split; [exact ND|].
      assert (Es : d_slots (ts_delays s0) = repeat (0, 0) slots) by reflexivity. rewrite Es. split; [rewrite repeat_length; unfold all; rewrite map_length; exact Ls|].
      assert (EO : occ (repeat (0, 0) slots) = []) by (clear; unfold occ; induction slots as [|n IH]; cbn; auto). rewrite EO. intros x []. }
  unfold rounds. cbn [map tasks_run].
  destruct (loop_l timer outside all s0 (u32 now) now _ _ R0) as (s1 & E1 & R1 & F1 & T1 & B1); [unfold s0; cbn [tasks_new ts_ticks]; lia|].
  fold s0. rewrite E1.
  destruct (run_l timer outside all dts s1 now _ R1 T1 Hd) as (s2 & fss & E2 & C2 & L2 & B2). rewrite E2.
  eexists. eexists. split; [reflexivity|]. intros i id T pin N.
  assert (N0 : nth_error (ts_list s0) i = Some (mkPtask id T pin 0)) by (unfold s0, tasks_new; cbn [ts_list]; rewrite nth_error_map, N; reflexivity).
  assert (N1 : nth_error (map (fun _ : Z * Z * Z => Fresh) ts) i = Some Fresh) by (rewrite nth_error_map, N; reflexivity).
  destruct (same_nth _ _ i _ F1 N0) as (q & N2 & (_ & Sq & Spin)). cbn [pt_timeout pt_pin] in *.
  pose proof (steps_nth now _ _ i _ _ N0 N1) as N3. cbn [pt_timeout tstep] in N3.
  assert (N4 : nth_error (map fst (steps now (ts_list s0) (map (fun _ : Z * Z * Z => Fresh) ts))) i = Some Ready) by (rewrite nth_error_map, N3; reflexivity).
  pose proof (C2 i q Ready N2 N4) as C3. rewrite <- Sq in C3. rewrite (proj1 (trun_beat _ _)) in C3.
  assert (EF : nth i (map snd (steps now (ts_list s0) (map (fun _ : Z * Z * Z => Fresh) ts))) false = false).
  { change false with (snd (Ready, false)) at 1. rewrite map_nth, (nth_error_nth _ _ _ N3). reflexivity. }
  cbn [map task_beat]. rewrite EF. split; [f_equal; exact C3|].
  assert (EL : length (map (fun _ : Z * Z * Z => Fresh) ts) = length (ts_list s0)) by (rewrite <- (map_length pt_pin), EP, !map_length; reflexivity).
  cbn [odd_count fold_right]. rewrite xorb_false_l. rewrite <- C3. rewrite B2, B1. rewrite <- run_app_fst.
  assert (EX : flat_map (pins_fired (ts_list s1)) fss = flat_map (pins_fired (ts_list s0)) fss) by (apply flat_map_ext; intros fs; symmetry; apply same_fired; exact F1).
  rewrite EX.
  match goal with |- context [pins_fired (ts_list s0) ?f ++ _] => change (pins_fired (ts_list s0) f ++ flat_map (pins_fired (ts_list s0)) fss) with (flat_map (pins_fired (ts_list s0)) (f :: fss)) end.
  assert (Hin : In (id, T, pin) ts) by (eapply nth_error_In; exact N).
  assert (EB : ts_board s0 = fst (p_run timer outside b (map POut (map snd ts)))) by (unfold s0, tasks_new; cbn [ts_board]; rewrite map_map; reflexivity).
  rewrite EB.
  pose proof (outs_new timer outside (map snd ts) b pin S NP) as Q. specialize (Q ltac:(apply (in_map snd) in Hin; exact Hin) (P _ Hin)).
  destruct (digital_l timer outside _ _ pin _ (run_sane timer outside _ b S) Q (fired_digital pin (ts_list s0) (map snd (steps now (ts_list s0) (map (fun _ => Fresh) ts)) :: fss))) as [G _].
  rewrite G. f_equal.
  change pin with (pt_pin (mkPtask id T pin 0)) at 1. rewrite (value_rounds _ _ i).
  - cbn [map odd_count fold_right]. rewrite EF, xorb_false_l. reflexivity.
  - rewrite EP. exact NP.
  - constructor; [rewrite map_length, steps_length by exact EL; reflexivity|].
    assert (QL : length (ts_list s1) = length (ts_list s0)) by (symmetry; eapply F2_len; exact F1). rewrite <- QL. exact L2.
  - exact N0.
Qed.

(** ** Rounds of equal length *)
Lemma wait_rounds_ok : forall T dt c, 0 < dt -> 1 <= c <= wait_rounds T dt -> (T <= c * dt <-> c = wait_rounds T dt).
Proof.
  intros T dt c D C. unfold wait_rounds in *. pose proof (Z.div_mod (T + dt - 1) dt ltac:(lia)) as E. pose proof (Z.mod_pos_bound (T + dt - 1) dt D) as B.
  set (q := (T + dt - 1) / dt) in *. set (r := (T + dt - 1) mod dt) in *. clearbody q r.
  destruct (Z.max_spec 1 q) as [[M1 M2]|[M1 M2]]; rewrite M2 in *; split; intros H; try nia.
Qed.
Lemma equal_beat : forall T dt n t0 c i, 0 < dt -> 0 <= c <= wait_rounds T dt ->
  nth i (beat T (if c =? 0 then None else Some (t0 - (c - 1) * dt)) (clock_times t0 (repeat dt n))) false = true <->
  (i < n)%nat /\ (c + Z.of_nat i + 1) mod (wait_rounds T dt + 1) = 0.
Proof.
  intros T dt. induction n as [|n IH]; intros t0 c i D C; cbn [repeat clock_times beat]; [destruct i, (c =? 0); cbn; (split; [discriminate|lia])|].
  assert (K : 1 <= wait_rounds T dt) by (unfold wait_rounds; lia).
  assert (G : forall c' f, 0 <= c' <= wait_rounds T dt -> (c' = if (f : bool) then 0 else c + 1) -> (f = true <-> c = wait_rounds T dt) ->
    nth i (f :: beat T (if c' =? 0 then None else Some (t0 + dt - (c' - 1) * dt)) (clock_times (t0 + dt) (repeat dt n))) false = true <->
    (i < S n)%nat /\ (c + Z.of_nat i + 1) mod (wait_rounds T dt + 1) = 0).
  { intros c' f C' Ec Ef. destruct i as [|i]; cbn [nth].
    - rewrite Ef. replace (c + Z.of_nat 0 + 1) with (c + 1) by lia. split.
      + intros ->. split; [lia|]. apply Z.mod_same. lia.
      + intros [_ H]. destruct (Z.eq_dec c (wait_rounds T dt)) as [|N]; [assumption|]. rewrite Z.mod_small in H by lia. lia.
    - rewrite IH by (exact D || exact C'). destruct f.
      + subst c'. assert (E : c = wait_rounds T dt) by tauto. rewrite E.
        replace (wait_rounds T dt + Z.of_nat (S i) + 1) with (0 + Z.of_nat i + 1 + 1 * (wait_rounds T dt + 1)) by lia. rewrite Z.mod_add by lia.
        split; intros [H1 H2]; (split; [lia|exact H2]).
      + subst c'. replace (c + 1 + Z.of_nat i + 1) with (c + Z.of_nat (S i) + 1) by lia. split; intros [H1 H2]; (split; [lia|exact H2]). }
  destruct (Z.eqb_spec c 0) as [->|N].
  - specialize (G 1 false ltac:(lia) eq_refl). change (1 =? 0) with false in G. cbv iota in G. replace (t0 + dt - (1 - 1) * dt) with (t0 + dt) in G by lia. apply G. lia.
  - pose proof (wait_rounds_ok T dt c D ltac:(lia)) as W. replace (t0 + dt - (t0 - (c - 1) * dt)) with (c * dt) by lia.
    destruct (Z.leb_spec T (c * dt)) as [L|L].
    + specialize (G 0 true ltac:(lia) eq_refl). change (0 =? 0) with true in G. cbv iota in G. apply G. split; [intros _; apply W; exact L|reflexivity].
    + assert (Nk : c <> wait_rounds T dt) by (intros Q; apply W in Q; lia).
      specialize (G (c + 1) false ltac:(lia) eq_refl). replace (c + 1 =? 0) with false in G by lia. cbv iota in G.
      replace (t0 + dt - (c + 1 - 1) * dt) with (t0 - (c - 1) * dt) in G by lia. apply G. split; [discriminate|intros; contradiction].
Qed.
Lemma period_l : forall T now dt n i, 0 < dt ->
  nth i (task_beat T (rounds now (repeat dt n))) false = true <->
  (0 < i <= n)%nat /\ Z.of_nat i mod (wait_rounds T dt + 1) = 0.
Proof.
  intros T now dt n i D. cbn [rounds task_beat]. destruct i as [|i]; cbn [nth]; [split; [discriminate|lia]|].
  assert (K : 1 <= wait_rounds T dt) by (unfold wait_rounds; lia).
  pose proof (equal_beat T dt n now 0 i D ltac:(lia)) as E. change (0 =? 0) with true in E. cbv iota in E. rewrite E.
  replace (0 + Z.of_nat i + 1) with (Z.of_nat (S i)) by lia. split; intros [H1 H2]; (split; [lia|exact H2]).
Qed.
