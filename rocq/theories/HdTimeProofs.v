(** Proofs about the delays of the display drivers. *)
Require Import ZArith List Bool Lia ZifyBool.
Import ListNotations.
From Verif Require Import Base BaseFacts BitModel BitSpec BitProofs ShiftProofs HdModel HdSpec HdIfProofs HdProofs HdTimeModel HdTimeSpec.
Open Scope Z_scope.
Ltac Zify.zify_post_hook ::= idtac.

(** ** Events: a falling edge after [k] writes, or a pause. *)
Inductive tev := Nib (k : Z) (r : bool) (n : Z) | Pause (t : Z).

Inductive renders (w : Z) : lines -> list (act lines) -> list tev -> lines -> Prop :=
| r_nil : forall l, en l = true -> renders w l [] [] l
| r_wait : forall l t rest evs l', 0 <= t -> renders w l rest evs l' -> renders w l (Wait t :: rest) (Pause t :: evs) l'
| r_nib : forall l pre f g rest evs l' k r n, en l = true -> Forall (fun x => en x = true) pre -> en f = false ->
    k = Z.of_nat (length pre) + 1 -> r = rs f -> n = nibble f -> renders w g rest evs l' ->
    renders w l (map Put pre ++ Put f :: Wait w :: Put g :: rest) (Nib k r n :: evs) l'.

Lemma renders_en : forall w l acts evs l', renders w l acts evs l' -> en l = true.
Proof. intros w l acts evs l' R. induction R; assumption. Qed.

Lemma renders_app : forall w l a ea l1 b eb l2, renders w l a ea l1 -> renders w l1 b eb l2 -> renders w l (a ++ b) (ea ++ eb) l2.
Proof.
  intros w l a ea l1 b eb l2 R. induction R; intros B; cbn [app]; [exact B| |].
  - apply r_wait; auto.
  - rewrite <- app_assoc. cbn [app]. apply (r_nib w l pre f g); auto.
Qed.
Lemma renders_one : forall w l pre f g k r n, en l = true -> Forall (fun x => en x = true) pre -> en f = false -> en g = true ->
  k = Z.of_nat (length pre) + 1 -> r = rs f -> n = nibble f ->
  renders w l (map Put pre ++ [Put f; Wait w; Put g]) [Nib k r n] g.
Proof. intros. apply (r_nib w l pre f g []); auto. apply r_nil. assumption. Qed.

(** ** Busy times of events. *)
Section D.
Variables (dv : device) (lo c w : Z).
Hypothesis Hc : 0 <= c.
Hypothesis Hw : 0 <= w.

Definition after_edge (m : mode) (r : bool) (n : Z) (bt : list Z) : mode * Z * list Z * list taken :=
  let (s, ts) := takes dv lo {| dm := m; busy := 0; boot := bt |} r n in (dm s, busy s, boot s, ts).
(** [b] bounds the busy time. *)
Fixpoint follows (m : mode) (b : Z) (bt : list Z) (evs : list tev) : option (mode * Z * list Z * list taken) :=
  match evs with
  | [] => Some (m, b, bt, [])
  | Pause t :: rest => follows m (b - t) bt rest
  | Nib k r n :: rest =>
      if b <=? k * c then
        let '(m, e, bt, t) := after_edge m r n bt in
        match follows m (e - w - c) bt rest with Some (m, b, bt, ts) => Some (m, b, bt, t ++ ts) | None => None end
      else None
  end.

Lemma hears_puts : forall pre l s tr rest, 0 <= busy s -> en l = true -> Forall (fun x => en x = true) pre ->
  map fst tr = map Put pre ++ rest -> Forall (lasts c) tr ->
  exists l' s' tr', en l' = true /\ dm s' = dm s /\ boot s' = boot s /\ busy s' <= Z.max 0 (busy s - Z.of_nat (length pre) * c) /\
    map fst tr' = rest /\ Forall (lasts c) tr' /\ 0 <= busy s' /\
    hears dv lo l s tr = hears dv lo l' s' tr'.
Proof.
  induction pre as [|x pre IH]; intros l s tr rest B0 E F M L.
  - exists l, s, tr. cbn [length map app] in *. do 3 (split; [auto|]). split; [lia|]. auto.
  - cbn [map app] in M. destruct tr as [|[a d] tr]; [discriminate|]. cbn [map fst] in M. injection M as -> M.
    inversion L as [|? ? L1 L2]; subst. inversion F as [|? ? F1 F2]; subst. cbn [lasts fst snd] in L1. unfold lasts in L1. cbn [fst snd] in L1.
    destruct (IH x (passes s d) tr rest ltac:(cbn [passes busy]; lia) F1 F2 M L2) as (l' & s' & tr' & E' & D' & B' & Y' & M' & L' & P' & H').
    exists l', s', tr'. cbn [passes dm boot busy] in *. split; [exact E'|]. split; [exact D'|]. split; [exact B'|]. split.
    + cbn [length]. rewrite Nat2Z.inj_succ. clear - B0 Y' L1 Hc. nia.
    + split; [exact M'|]. split; [exact L'|]. split; [exact P'|].
      cbn [hears]. rewrite F1, andb_false_r. exact H'.
Qed.

Lemma takes_busy : forall s r n, takes dv lo s r n = takes dv lo {| dm := dm s; busy := 0; boot := boot s |} r n.
Proof. reflexivity. Qed.

Lemma hears_follows : forall l acts evs l', renders w l acts evs l' ->
  forall s b m' b' bt' ts tr, 0 <= busy s -> busy s <= Z.max 0 b ->
  follows (dm s) b (boot s) evs = Some (m', b', bt', ts) -> map fst tr = acts -> Forall (lasts c) tr ->
  exists s', hears dv lo l s tr = Some (s', ts) /\ dm s' = m' /\ boot s' = bt' /\ busy s' <= Z.max 0 b'.
Proof.
  intros l acts evs l' R. induction R as [l E|l t rest evs l' Ht R IH|l pre f g rest evs l' k r n E F Ef Ek Er En R IH];
    intros s b m' b' bt' ts tr B0 B Fo M L.
  - destruct tr; [|discriminate]. cbn [follows] in Fo. injection Fo as <- <- <- <-. exists s. cbn [hears]. auto.
  - destruct tr as [|[a d] tr]; [discriminate|]. cbn [map fst] in M. injection M as -> M. inversion L as [|? ? L1 L2]; subst.
    unfold lasts in L1. cbn [fst snd] in L1. cbn [hears follows] in *.
    apply (IH (passes s d) (b - t) m' b' bt' ts tr); cbn [passes dm boot busy]; auto; clear - B0 B L1 Ht; lia.
  - pose proof (renders_en _ _ _ _ _ R) as Eg.
    destruct (hears_puts pre l s tr _ B0 E F M L) as (l1 & s1 & tr1 & E1 & D1 & T1 & B1 & M1 & L1 & P1 & H1). rewrite H1. clear H1.
    cbn [follows] in Fo. destruct (b <=? k * c) eqn:Bk; [|discriminate].
    destruct tr1 as [|[a1 d1] tr1]; [discriminate|]. cbn [map fst] in M1. injection M1 as -> M1. inversion L1 as [|? ? X1 L2]; subst.
    destruct tr1 as [|[a2 d2] tr1]; [discriminate|]. cbn [map fst] in M1. injection M1 as -> M1. inversion L2 as [|? ? X2 L3]; subst.
    destruct tr1 as [|[a3 d3] tr1]; [discriminate|]. cbn [map fst] in M1. injection M1 as -> M1. inversion L3 as [|? ? X3 L4]; subst.
    unfold lasts in X1, X2, X3. cbn [fst snd] in X1, X2, X3.
    cbn [hears]. rewrite E1, Ef. cbn [andb negb].
    assert (Z0 : busy (passes s1 d1) = 0).
    { cbn [passes busy]. set (n := Z.of_nat (length pre)) in *. assert (0 <= n) by (unfold n; lia).
      apply Z.leb_le in Bk. clear - B0 B B1 Bk X1 P1 Hc H. nia. }
    rewrite Z0. cbn [Z.gtb Z.compare].
    unfold after_edge in Fo. rewrite takes_busy. cbn [passes dm boot]. rewrite D1, T1.
    destruct (takes dv lo {| dm := dm s; busy := 0; boot := boot s |} (rs f) (nibble f)) as [s2 t2] eqn:T.
    destruct (follows (dm s2) (busy s2 - w - c) (boot s2) evs) as [[[[m3 b3] bt3] ts3]|] eqn:Fo2; [|discriminate].
    injection Fo as <- <- <- <-. cbn [andb].
    destruct (IH (passes (passes s2 d2) d3) (busy s2 - w - c) m3 b3 bt3 ts3 tr1) as (s4 & H4 & Q); cbn [passes dm boot busy]; auto.
    + lia.
    + clear - X2 X3 Hc Hw. lia.
    + exists s4. rewrite H4. auto.
Qed.

(** With steps exactly as long as asked, what [follows] rejects is not heard. *)
Lemma exactly_puts : forall pre l s rest, 0 <= busy s -> en l = true -> Forall (fun x => en x = true) pre ->
  exists l' s', en l' = true /\ dm s' = dm s /\ boot s' = boot s /\ busy s' = Z.max 0 (busy s - Z.of_nat (length pre) * c) /\
    hears dv lo l s (exactly c (map Put pre ++ rest)) = hears dv lo l' s' (exactly c rest).
Proof.
  induction pre as [|x pre IH]; intros l s rest B0 E F.
  - exists l, s. cbn [length map app]. do 3 (split; [auto|]). split; [lia|reflexivity].
  - inversion F as [|? ? F1 F2]; subst.
    destruct (IH x (passes s c) rest ltac:(cbn [passes busy]; lia) F1 F2) as (l' & s' & E' & D' & T' & B' & H').
    exists l', s'. split; [exact E'|]. split; [exact D'|]. split; [exact T'|]. split.
    + rewrite B'. cbn [passes busy length]. rewrite Nat2Z.inj_succ. clear - B0 Hc. nia.
    + cbn [map app exactly hears]. rewrite F1, andb_false_r. exact H'.
Qed.
Lemma hears_exactly : forall l acts evs l', renders w l acts evs l' ->
  forall s b, busy s = Z.max 0 b -> follows (dm s) b (boot s) evs = None -> hears dv lo l s (exactly c acts) = None.
Proof.
  intros l acts evs l' R. induction R as [l E|l t rest evs l' Ht R IH|l pre f g rest evs l' k r n E F Ef Ek Er En R IH]; intros s b B Fo.
  - discriminate.
  - cbn [exactly map hears follows] in *. apply (IH (passes s t) (b - t)); [cbn [passes busy]; lia|exact Fo].
  - pose proof (renders_en _ _ _ _ _ R) as Eg.
    destruct (exactly_puts pre l s (Put f :: Wait w :: Put g :: rest) ltac:(lia) E F) as (l1 & s1 & E1 & D1 & T1 & B1 & H1). rewrite H1. clear H1.
    cbn [exactly map hears]. rewrite E1, Ef. cbn [andb negb].
    cbn [follows] in Fo. destruct (busy (passes s1 c) >? 0) eqn:G; [reflexivity|].
    assert (Z0 : (b <=? k * c) = true).
    { cbn [passes busy] in G. rewrite B1, B in G. subst k. set (m := Z.of_nat (length pre)) in *. assert (0 <= m) by (unfold m; lia).
      clear - G Hc H. nia. }
    rewrite Z0 in Fo. unfold after_edge in Fo. rewrite takes_busy. cbn [passes dm boot]. rewrite D1, T1, <- Er, <- En.
    destruct (takes dv lo {| dm := dm s; busy := 0; boot := boot s |} r n) as [s2 t2] eqn:T.
    destruct (follows (dm s2) (busy s2 - w - c) (boot s2) evs) as [[[[m3 b3] bt3] ts3]|] eqn:Fo2; [discriminate|].
    assert (X : hears dv lo g (passes (passes s2 w) c) (exactly c rest) = None).
    { apply (IH _ (busy s2 - w - c)); [cbn [passes busy]; clear - Hc Hw; lia|exact Fo2]. }
    unfold exactly in X. rewrite X. reflexivity.
Qed.
End D.

(** ** Driver calls as events. *)
Definition op_tevs (nib pre : Z) (r : bool) (o : top) : list tev :=
  match o with
  | TWait t => [Pause t]
  | TOp (DCmd b) => [Nib (nib + pre) false (b / 16); Nib nib false (b mod 16)]
  | TOp (DData b) => [Nib (nib + pre) true (b / 16); Nib nib true (b mod 16)]
  | TOp (DNib n) => [Nib nib r (n mod 16)]
  end.
Definition trs_after (r : bool) (o : top) : bool := match o with TOp o => rs_after r o | TWait _ => r end.
Fixpoint all_tevs (nib pre : Z) (r : bool) (os : list top) : list tev :=
  match os with [] => [] | o :: rest => op_tevs nib pre r o ++ all_tevs nib pre (trs_after r o) rest end.
Definition top_ok (o : top) : Prop := match o with TOp o => dop_ok o | TWait t => 0 <= t end.

Lemma high_nibble : forall b, 0 <= b < 256 -> Z.shiftr b 4 mod 16 = b / 16.
Proof.
  intros b H. rewrite Z.shiftr_div_pow2 by lia. change (2 ^ 4) with 16. apply Z.mod_small.
  split; [apply Z.div_pos; lia|apply Z.div_lt_upper_bound; lia].
Qed.
Lemma shifted : forall b, 0 <= b < 256 -> 0 <= Z.shiftr b 4 < 256.
Proof.
  intros b H. rewrite Z.shiftr_div_pow2 by lia. change (2 ^ 4) with 16.
  split; [apply Z.div_pos; lia|apply Z.div_lt_upper_bound; lia].
Qed.

Section Par.
Variable p : profile.
(** Writes in front of the nibble. *)
Lemma par_nib : forall l0 pre l n k, en l0 = true -> Forall (fun x => en x = true) pre -> en l = true -> k = Z.of_nat (length pre) + 5 ->
  exists l', fst (t_par_write4 p l n) = l' /\ l' = with_data l n /\
    renders (p_pulse p) l0 (map Put pre ++ snd (t_par_write4 p l n)) [Nib k (rs l) (n mod 16)] l'.
Proof.
  intros l0 pre l n k E0 F E Hk. unfold t_par_write4. cbv zeta. cbn [fst snd]. rewrite nz1, nz2, nz4, nz8.
  set (l4 := set_d7 _ _). assert (E4 : l4 = with_data l n) by reflexivity.
  eexists. split; [reflexivity|]. split; [rewrite E4; destruct l; cbn in *; subst; reflexivity|].
  pose proof (renders_one (p_pulse p) l0
    (pre ++ [set_d4 l (Z.testbit n 0); set_d5 (set_d4 l (Z.testbit n 0)) (Z.testbit n 1);
             set_d6 (set_d5 (set_d4 l (Z.testbit n 0)) (Z.testbit n 1)) (Z.testbit n 2); l4])
    (set_en l4 false) (set_en (set_en l4 false) true) k (rs l) (n mod 16)) as R.
  rewrite map_app, <- app_assoc in R. cbn [map app] in R. apply R; try reflexivity; auto.
  - apply Forall_app. split; [exact F|]. rewrite E4. repeat constructor; exact E.
  - rewrite app_length. cbn [length]. lia.
  - rewrite nibble_with_en, E4, nibble_with_data. reflexivity.
Qed.
Lemma par_byte : forall l b, en l = true -> 0 <= b < 256 ->
  exists l', fst (t_par_write8 p l b) = l' /\ en l' = true /\ rs l' = rs l /\
    forall l0, en l0 = true -> renders (p_pulse p) l0 (Put l :: snd (t_par_write8 p l b)) [Nib 6 (rs l) (b / 16); Nib 5 (rs l) (b mod 16)] l'.
Proof.
  intros l b E Hb. unfold t_par_write8.
  destruct (par_nib l [l] l (Z.shiftr b 4) 6 E) as (l1 & E1 & W1 & _); auto.
  destruct (par_nib l1 [] l1 b 5) as (l2 & E2 & W2 & R2); auto; try (rewrite W1; exact E).
  pose proof (fun l0 (H : en l0 = true) => par_nib l0 [l] l (Z.shiftr b 4) 6 H (Forall_cons _ E (Forall_nil _)) E eq_refl) as R1.
  destruct (t_par_write4 p l (Z.shiftr b 4)) as [a ta]. cbn [fst snd] in *. subst a.
  destruct (t_par_write4 p l1 b) as [a2 tb]. cbn [fst snd] in *. subst a2.
  exists l2. split; [reflexivity|]. split; [rewrite W2, W1; exact E|]. split; [rewrite W2, W1; reflexivity|].
  intros l0 H0. destruct (R1 l0 H0) as (l1' & <- & _ & R). cbn [map app] in R, R2.
  rewrite high_nibble in R by exact Hb. replace (rs l1) with (rs l) in R2 by (rewrite W1; reflexivity).
  exact (renders_app _ _ _ _ _ _ _ _ R R2).
Qed.
Lemma par_renders : forall os l, en l = true -> Forall top_ok os ->
  renders (p_pulse p) l (snd (t_par_run p l os)) (all_tevs 5 1 (rs l) os) (fst (t_par_run p l os)).
Proof.
  induction os as [|o os IH]; intros l E F; cbn [t_par_run all_tevs]; [apply r_nil; exact E|].
  inversion F as [|? ? F1 F2]; subst. 
  assert (S : renders (p_pulse p) l (snd (t_par_op p l o)) (op_tevs 5 1 (rs l) o) (fst (t_par_op p l o)) /\
    en (fst (t_par_op p l o)) = true /\ rs (fst (t_par_op p l o)) = trs_after (rs l) o).
  { destruct o as [[b|b|n]|t]; cbn [t_par_op op_tevs trs_after rs_after top_ok dop_ok] in *.
    - destruct (par_byte (set_rs l false) b E F1) as (l' & E' & N' & R' & W). specialize (W l E).
      destruct (t_par_write8 p (set_rs l false) b). cbn [fst snd] in *. subst l'. auto.
    - destruct (par_byte (set_rs l true) b E F1) as (l' & E' & N' & R' & W). specialize (W l E).
      destruct (t_par_write8 p (set_rs l true) b). cbn [fst snd] in *. subst l'. auto.
    - destruct (par_nib l [] l n 5 E (Forall_nil _) E eq_refl) as (l' & E' & W & R). rewrite E'. cbn [map app] in R.
      split; [exact R|]. rewrite W. auto.
    - cbn [fst snd]. split; [apply r_wait; [exact F1|apply r_nil; exact E]|auto]. }
  destruct S as (S1 & S2 & S3). destruct (t_par_op p l o) as [l1 t1]. cbn [fst snd] in *.
  specialize (IH l1 S2 F2). destruct (t_par_run p l1 os) as [l2 t2]. cbn [fst snd] in *. rewrite S3 in IH.
  exact (renders_app _ _ _ _ _ _ _ _ S1 IH).
Qed.
End Par.

Section I2C.
Variables (p : profile) (iw : Z).
Hypothesis iw8 : 8 <= iw.
Lemma on_puts : forall (f : Z -> lines) pre, map (on_lines f) (map Put pre) = map Put (map f pre).
Proof. intros f pre. rewrite !map_map. reflexivity. Qed.

Lemma i2c_nib : forall light l0 pre r n k, reg_ok light r -> Z.testbit r 2 = true -> 0 <= n < 256 ->
  en l0 = true -> Forall (fun x => en x = true) (map i2c_lines pre) -> k = Z.of_nat (length pre) + 2 ->
  exists r' tr, t_i2c_write4 p iw r n = Some (r', tr) /\ reg_ok light r' /\ Z.testbit r' 2 = true /\ Z.testbit r' 0 = Z.testbit r 0 /\
    renders (p_pulse p) l0 (map (on_lines i2c_lines) (map Put pre ++ tr)) [Nib k (Z.testbit r 0) (n mod 16)] (i2c_lines r').
Proof.
  intros light l0 pre r n k (R & R1 & R3) R2 Hn E0 F Hk. unfold t_i2c_write4.
  destruct (ba_field_ok iw r n iw8 R Hn) as (a & Ea & Ra & Ta). rewrite Ea. cbn [bindo fst snd].
  destruct (ba_reset_ok iw 8 a 2 ltac:(lia) ltac:(lia) ltac:(lia)) as (b & Eb & Rb & Tb). rewrite Eb. cbn [bindo fst snd].
  destruct (ba_set_ok iw 8 b 2 ltac:(lia) ltac:(lia) ltac:(lia)) as (d & Ec & Rc & Tc). rewrite Ec. cbn [bindo fst snd].
  assert (La : i2c_lines a = with_data (i2c_lines r) n).
  { unfold i2c_lines, with_data. cbn [rs en]. rewrite !Ta by lia. reflexivity. }
  assert (Lb : i2c_lines b = set_en (i2c_lines a) false).
  { unfold i2c_lines, set_en. cbn [rs en d4 d5 d6 d7]. rewrite !Tb by lia. reflexivity. }
  assert (Ka : reg_ok light a) by (split; [lia|]; rewrite !Ta by lia; auto).
  assert (Kb : reg_ok light b) by (destruct Ka as (? & ? & ?); split; [lia|]; rewrite !Tb by lia; auto).
  assert (Kc : reg_ok light d) by (destruct Kb as (? & ? & ?); split; [lia|]; rewrite !Tc by lia; auto).
  eexists. eexists. split; [reflexivity|]. split; [exact Kc|]. split; [rewrite Tc by lia; reflexivity|].
  split; [rewrite Tc, Tb, Ta by lia; reflexivity|].
  rewrite map_app, on_puts. cbn [map on_lines].
  pose proof (renders_one (p_pulse p) l0 (map i2c_lines pre ++ [i2c_lines a]) (i2c_lines b) (i2c_lines d) k (Z.testbit r 0) (n mod 16)) as Q.
  rewrite map_app, <- app_assoc in Q. cbn [map app] in Q. apply Q; auto.
  - apply Forall_app. split; [exact F|]. constructor; [|constructor]. rewrite La. exact R2.
  - rewrite Lb. reflexivity.
  - cbn [i2c_lines en]. rewrite Tc by lia. reflexivity.
  - rewrite app_length, map_length. cbn [length]. lia.
  - rewrite Lb, La. reflexivity.
  - rewrite Lb, nibble_with_en, La, nibble_with_data. reflexivity.
Qed.
Lemma i2c_byte : forall light l0 x b, reg_ok light x -> Z.testbit x 2 = true -> 0 <= b < 256 -> en l0 = true ->
  exists r' tr, t_i2c_write8 p iw x b = Some (r', tr) /\ reg_ok light r' /\ Z.testbit r' 2 = true /\ Z.testbit r' 0 = Z.testbit x 0 /\
    renders (p_pulse p) l0 (map (on_lines i2c_lines) (Put x :: tr))
      [Nib 3 (Z.testbit x 0) (b / 16); Nib 2 (Z.testbit x 0) (b mod 16)] (i2c_lines r').
Proof.
  intros light l0 x b K X2 Hb E0. unfold t_i2c_write8.
  destruct (i2c_nib light l0 [x] x (Z.shiftr b 4) 3 K X2 (shifted b Hb) E0) as (r1 & t1 & E1 & K1 & A1 & B1 & R1).
  { constructor; [exact X2|constructor]. } { reflexivity. }
  rewrite E1. cbn [bindo fst snd].
  destruct (i2c_nib light (i2c_lines r1) [] r1 b 2 K1 A1 Hb A1 (Forall_nil _) eq_refl) as (r2 & t2 & E2 & K2 & A2 & B2 & R2).
  rewrite E2. cbn [bindo fst snd]. exists r2, (t1 ++ t2). split; [reflexivity|]. split; [exact K2|]. split; [exact A2|].
  split; [congruence|]. cbn [map app] in R1, R2. rewrite high_nibble in R1 by exact Hb. rewrite B1 in R2.
  pose proof (renders_app _ _ _ _ _ _ _ _ R1 R2) as Q. cbn [app] in Q. cbn [map]. rewrite map_app. exact Q.
Qed.
Lemma i2c_renders : forall light os r, reg_ok light r -> Z.testbit r 2 = true -> Forall top_ok os ->
  exists r' tr, t_i2c_run p iw r os = Some (r', tr) /\
    renders (p_pulse p) (i2c_lines r) (map (on_lines i2c_lines) tr) (all_tevs 2 1 (Z.testbit r 0) os) (i2c_lines r').
Proof.
  intros light. induction os as [|o os IH]; intros r K E F; cbn [t_i2c_run all_tevs].
  - exists r, []. split; [reflexivity|]. apply r_nil. exact E.
  - inversion F as [|? ? F1 F2]; subst. 
    assert (S : exists r1 t1, t_i2c_op p iw r o = Some (r1, t1) /\ reg_ok light r1 /\ Z.testbit r1 2 = true /\
      Z.testbit r1 0 = trs_after (Z.testbit r 0) o /\
      renders (p_pulse p) (i2c_lines r) (map (on_lines i2c_lines) t1) (op_tevs 2 1 (Z.testbit r 0) o) (i2c_lines r1)).
    { destruct o as [[b|b|n]|t]; cbn [t_i2c_op op_tevs trs_after rs_after top_ok dop_ok] in *.
      - pose proof K as (R & R1 & R3).
        destruct (ba_reset_ok iw 8 r 0 ltac:(lia) ltac:(lia) ltac:(lia)) as (a & Ea & Ra & Ta). rewrite Ea. cbn [bindo fst].
        assert (Ka : reg_ok light a) by (split; [lia|]; rewrite !Ta by lia; auto).
        assert (A2 : Z.testbit a 2 = true) by (rewrite Ta by lia; exact E).
        destruct (i2c_clear_l iw iw8 light a Ka A2) as (d & Ec & Kc & C2 & C0). rewrite Ec. cbn [bindo].
        destruct (i2c_byte light (i2c_lines r) d b Kc C2 F1 E) as (r' & tr & E' & K' & Z2 & Z0 & Q). rewrite E'. cbn [bindo fst snd].
        assert (C0' : Z.testbit d 0 = false) by (rewrite C0, Ta by lia; reflexivity). rewrite C0' in *.
        exists r', (Put d :: tr). auto.
      - pose proof K as (R & R1 & R3).
        destruct (ba_set_ok iw 8 r 0 ltac:(lia) ltac:(lia) ltac:(lia)) as (a & Ea & Ra & Ta). rewrite Ea. cbn [bindo fst].
        assert (Ka : reg_ok light a) by (split; [lia|]; rewrite !Ta by lia; auto).
        assert (A2 : Z.testbit a 2 = true) by (rewrite Ta by lia; exact E).
        destruct (i2c_clear_l iw iw8 light a Ka A2) as (d & Ec & Kc & C2 & C0). rewrite Ec. cbn [bindo].
        destruct (i2c_byte light (i2c_lines r) d b Kc C2 F1 E) as (r' & tr & E' & K' & Z2 & Z0 & Q). rewrite E'. cbn [bindo fst snd].
        assert (C0' : Z.testbit d 0 = true) by (rewrite C0, Ta by lia; reflexivity). rewrite C0' in *.
        exists r', (Put d :: tr). auto.
      - destruct (i2c_nib light (i2c_lines r) [] r n 2 K E F1 E (Forall_nil _) eq_refl) as (r1 & t1 & E1 & K1 & A1 & B1 & R1).
        exists r1, t1. auto.
      - exists r, [Wait t]. split; [reflexivity|]. split; [exact K|]. split; [exact E|]. split; [reflexivity|].
        cbn [map on_lines]. apply r_wait; [exact F1|]. apply r_nil. exact E. }
    destruct S as (r1 & t1 & E1 & K1 & A1 & B1 & R1). rewrite E1. cbn [bindo fst snd].
    destruct (IH r1 K1 A1 F2) as (r2 & t2 & E2 & R2). rewrite E2. cbn [bindo fst snd].
    exists r2, (t1 ++ t2). split; [reflexivity|]. rewrite map_app. rewrite B1 in R2. exact (renders_app _ _ _ _ _ _ _ _ R1 R2).
Qed.
End I2C.

Section W3.
Variables (p : profile) (iw w : Z) (ix : indices).
Hypothesis Hw : 1 <= w <= iw.
Hypothesis Hin : Forall (fun i => 0 <= i < w) (index_list ix).
Hypothesis Hdup : NoDup (index_list ix).
Local Notation wl := (w3_lines ix).

Lemma w3_nib : forall l0 pre r n k, 0 <= r < 2 ^ w -> en (wl r) = true -> en l0 = true ->
  Forall (fun x => en x = true) (map wl pre) -> k = Z.of_nat (length pre) + 2 ->
  exists r' tr, t_w3_write4 p iw w ix r n = Some (r', tr) /\ 0 <= r' < 2 ^ w /\ en (wl r') = true /\ rs (wl r') = rs (wl r) /\
    renders (p_pulse p) l0 (map (on_lines wl) (map Put pre ++ tr)) [Nib k (rs (wl r)) (n mod 16)] (wl r').
Proof.
  intros l0 pre r n k Hr He E0 F Hk. unfold t_w3_write4. rewrite nz1, nz2, nz4, nz8.
  destruct (put_4 iw w ix Hw Hin Hdup r (Z.testbit n 0) Hr) as (a & Ea & Ra & _ & La). rewrite Ea. cbn [bindo].
  destruct (put_5 iw w ix Hw Hin Hdup a (Z.testbit n 1) Ra) as (b & Eb & Rb & _ & Lb). rewrite Eb. cbn [bindo].
  destruct (put_6 iw w ix Hw Hin Hdup b (Z.testbit n 2) Rb) as (d & Ec & Rc & _ & Lc). rewrite Ec. cbn [bindo].
  destruct (put_7 iw w ix Hw Hin Hdup d (Z.testbit n 3) Rc) as (e & Ed & Rd & _ & Ld). rewrite Ed. cbn [bindo].
  destruct (put_en iw w ix Hw Hin Hdup e false Rd) as (f & Ef & Rf & _ & Lf). rewrite Ef. cbn [bindo].
  destruct (put_en iw w ix Hw Hin Hdup f true Rf) as (g & Eg & Rg & _ & Lg). rewrite Eg. cbn [bindo].
  assert (Le : wl e = with_data (wl r) n) by (rewrite Ld, Lc, Lb, La; reflexivity).
  eexists. eexists. split; [reflexivity|]. split; [exact Rg|].
  assert (Eg2 : en (wl g) = true) by (rewrite Lg; reflexivity).
  split; [exact Eg2|]. split; [rewrite Lg, Lf, Le; reflexivity|].
  rewrite map_app, on_puts. cbn [map on_lines].
  pose proof (renders_one (p_pulse p) l0 (map wl pre ++ [wl e]) (wl f) (wl g) k (rs (wl r)) (n mod 16)) as Q.
  rewrite map_app, <- app_assoc in Q. cbn [map app] in Q. apply Q; auto.
  - apply Forall_app. split; [exact F|]. constructor; [|constructor]. rewrite Le. exact He.
  - rewrite Lf. reflexivity.
  - rewrite app_length, map_length. cbn [length]. lia.
  - rewrite Lf, Le. reflexivity.
  - rewrite Lf, nibble_with_en, Le, nibble_with_data. reflexivity.
Qed.
Lemma w3_byte : forall l0 x b, 0 <= x < 2 ^ w -> en (wl x) = true -> 0 <= b < 256 -> en l0 = true ->
  exists r' tr, t_w3_write8 p iw w ix x b = Some (r', tr) /\ 0 <= r' < 2 ^ w /\ en (wl r') = true /\ rs (wl r') = rs (wl x) /\
    renders (p_pulse p) l0 (map (on_lines wl) tr) [Nib 2 (rs (wl x)) (b / 16); Nib 2 (rs (wl x)) (b mod 16)] (wl r').
Proof.
  intros l0 x b K X2 Hb E0. unfold t_w3_write8.
  destruct (w3_nib l0 [] x (Z.shiftr b 4) 2 K X2 E0 (Forall_nil _) eq_refl) as (r1 & t1 & E1 & K1 & A1 & B1 & R1).
  rewrite E1. cbn [bindo fst snd].
  destruct (w3_nib (wl r1) [] r1 b 2 K1 A1 A1 (Forall_nil _) eq_refl) as (r2 & t2 & E2 & K2 & A2 & B2 & R2).
  rewrite E2. cbn [bindo fst snd]. exists r2, (t1 ++ t2). split; [reflexivity|]. split; [exact K2|]. split; [exact A2|].
  split; [congruence|]. cbn [map app] in R1, R2. rewrite high_nibble in R1 by exact Hb. rewrite B1 in R2.
  pose proof (renders_app _ _ _ _ _ _ _ _ R1 R2) as Q. cbn [app] in Q. rewrite map_app. exact Q.
Qed.
Lemma w3_renders : forall os r, 0 <= r < 2 ^ w -> en (wl r) = true -> Forall top_ok os ->
  exists r' tr, t_w3_run p iw w ix r os = Some (r', tr) /\
    renders (p_pulse p) (wl r) (map (on_lines wl) tr) (all_tevs 2 0 (rs (wl r)) os) (wl r').
Proof.
  induction os as [|o os IH]; intros r K E F; cbn [t_w3_run all_tevs].
  - exists r, []. split; [reflexivity|]. apply r_nil. exact E.
  - inversion F as [|? ? F1 F2]; subst.
    assert (S : exists r1 t1, t_w3_op p iw w ix r o = Some (r1, t1) /\ 0 <= r1 < 2 ^ w /\ en (wl r1) = true /\
      rs (wl r1) = trs_after (rs (wl r)) o /\
      renders (p_pulse p) (wl r) (map (on_lines wl) t1) (op_tevs 2 0 (rs (wl r)) o) (wl r1)).
    { destruct o as [[b|b|n]|t]; cbn [t_w3_op op_tevs trs_after rs_after top_ok dop_ok] in *.
      - destruct (put_rs iw w ix Hw Hin Hdup r false K) as (a & Ea & Ra & _ & La). rewrite Ea. cbn [bindo].
        destruct (w3_byte (wl r) a b Ra) as (r' & tr & E' & K' & A' & B' & Q); auto; [rewrite La; exact E|].
        rewrite La in B', Q. exists r', tr. auto.
      - destruct (put_rs iw w ix Hw Hin Hdup r true K) as (a & Ea & Ra & _ & La). rewrite Ea. cbn [bindo].
        destruct (w3_byte (wl r) a b Ra) as (r' & tr & E' & K' & A' & B' & Q); auto; [rewrite La; exact E|].
        rewrite La in B', Q. exists r', tr. auto.
      - destruct (w3_nib (wl r) [] r n 2 K E E (Forall_nil _) eq_refl) as (r1 & t1 & E1 & K1 & A1 & B1 & R1).
        exists r1, t1. auto.
      - exists r, [Wait t]. split; [reflexivity|]. split; [exact K|]. split; [exact E|]. split; [reflexivity|].
        cbn [map on_lines]. apply r_wait; [exact F1|]. apply r_nil. exact E. }
    destruct S as (r1 & t1 & E1 & K1 & A1 & B1 & R1). rewrite E1. cbn [bindo fst snd].
    destruct (IH r1 K1 A1 F2) as (r2 & t2 & E2 & R2). rewrite E2. cbn [bindo fst snd].
    exists r2, (t1 ++ t2). split; [reflexivity|]. rewrite map_app. rewrite B1 in R2. exact (renders_app _ _ _ _ _ _ _ _ R1 R2).
Qed.
End W3.

(** ** The calls of view and controller. *)
Section Calls.
Variables (p : profile) (dv : device) (c lo iw rows nib pre : Z).
Hypothesis Hp : profile_ok p.
Hypothesis Hc : 0 <= c.
Hypothesis Hlo : 0 <= lo < 16.
Hypothesis iw8 : 8 <= iw.
Hypothesis Hrows : rows_ok rows.
Hypothesis Hnib : 0 <= nib.
Hypothesis Hpre : 0 <= pre.
Hypothesis Hcov : covers nib pre p dv c.
Local Notation follows := (HdTimeProofs.follows dv lo c (p_pulse p)).
(** How long the display may still be busy between two calls. *)
Definition slack : Z := (pre + nib) * c.

(** A call: driver calls with delays after which the display is ready for the next. *)
Definition calm (os : list top) : Prop :=
  Forall top_ok os /\ Forall whole (driver_calls os) /\
  forall r b rest, b <= slack -> exists b', b' <= slack /\
    follows M4 b [] (all_tevs nib pre r os ++ rest) =
    match follows M4 b' [] rest with Some (m, b, bt, ts) => Some (m, b, bt, map byte_of (driver_calls os) ++ ts) | None => None end.

Lemma after_M4 : forall r n, after_edge dv lo M4 r n [] = (M4half n, d_half dv, [], []).
Proof. reflexivity. Qed.
Lemma after_half : forall r h n, ~ (r = false /\ 48 <= 16 * h + n < 64) ->
  after_edge dv lo (M4half h) r n [] = (M4, exec_time dv (r, 16 * h + n), [], [(r, 16 * h + n)]).
Proof.
  intros r h n H. unfold after_edge, takes. cbn [dm boot edge].
  assert (M : mode_after (r, 16 * h + n) M4 = M4); [|rewrite M; reflexivity].
  unfold mode_after. destruct r; [reflexivity|]. cbn [negb andb].
  destruct ((32 <=? 16 * h + n) && (16 * h + n <? 64)) eqn:C; [|reflexivity].
  rewrite (testbit4 (16 * h + n) 2); [reflexivity|]. lia.
Qed.
Lemma byte_sum : forall b, 16 * (b / 16) + b mod 16 = b.
Proof. intros b. pose proof (Z.div_mod b 16). lia. Qed.

(** One byte and a pause. *)
Lemma calm_byte : forall o t, (exists b, o = DCmd b \/ o = DData b) -> whole o -> 0 <= t ->
  exec_time dv (byte_of o) <= p_pulse p + t + (1 + pre + nib) * c -> calm [TOp o; TWait t].
Proof.
  intros o t (b & Ho) W Ht X. destruct Hcov as (H1 & _). assert (Hpu : 0 <= p_pulse p) by apply Hp.
  destruct Ho as [-> | ->]; cbn [whole] in W; (split; [|split]).
  - repeat constructor; cbn; lia.
  - repeat constructor; cbn; lia.
  - intros r b0 rest Hb. exists (exec_time dv (false, b) - p_pulse p - c - t).
    split; [unfold slack; cbn [byte_of] in X; clear - X; lia|].
    cbn [all_tevs op_tevs app follows trs_after rs_after driver_calls map]. unfold slack in Hb.
    replace (b0 <=? (nib + pre) * c) with true by (clear - Hb; lia). rewrite after_M4.
    replace (d_half dv - p_pulse p - c <=? nib * c) with true by (clear - H1; lia).
    rewrite after_half by (rewrite byte_sum; lia). rewrite byte_sum. cbn [byte_of].
    destruct (follows M4 _ [] rest) as [[[[? ?] ?] ?]|]; reflexivity.
  - repeat constructor; cbn; lia.
  - repeat constructor; cbn; lia.
  - intros r b0 rest Hb. exists (exec_time dv (true, b) - p_pulse p - c - t).
    split; [unfold slack; cbn [byte_of] in X; clear - X; lia|].
    cbn [all_tevs op_tevs app follows trs_after rs_after driver_calls map]. unfold slack in Hb.
    replace (b0 <=? (nib + pre) * c) with true by (clear - Hb; lia). rewrite after_M4.
    replace (d_half dv - p_pulse p - c <=? nib * c) with true by (clear - H1; lia).
    rewrite after_half by (rewrite byte_sum; intros [F _]; discriminate). rewrite byte_sum. cbn [byte_of].
    destruct (follows M4 _ [] rest) as [[[[? ?] ?] ?]|]; reflexivity.
Qed.
Lemma calm_data : forall b, 0 <= b < 256 -> calm [TOp (DData b)].
Proof.
  intros b W. destruct Hcov as (H1 & H2 & _). assert (Hpu : 0 <= p_pulse p) by apply Hp. split; [|split].
  - repeat constructor; cbn; lia.
  - repeat constructor; cbn; lia.
  - intros r b0 rest Hb. exists (d_data dv - p_pulse p - c).
    split; [unfold slack; clear - H2; lia|].
    cbn [all_tevs op_tevs app follows trs_after rs_after driver_calls map]. unfold slack in Hb.
    replace (b0 <=? (nib + pre) * c) with true by (clear - Hb; lia). rewrite after_M4.
    replace (d_half dv - p_pulse p - c <=? nib * c) with true by (clear - H1; lia).
    rewrite after_half by (rewrite byte_sum; intros [F _]; discriminate). rewrite byte_sum. cbn [byte_of exec_time].
    destruct (follows M4 _ [] rest) as [[[[? ?] ?] ?]|]; reflexivity.
Qed.
Lemma calm_nil : calm [].
Proof.
  split; [constructor|]. split; [constructor|]. intros r b rest H. exists b. split; [exact H|]. cbn [all_tevs app driver_calls map].
  destruct (follows M4 b [] rest) as [[[[? ?] ?] ?]|]; reflexivity.
Qed.
Lemma driver_calls_app : forall a b, driver_calls (a ++ b) = driver_calls a ++ driver_calls b.
Proof. induction a as [|[o|t] a IH]; intros b; cbn [app driver_calls]; rewrite ?IH; reflexivity. Qed.
Lemma all_tevs_app : forall a b r, all_tevs nib pre r (a ++ b) = all_tevs nib pre r a ++ all_tevs nib pre (fold_left trs_after a r) b.
Proof. induction a as [|o a IH]; intros b r; cbn [app all_tevs fold_left]; [reflexivity|]. rewrite IH, app_assoc. reflexivity. Qed.
Lemma calm_app : forall a b, calm a -> calm b -> calm (a ++ b).
Proof.
  intros a b (A1 & A2 & A3) (B1 & B2 & B3). split; [apply Forall_app; auto|]. rewrite driver_calls_app. split; [apply Forall_app; auto|].
  intros r b0 rest H. rewrite all_tevs_app, <- app_assoc.
  destruct (A3 r b0 (all_tevs nib pre (fold_left trs_after a r) b ++ rest) H) as (b1 & L1 & E1). rewrite E1.
  destruct (B3 (fold_left trs_after a r) b1 rest L1) as (b2 & L2 & E2). rewrite E2. exists b2. split; [exact L2|].
  destruct (follows M4 b2 [] rest) as [[[[? ?] ?] ?]|]; [|reflexivity]. rewrite map_app, app_assoc. reflexivity.
Qed.

Lemma calm_fast : forall b, 4 <= b < 256 -> ~ (48 <= b < 64) -> calm [TOp (DCmd b); TWait (p_command p)].
Proof.
  intros b H N. destruct Hcov as (_ & _ & H3 & _). apply calm_byte; [exists b; auto|cbn; lia|apply Hp|].
  cbn [byte_of exec_time]. replace (b <? 4) with false by lia. exact H3.
Qed.
Lemma calm_slow : forall b, 1 <= b < 4 -> calm [TOp (DCmd b); TWait (p_command_long p)].
Proof.
  intros b H. destruct Hcov as (_ & _ & _ & H4). apply calm_byte; [exists b; auto|cbn; lia|apply Hp|].
  cbn [byte_of exec_time]. replace (b <? 4) with true by lia. exact H4.
Qed.

Lemma control_calm : forall r, 0 <= r < 256 -> calm [TOp (DCmd (display_control r)); TWait (p_command p)].
Proof. intros r H. destruct (dc_bits r H) as (D & _). apply calm_fast; lia. Qed.
Lemma entry_calm : forall r, 0 <= r < 256 -> calm [TOp (DCmd (entry_mode r)); TWait (p_command p)].
Proof. intros r H. destruct (em_bits r H) as (D & _). apply calm_fast; lia. Qed.

(** One call of the controller, with the same calls and register as without time. *)
Lemma t_ctl_l : forall r o, 0 <= r < 256 -> no_init o -> cop_ok o ->
  exists r' os, t_ctl_op p iw r o = Some (r', os) /\ 0 <= r' < 256 /\ calm os /\ ctl_op iw r o = Some (r', driver_calls os).
Proof.
  intros r o R N O. destruct o as [full| | |v|v|v|dd cc bb|lf|v|lf v|a|a|dd rt]; cbn [t_ctl_op ctl_op no_init cop_ok] in *.
  - destruct full; [contradiction|]. exists r, (t_clear p ++ t_home p). split; [reflexivity|]. split; [exact R|]. split; [|reflexivity].
    apply calm_app; apply calm_slow; lia.
  - exists r, (t_clear p). split; [reflexivity|]. split; [exact R|]. split; [|reflexivity]. apply calm_slow; lia.
  - exists r, (t_home p). split; [reflexivity|]. split; [exact R|]. split; [|reflexivity]. apply calm_slow; lia.
  - destruct (put8_l iw iw8 r 0 v R ltac:(lia)) as (r1 & E1 & R1 & _). rewrite E1. cbn [bindo]. unfold t_control.
    do 2 eexists. split; [reflexivity|]. split; [exact R1|]. split; [apply control_calm; exact R1|reflexivity].
  - destruct (put8_l iw iw8 r 1 v R ltac:(lia)) as (r1 & E1 & R1 & _). rewrite E1. cbn [bindo]. unfold t_control.
    do 2 eexists. split; [reflexivity|]. split; [exact R1|]. split; [apply control_calm; exact R1|reflexivity].
  - destruct (put8_l iw iw8 r 2 v R ltac:(lia)) as (r1 & E1 & R1 & _). rewrite E1. cbn [bindo]. unfold t_control.
    do 2 eexists. split; [reflexivity|]. split; [exact R1|]. split; [apply control_calm; exact R1|reflexivity].
  - destruct (put8_l iw iw8 r 0 bb R ltac:(lia)) as (r1 & E1 & R1 & _). rewrite E1. cbn [bindo].
    destruct (put8_l iw iw8 r1 1 cc R1 ltac:(lia)) as (r2 & E2 & R2 & _). rewrite E2. cbn [bindo].
    destruct (put8_l iw iw8 r2 2 dd R2 ltac:(lia)) as (r3 & E3 & R3 & _). rewrite E3. cbn [bindo]. unfold t_control.
    do 2 eexists. split; [reflexivity|]. split; [exact R3|]. split; [apply control_calm; exact R3|reflexivity].
  - destruct (put8_l iw iw8 r 4 lf R ltac:(lia)) as (r1 & E1 & R1 & _). rewrite E1. cbn [bindo]. unfold t_entry.
    do 2 eexists. split; [reflexivity|]. split; [exact R1|]. split; [apply entry_calm; exact R1|reflexivity].
  - destruct (put8_l iw iw8 r 3 v R ltac:(lia)) as (r1 & E1 & R1 & _). rewrite E1. cbn [bindo]. unfold t_entry.
    do 2 eexists. split; [reflexivity|]. split; [exact R1|]. split; [apply entry_calm; exact R1|reflexivity].
  - destruct (put8_l iw iw8 r 4 lf R ltac:(lia)) as (r1 & E1 & R1 & _). rewrite E1. cbn [bindo].
    destruct (put8_l iw iw8 r1 3 v R1 ltac:(lia)) as (r2 & E2 & R2 & _). rewrite E2. cbn [bindo]. unfold t_entry.
    do 2 eexists. split; [reflexivity|]. split; [exact R2|]. split; [apply entry_calm; exact R2|reflexivity].
  - do 2 eexists. split; [reflexivity|]. split; [exact R|]. split; [|reflexivity].
    rewrite lor128 by lia. assert (0 <= a mod 128 < 128) by (apply Z.mod_pos_bound; lia). apply calm_fast; lia.
  - do 2 eexists. split; [reflexivity|]. split; [exact R|]. split; [|reflexivity].
    rewrite lor64 by lia. assert (0 <= a mod 64 < 64) by (apply Z.mod_pos_bound; lia). apply calm_fast; lia.
  - do 2 eexists. split; [reflexivity|]. split; [exact R|]. split; [|reflexivity]. destruct dd, rt; apply calm_fast; cbn; lia.
Qed.

Lemma t_goto_l : forall v, 0 <= row v -> exists os, t_goto p rows v = Some os /\ calm os /\ goto_op rows v = Some (driver_calls os).
Proof.
  intros v Hr. unfold t_goto, goto_op, calc_address.
  assert (X : exists o, row_offset (if row v >=? rows then 0 else row v) = Some o).
  { destruct (row v >=? rows) eqn:G; [exists 0; reflexivity|].
    assert (row v = 0 \/ row v = 1 \/ row v = 2 \/ row v = 3) as D by (destruct Hrows as [->|[->| ->]]; lia).
    destruct D as [->|[->|[->| ->]]]; eexists; reflexivity. }
  destruct X as (o & E). rewrite E. eexists. split; [reflexivity|]. split; [|reflexivity].
  assert (0 <= u8 (o + col v) < 256) by (unfold u8; apply Z.mod_pos_bound; lia).
  rewrite lor128 by exact H. assert (0 <= u8 (o + col v) mod 128 < 128) by (apply Z.mod_pos_bound; lia). apply calm_fast; lia.
Qed.
Lemma u8_range : forall x, 0 <= u8 x < 256. Proof. intros x. unfold u8. apply Z.mod_pos_bound. lia. Qed.
Lemma inc_row_ok : forall v, 0 <= row v < 256 -> 0 <= row (inc_row rows v) < 256 /\ col (inc_row rows v) = col v.
Proof. intros v H. unfold inc_row. destruct (row v + 1 >? rows); cbn [row col]; [lia|]. split; [apply u8_range|reflexivity]. Qed.
Lemma inc_col_ok : forall v, 0 <= row v < 256 -> 0 <= col v < 256 -> 0 <= row (inc_col rows v) < 256 /\ 0 <= col (inc_col rows v) < 256.
Proof.
  intros v H H1. unfold inc_col. destruct (col v + 1 >? total_cols rows).
  - destruct (inc_row_ok {| row := row v; col := 0 |} H) as [A B]. rewrite B. cbn [col]. lia.
  - cbn [row col]. split; [exact H|apply u8_range].
Qed.

Lemma t_call_l : forall s o, state_ok s -> call_ok o ->
  exists s' os, t_call p iw rows s o = Some (s', os) /\ state_ok s' /\ calm os /\ plain_call iw rows s o = Some (s', driver_calls os).
Proof.
  intros [r v] o (R & V1 & V2) O. cbn [fst snd] in *. destruct o as [[ch|a b| |full]|o]; cbn [t_call plain_call call_ok fst snd view_op] in *.
  - destruct (ch =? 10); [|destruct (ch =? 13)]; cbv zeta.
    + destruct (inc_row_ok v V1) as [I1 I2]. destruct (t_goto_l (inc_row rows v)) as (os & E & C & G); [lia|]. rewrite E, G. cbn [bindo fst snd].
      do 2 eexists. split; [reflexivity|]. split; [split; [exact R|]; cbn [fst snd]; rewrite I2; auto|]. auto.
    + destruct (t_goto_l {| row := row v; col := 0 |}) as (os & E & C & G); [cbn; lia|]. rewrite E, G. cbn [bindo fst snd].
      do 2 eexists. split; [reflexivity|]. split; [split; [exact R|]; cbn [fst snd row col]; lia|]. auto.
    + destruct (inc_col_ok v V1 V2) as [I1 I2]. cbn [bindo fst snd].
      do 2 eexists. split; [reflexivity|]. split; [split; [exact R|]; cbn [fst snd]; auto|]. split; [apply calm_data; exact O|reflexivity].
  - cbv zeta. destruct (t_goto_l {| row := a; col := b |}) as (os & E & C & G); [cbn; lia|]. rewrite E, G. cbn [bindo fst snd].
    do 2 eexists. split; [reflexivity|]. split; [split; [exact R|]; cbn [fst snd row col]; lia|]. auto.
  - cbn [bindo fst snd]. do 2 eexists. split; [reflexivity|]. split; [split; [exact R|]; cbn [fst snd row col]; lia|].
    split; [apply calm_slow; lia|reflexivity].
  - subst full. destruct (t_ctl_l r (CInit false) R I I) as (r' & os & E & R' & C & P). cbn [t_ctl_op ctl_op app] in E, P. 
    injection E as <- <-. cbn [t_ctl_op bindo fst snd app].
    do 2 eexists. split; [reflexivity|]. split; [split; [exact R|]; cbn [fst snd]; auto|]. split; [exact C|reflexivity].
  - destruct O as [N O]. destruct (t_ctl_l r o R N O) as (r' & os & E & R' & C & P). rewrite E, P. cbn [bindo fst snd].
    do 2 eexists. split; [reflexivity|]. split; [split; [exact R'|]; cbn [fst snd]; auto|]. auto.
Qed.
Lemma t_calls_l : forall cs s, state_ok s -> Forall call_ok cs ->
  exists s' os, t_calls p iw rows s cs = Some (s', os) /\ calm os /\ plain_calls iw rows s cs = Some (s', driver_calls os).
Proof.
  induction cs as [|o cs IH]; intros s S F; cbn [t_calls plain_calls].
  - exists s, []. split; [reflexivity|]. split; [apply calm_nil|reflexivity].
  - inversion F as [|? ? F1 F2]; subst. destruct (t_call_l s o S F1) as (s1 & o1 & E1 & S1 & C1 & P1). rewrite E1, P1. cbn [bindo fst snd].
    destruct (IH s1 S1 F2) as (s2 & o2 & E2 & C2 & P2). rewrite E2, P2. cbn [bindo fst snd].
    exists s2, (o1 ++ o2). split; [reflexivity|]. split; [apply calm_app; assumption|]. rewrite driver_calls_app. reflexivity.
Qed.

Lemma calm_hears : forall os r l acts l', calm os -> renders (p_pulse p) l acts (all_tevs nib pre r os) l' ->
  forall tr, takes_at_least c acts tr ->
  exists d', hears dv lo l idle tr = Some (d', map byte_of (driver_calls os)) /\ dm d' = M4 /\ boot d' = [].
Proof.
  intros os r l acts l' (_ & _ & C) R tr (M & L).
  destruct (C r 0 [] ltac:(unfold slack; clear - Hc Hnib Hpre; nia)) as (b' & _ & E). rewrite app_nil_r in E. cbn [HdTimeProofs.follows] in E. rewrite app_nil_r in E.
  destruct (hears_follows dv lo c (p_pulse p) Hc l acts _ l' R idle 0 M4 b' [] _ tr ltac:(cbn; lia) ltac:(cbn; lia) E M L) as (d' & H & D & B & _).
  exists d'. auto.
Qed.

(** ** From power-on. *)
Hypothesis Hstart : covers_start nib pre p dv c.
Lemma start_follows : forall os rest b0, b0 = d_power dv -> calm os ->
  exists b', b' <= slack /\
  follows M8 b0 [d_first dv; d_second dv] (all_tevs nib pre false (t_power_up p ++ os) ++ rest) =
  match follows M4 b' [] rest with
  | Some (m, b, bt, ts) => Some (m, b, bt, [(false, 48 + lo); (false, 48 + lo); (false, 48 + lo); (false, 32 + lo); (false, 40)] ++
                                           map byte_of (driver_calls os) ++ ts)
  | None => None
  end.
Proof.
  intros os rest b0 -> (_ & _ & C). destruct Hstart as (P1 & P2 & P3 & P4 & P5). destruct Hcov as (H1 & _).
  assert (Hpu : 0 <= p_pulse p) by apply Hp.
  rewrite all_tevs_app, <- app_assoc. 
  destruct (C (fold_left trs_after (t_power_up p) false) (d_fast dv - p_pulse p - c) rest) as (b' & L & E); [unfold slack; clear - P5; lia|].
  exists b'. split; [exact L|].
  cbn [t_power_up all_tevs op_tevs app follows trs_after rs_after].
  change (3 mod 16) with 3. change (2 mod 16) with 2. change (40 / 16) with 2. change (40 mod 16) with 8.
  replace (d_power dv - p_power p <=? nib * c) with true by (clear - P1; lia).
  assert (A3 : forall bt, after_edge dv lo M8 false 3 bt =
    match bt with b :: bs => (M8, b, bs, [(false, 48 + lo)]) | [] => (M8, exec_time dv (false, 48 + lo), [], [(false, 48 + lo)]) end).
  { intros bt. unfold after_edge, takes. cbn [dm boot]. rewrite step8_3 by exact Hlo. destruct bt; reflexivity. }
  assert (A2 : after_edge dv lo M8 false 2 [] = (M4, exec_time dv (false, 32 + lo), [], [(false, 32 + lo)])).
  { unfold after_edge, takes. cbn [dm boot]. rewrite step8_2 by exact Hlo. reflexivity. }
  rewrite A3. replace (d_first dv - p_pulse p - c - p_init_long p <=? nib * c) with true by (clear - P2; lia).
  rewrite A3. replace (d_second dv - p_pulse p - c - p_init p <=? nib * c) with true by (clear - P3; lia).
  rewrite A3. cbn [exec_time]. replace (48 + lo <? 4) with false by lia.
  replace (d_fast dv - p_pulse p - c - p_init_short p <=? nib * c) with true by (clear - P4; lia).
  rewrite A2. cbn [exec_time]. replace (32 + lo <? 4) with false by lia.
  replace (d_fast dv - p_pulse p - c <=? (nib + pre) * c) with true by (clear - P5; lia). rewrite after_M4.
  replace (d_half dv - p_pulse p - c <=? nib * c) with true by (clear - H1; lia).
  rewrite after_half by (cbn; lia). change (16 * 2 + 8) with 40. cbn [exec_time]. change (40 <? 4) with false. cbv iota.
  rewrite E.
  destruct (follows M4 b' [] rest) as [[[[? ?] ?] ?]|]; reflexivity.
Qed.

Lemma entry_left : forall r, 0 <= r < 256 -> exists r', t_ctl_op p iw r (CEntry true false) = Some (r', [TOp (DCmd 6); TWait (p_command p)]) /\
  ctl_op iw r (CEntry true false) = Some (r', [DCmd 6]) /\ 0 <= r' < 256.
Proof.
  intros r R. cbn [t_ctl_op ctl_op].
  destruct (put8_l iw iw8 r 4 true R ltac:(lia)) as (r1 & E1 & R1 & T1). rewrite E1. cbn [bindo].
  destruct (put8_l iw iw8 r1 3 false R1 ltac:(lia)) as (r2 & E2 & R2 & T2). rewrite E2. cbn [bindo]. unfold t_entry.
  destruct (em_bits r2 R2) as (D & D0 & D1).
  assert (X : entry_mode r2 = 6).
  { rewrite !T2, ?T1 in D0 by lia. rewrite !T2, ?T1 in D1 by lia. cbn in D0, D1.
    assert (entry_mode r2 = 4 \/ entry_mode r2 = 5 \/ entry_mode r2 = 6 \/ entry_mode r2 = 7) as Q by lia.
    destruct Q as [Q|[Q|[Q|Q]]]; rewrite Q in D0, D1; try discriminate D0; try discriminate D1. exact Q. }
  rewrite X. exists r2. auto.
Qed.

Lemma start_l : forall s cs, state_ok s -> Forall call_ok cs ->
  exists s1 s' os0 os, t_calls p iw rows s (OnView (VInit true) :: cs) = Some (s', t_power_up p ++ os0 ++ os) /\
    (exists ds0, plain_call iw rows s (OnView (VInit true)) = Some (s1, ds0)) /\ plain_calls iw rows s1 cs = Some (s', driver_calls os) /\
    driver_calls os0 = [DCmd 1; DCmd 2; DCmd 6] /\ calm (os0 ++ os).
Proof.
  intros [r v] cs (R & V1 & V2) F. cbn [fst snd] in *. destruct (entry_left r R) as (r' & E & E3 & R').
  destruct (t_calls_l cs (r', v)) as (s' & os & E2 & C2 & P2); [split; cbn [fst snd]; auto|exact F|].
  exists (r', v), s', ((t_clear p ++ t_home p) ++ [TOp (DCmd 6); TWait (p_command p)]), os.
  split; [|split; [|split; [exact P2|split; [reflexivity|]]]].
  - cbn [t_calls t_call]. change (t_ctl_op p iw r (CInit true)) with (Some (r, t_power_up p ++ t_clear p ++ t_home p)). cbn [bindo fst snd].
    rewrite E. cbn [bindo fst snd]. rewrite E2. cbn [bindo fst snd]. rewrite <- !app_assoc. reflexivity.
  - cbn [plain_call fst snd view_op bindo]. rewrite E3. eexists. reflexivity.
  - apply calm_app; [|exact C2]. apply calm_app; [apply calm_app; apply calm_slow; lia|apply calm_fast; lia].
Qed.

Lemma start_hears : forall os l acts l', calm os -> renders (p_pulse p) l acts (all_tevs nib pre false (t_power_up p ++ os)) l' ->
  0 <= d_power dv ->
  forall tr, takes_at_least c acts tr ->
  exists d', hears dv lo l (powered dv) tr =
    Some (d', [(false, 48 + lo); (false, 48 + lo); (false, 48 + lo); (false, 32 + lo); (false, 40)] ++ map byte_of (driver_calls os)) /\
    dm d' = M4 /\ boot d' = [].
Proof.
  intros os l acts l' C R Hd tr (M & L).
  destruct (start_follows os [] (d_power dv) eq_refl C) as (b' & _ & E). rewrite app_nil_r in E. cbn [HdTimeProofs.follows] in E. rewrite app_nil_r in E.
  destruct (hears_follows dv lo c (p_pulse p) Hc l acts _ l' R (powered dv) (d_power dv) M4 b' [] _ tr ltac:(exact Hd) ltac:(cbn [powered busy]; lia) E M L) as (d' & H & D & B & _).
  exists d'. auto.
Qed.
End Calls.

(** ** Too short a delay is noticed. *)
Lemma exactly_ok : forall c acts, takes_at_least c acts (exactly c acts).
Proof.
  intros c acts. unfold takes_at_least, exactly. rewrite map_map. cbn [fst]. split; [apply map_id|].
  apply Forall_forall. intros x H. apply in_map_iff in H. destruct H as (a & <- & _). destruct a; unfold lasts; cbn [fst snd]; lia.
Qed.
(** A driver that renders the calls with [nib] and [pre] writes. *)
Definition renders_all (p : profile) (nib pre : Z) (l : lines) (driver : list top -> option (list (act lines))) : Prop :=
  forall os, Forall top_ok os -> exists acts l', driver os = Some acts /\ renders (p_pulse p) l acts (all_tevs nib pre (rs l) os) l'.
Lemma use_follows : forall p dv c iw nib pre l driver, never_busy p dv c iw l driver -> renders_all p nib pre l driver -> profile_ok p -> 0 <= c ->
  forall cs s' os, Forall call_ok cs -> t_calls p iw 2 at0 cs = Some (s', os) ->
  Forall top_ok os -> follows dv 0 c (p_pulse p) M4 0 [] (all_tevs nib pre (rs l) os) <> None.
Proof.
  intros p dv c iw nib pre l driver H R Hp Hc cs s' os F E T X. destruct (R os T) as (acts & l' & D & Q).
  apply (H 0 2 at0 cs s' os acts (exactly c acts)); auto; try lia.
  - right; left; reflexivity.
  - repeat split; cbn; lia.
  - apply exactly_ok.
  - exact (hears_exactly dv 0 c (p_pulse p) Hc l _ _ _ Q idle 0 eq_refl X).
Qed.
Ltac edges_of N := repeat match type of N with context [if ?b then _ else None] =>
  let E := fresh "E" in destruct b eqn:E; [|exfalso; apply N; reflexivity] end.
Ltac follow_all N :=
  cbn [all_tevs op_tevs app trs_after rs_after t_power_up t_clear] in N;
  repeat (cbn [follows] in N;
    match type of N with context [after_edge ?dv ?lo ?m ?r ?n ?bt] =>
      let v := eval lazy - [d_half d_slow d_fast d_data d_power d_first d_second] in (after_edge dv lo m r n bt) in
      change (after_edge dv lo m r n bt) with v in N; cbv iota beta in N end).
Lemma need_all : forall p dv c iw nib pre l driver, never_busy p dv c iw l driver -> renders_all p nib pre l driver -> profile_ok p -> 0 <= c ->
  8 <= iw -> covers nib pre p dv c.
Proof.
  intros p dv c iw nib pre l driver H R Hp Hc Hiw. assert (P : 0 <= p_pulse p) by apply Hp.
  assert (P2 : 0 <= p_command p) by apply Hp. assert (P3 : 0 <= p_command_long p) by apply Hp.
  unfold covers.
  assert (A : d_half dv <= p_pulse p + (1 + nib) * c /\ d_data dv <= p_pulse p + (1 + pre + nib) * c).
  { assert (F : Forall call_ok [OnView (VChar 65); OnView (VChar 65)]) by (repeat constructor; cbn; lia).
    pose proof (use_follows p dv c iw nib pre l driver H R Hp Hc _ _ [TOp (DData 65); TOp (DData 65)] F eq_refl
      ltac:(repeat constructor; cbn; lia)) as N. clear - N.
    follow_all N. edges_of N. lia. }
  assert (B : d_fast dv <= p_pulse p + p_command p + (1 + pre + nib) * c).
  { assert (F : Forall call_ok [OnCtl (CAddress 0); OnCtl (CAddress 0)]) by (repeat constructor; cbn; lia).
    pose proof (use_follows p dv c iw nib pre l driver H R Hp Hc _ _ [TOp (DCmd 128); TWait (p_command p); TOp (DCmd 128); TWait (p_command p)] F eq_refl
      ltac:(repeat constructor; cbn; lia)) as N. clear - N.
    follow_all N. edges_of N. lia. }
  assert (C : d_slow dv <= p_pulse p + p_command_long p + (1 + pre + nib) * c).
  { assert (F : Forall call_ok [OnCtl CClear; OnCtl CClear]) by (repeat constructor; cbn; lia).
    pose proof (use_follows p dv c iw nib pre l driver H R Hp Hc _ _ (t_clear p ++ t_clear p) F eq_refl
      ltac:(repeat constructor; cbn; lia)) as N. clear - N.
    follow_all N. edges_of N. lia. }
  tauto.
Qed.
Lemma serve_all : forall p dv c iw nib pre l driver, covers nib pre p dv c -> renders_all p nib pre l driver -> profile_ok p -> 0 <= c ->
  0 <= nib -> 0 <= pre -> 8 <= iw -> never_busy p dv c iw l driver.
Proof.
  intros p dv c iw nib pre l driver Hcov R Hp Hc Hn Hpr Hiw lo rows s cs s' os acts tr Hlo Hr S F T D Htr.
  destruct (t_calls_l p dv c lo iw rows nib pre Hp Hiw Hr Hcov cs s S F) as (s2 & os2 & T2 & C & P).
  rewrite T in T2. injection T2 as <- <-. destruct (R os) as (acts' & l' & D' & Q); [apply C|]. rewrite D in D'. injection D' as <-.
  destruct (calm_hears p dv c lo nib pre Hc Hn Hpr os _ _ _ _ C Q tr Htr) as (d' & X & _). rewrite X. discriminate.
Qed.
Lemma pins_render : forall p l, en l = true -> renders_all p 5 1 l (by_pins p l).
Proof. intros p l E os T. do 2 eexists. split; [reflexivity|]. apply par_renders; assumption. Qed.
Lemma i2c_render : forall p iw r, 8 <= iw -> 0 <= r < 256 -> Z.testbit r 1 = false -> Z.testbit r 2 = true -> renders_all p 2 1 (i2c_lines r) (by_i2c p iw r).
Proof.
  intros p iw r Hiw R R1 R2 os T.
  destruct (i2c_renders p iw Hiw (Z.testbit r 3) os r) as (r' & acts & Er & Rr); [repeat split; auto; lia|exact R2|exact T|].
  do 2 eexists. unfold by_i2c. rewrite Er. split; [reflexivity|exact Rr].
Qed.
Lemma w3_render : forall p iw w ix r, 1 <= w <= iw -> Forall (fun i => 0 <= i < w) (index_list ix) -> NoDup (index_list ix) ->
  0 <= r < 2 ^ w -> Z.testbit r (ien ix) = true -> renders_all p 2 0 (w3_lines ix r) (by_3wire p iw w ix r).
Proof.
  intros p iw w ix r Hw Hin Hdup R R2 os T. destruct (w3_renders p iw w ix Hw Hin Hdup os r R R2 T) as (r' & acts & Er & Rr).
  do 2 eexists. unfold by_3wire. rewrite Er. split; [reflexivity|exact Rr].
Qed.
Lemma need_start : forall p dv c, profile_ok p -> 0 <= c -> 0 <= d_power dv ->
  hears dv 0 start_lines (powered dv) (exactly c (snd (t_par_run p start_lines (t_power_up p ++ t_clear p)))) <> None ->
  covers_start 5 1 p dv c.
Proof.
  intros p dv c Hp Hc Hd N. assert (P : 0 <= p_pulse p) by apply Hp.
  assert (T : Forall top_ok (t_power_up p ++ t_clear p)) by (destruct Hp as (? & ? & ? & ? & ? & ? & ?); repeat constructor; cbn; lia).
  assert (X : follows dv 0 c (p_pulse p) M8 (d_power dv) [d_first dv; d_second dv] (all_tevs 5 1 false (t_power_up p ++ t_clear p)) <> None).
  { intros X. apply N. apply (hears_exactly dv 0 c (p_pulse p) Hc start_lines _ _ _ (par_renders p _ start_lines eq_refl T) (powered dv) (d_power dv));
      [cbn [powered busy]; lia|exact X]. }
  clear N T. follow_all X. edges_of X. unfold covers_start. lia.
Qed.
Lemma boot_follows : forall p dv c nib pre l driver, profile_ok p -> 0 <= c -> 0 <= d_power dv -> renders_all p nib pre l driver -> rs l = false ->
  exists acts, driver (t_power_up p ++ t_clear p) = Some acts /\
    (hears dv 0 l (powered dv) (exactly c acts) <> None ->
     follows dv 0 c (p_pulse p) M8 (d_power dv) [d_first dv; d_second dv] (all_tevs nib pre false (t_power_up p ++ t_clear p)) <> None).
Proof.
  intros p dv c nib pre l driver Hp Hc Hd R Rl.
  assert (T : Forall top_ok (t_power_up p ++ t_clear p)) by (destruct Hp as (? & ? & ? & ? & ? & ? & ?); repeat constructor; cbn; lia).
  destruct (R _ T) as (acts & l' & D & Q). exists acts. split; [exact D|]. intros N X. apply N. rewrite Rl in Q.
  apply (hears_exactly dv 0 c (p_pulse p) Hc l _ _ _ Q (powered dv) (d_power dv)); [cbn [powered busy]; lia|exact X].
Qed.
Lemma need_start_21 : forall p dv c l driver, profile_ok p -> 0 <= c -> 0 <= d_power dv -> renders_all p 2 1 l driver -> rs l = false ->
  exists acts, driver (t_power_up p ++ t_clear p) = Some acts /\ (hears dv 0 l (powered dv) (exactly c acts) <> None -> covers_start 2 1 p dv c).
Proof.
  intros p dv c l driver Hp Hc Hd R Rl. destruct (boot_follows p dv c 2 1 l driver Hp Hc Hd R Rl) as (acts & D & X). exists acts. split; [exact D|].
  intros N. specialize (X N). clear N R D. follow_all X. edges_of X. unfold covers_start. lia.
Qed.
Lemma need_start_20 : forall p dv c l driver, profile_ok p -> 0 <= c -> 0 <= d_power dv -> renders_all p 2 0 l driver -> rs l = false ->
  exists acts, driver (t_power_up p ++ t_clear p) = Some acts /\ (hears dv 0 l (powered dv) (exactly c acts) <> None -> covers_start 2 0 p dv c).
Proof.
  intros p dv c l driver Hp Hc Hd R Rl. destruct (boot_follows p dv c 2 0 l driver Hp Hc Hd R Rl) as (acts & D & X). exists acts. split; [exact D|].
  intros N. specialize (X N). clear N R D. follow_all X. edges_of X. unfold covers_start. lia.
Qed.
