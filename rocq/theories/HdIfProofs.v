(** Proofs about the three HD44780 drivers. *)
Require Import ZArith List Bool Lia ZifyBool.
Import ListNotations.
From Verif Require Import Base BaseFacts BitModel BitSpec BitProofs ShiftProofs MotorProofs HdModel HdSpec.
Open Scope Z_scope.

(** ** Nibbles *)
Lemma nz_land : forall d k, 0 <= k -> nz (Z.land d (2 ^ k)) = Z.testbit d k.
Proof.
  intros d k H. unfold nz. rewrite land_pow by exact H. pose proof (pow_pos k H).
  destruct (Z.testbit d k); lia.
Qed.
Lemma nz1 : forall d, nz (Z.land d 1) = Z.testbit d 0. Proof. intros d. apply (nz_land d 0). lia. Qed.
Lemma nz2 : forall d, nz (Z.land d 2) = Z.testbit d 1. Proof. intros d. apply (nz_land d 1). lia. Qed.
Lemma nz4 : forall d, nz (Z.land d 4) = Z.testbit d 2. Proof. intros d. apply (nz_land d 2). lia. Qed.
Lemma nz8 : forall d, nz (Z.land d 8) = Z.testbit d 3. Proof. intros d. apply (nz_land d 3). lia. Qed.

Lemma bits4 : forall d, Z.b2z (Z.testbit d 0) + 2 * Z.b2z (Z.testbit d 1) + 4 * Z.b2z (Z.testbit d 2) +
  8 * Z.b2z (Z.testbit d 3) = d mod 16.
Proof.
  intros d. rewrite !Z.testbit_spec' by lia. change (2 ^ 0) with 1. change (2 ^ 1) with 2.
  change (2 ^ 2) with 4. change (2 ^ 3) with 8. lia.
Qed.

(** The lines with the data of a nibble. *)
Definition with_data (l : lines) (n : Z) : lines :=
  {| rs := rs l; en := en l; d4 := Z.testbit n 0; d5 := Z.testbit n 1; d6 := Z.testbit n 2; d7 := Z.testbit n 3 |}.
Lemma nibble_with_data : forall l n, nibble (with_data l n) = n mod 16.
Proof. intros l n. apply bits4. Qed.
Lemma nibble_with_en : forall l v, nibble (set_en l v) = nibble l.
Proof. reflexivity. Qed.

(** ** Watching *)
Section W.
Variable lo : Z.
Lemma watch_app : forall a b l m, watch lo l m (a ++ b) =
  let '(l1, m1, t1) := watch lo l m a in let '(l2, m2, t2) := watch lo l1 m1 b in (l2, m2, t1 ++ t2).
Proof.
  induction a as [|x a IH]; intros b l m; cbn [app watch].
  - destruct (watch lo l m b) as [[? ?] ?]. reflexivity.
  - destruct (if en l && negb (en x) then _ else _) as [m1 t]. rewrite IH.
    destruct (watch lo x m1 a) as [[l1 m2] t1]. destruct (watch lo l1 m2 b) as [[? ?] ?]. rewrite app_assoc. reflexivity.
Qed.
Lemma watch_last : forall tr l m, fst (fst (watch lo l m tr)) = last tr l.
Proof.
  induction tr as [|x tr IH]; intros l m; [reflexivity|]. cbn [watch].
  destruct (if en l && negb (en x) then _ else _) as [m1 t]. specialize (IH x m1).
  destruct (watch lo x m1 tr) as [[l1 m2] t1]. cbn [fst] in *. rewrite IH.
  destruct tr as [|y tr]; [reflexivity|]. clear. revert y. induction tr as [|z tr IH]; intros y; [reflexivity|]. apply IH.
Qed.
Lemma edges_app : forall a b m, edges lo m (a ++ b) =
  let (m1, t1) := edges lo m a in let (m2, t2) := edges lo m1 b in (m2, t1 ++ t2).
Proof.
  induction a as [|[r n] a IH]; intros b m; cbn [app edges].
  - destruct (edges lo m b). reflexivity.
  - destruct (edge lo m r n) as [m1 t]. rewrite IH. destruct (edges lo m1 a) as [m2 t1].
    destruct (edges lo m2 b). rewrite app_assoc. reflexivity.
Qed.
Lemma edges_one : forall m r n, edges lo m [(r, n)] = edge lo m r n.
Proof. intros m r n. cbn [edges]. destruct (edge lo m r n). rewrite app_nil_r. reflexivity. Qed.

Local Notation delivers := (HdSpec.delivers lo).
Lemma setup_app : forall a b l, setup l a -> setup (last a l) b -> setup l (a ++ b).
Proof.
  induction a as [|x a IH]; intros b l A B; [exact B|]. cbn [setup app] in *. destruct A as [A1 A2]. split; [exact A1|].
  apply IH; [exact A2|]. destruct a as [|y a]; [exact B|]. 
  replace (last (y :: a) x) with (last (x :: y :: a) l); [exact B|].
  change (last (x :: y :: a) l) with (last (y :: a) l). clear. revert y. induction a as [|z a IH]; intros y; [reflexivity|]. apply IH.
Qed.

Lemma last_app_any : forall A (a b : list A) (d : A), last (a ++ b) d = last b (last a d).
Proof.
  intros A. induction a as [|x a IH]; intros b d; [reflexivity|]. cbn [app].
  destruct (a ++ b) as [|y t] eqn:E.
  - apply app_eq_nil in E. destruct E as [-> ->]. reflexivity.
  - change (last (x :: y :: t) d) with (last (y :: t) d). rewrite <- E, IH.
    destruct a as [|z a]; [|reflexivity]. cbn in E. destruct b; [discriminate|]. 
    clear. cbn [last]. revert a. induction b as [|w b IHb]; intros u; [reflexivity|]. apply IHb.
Qed.

Lemma last_cons_any : forall A (l : list A) x d d', last (x :: l) d = last (x :: l) d'.
Proof. intros A l. induction l as [|y l IH]; intros x d d'; [reflexivity|]. apply (IH y). Qed.

Lemma delivers_app : forall l a ns l1 b ns2 l2, delivers l a ns l1 -> delivers l1 b ns2 l2 ->
  delivers l (a ++ b) (ns ++ ns2) l2.
Proof.
  intros l a ns l1 b ns2 l2 (E1 & S1 & L1 & W1) (E2 & S2 & L2 & W2). split; [exact E2|]. split.
  - apply setup_app; [exact S1|]. rewrite L1. exact S2.
  - split; [rewrite last_app_any, L1; exact L2|].
    intros m. rewrite watch_app, W1, W2, edges_app.
    destruct (edges lo m ns) as [m1 t1]. cbn [fst snd]. destruct (edges lo m1 ns2). reflexivity.
Qed.
Lemma delivers_nil : forall l, en l = true -> delivers l [] [] l.
Proof. intros l H. split; [exact H|]. split; [exact I|]. split; [reflexivity|]. reflexivity. Qed.
(** A step with enable high delivers nothing. *)
Lemma delivers_high : forall l l', en l' = true -> delivers l [l'] [] l'.
Proof.
  intros l l' H. split; [exact H|]. split; [cbn; split; [intros _ F; congruence|exact I]|]. split; [reflexivity|].
  intros m. cbn [watch]. rewrite H, andb_false_r. reflexivity.
Qed.
(** An enable pulse delivers the nibble on the lines. *)
Lemma delivers_pulse : forall l, en l = true ->
  delivers l [set_en l false; set_en (set_en l false) true] [(rs l, nibble l)] l.
Proof.
  intros l H. assert (K : set_en (set_en l false) true = l) by (destruct l; cbn in *; subst; reflexivity).
  rewrite K. split; [exact H|]. split.
  - cbn. split; [intros _ _; split; reflexivity|]. split; [intros F; discriminate|exact I].
  - split; [reflexivity|].
    intros m. cbn [watch]. rewrite H. change (en (set_en l false)) with false. cbn [andb negb].
    rewrite nibble_with_en. change (rs (set_en l false)) with (rs l).
    rewrite edges_one. destruct (edge lo m (rs l) (nibble l)). cbn [fst snd app]. rewrite app_nil_r. reflexivity.
Qed.

(** ** Parallel driver *)
Lemma par_write4_l : forall l n, en l = true ->
  delivers l (par_write4 l n) [(rs l, n mod 16)] (with_data l n).
Proof.
  intros l n H. unfold par_write4. cbv zeta. rewrite nz1, nz2, nz4, nz8.
  set (l1 := set_d4 l _). set (l2 := set_d5 l1 _). set (l3 := set_d6 l2 _). 
  assert (E4 : set_d7 l3 (Z.testbit n 3) = with_data l n) by reflexivity. rewrite E4.
  change [l1; l2; l3; with_data l n; set_en (with_data l n) false; set_en (set_en (with_data l n) false) true]
    with ([l1] ++ [l2] ++ [l3] ++ [with_data l n] ++ [set_en (with_data l n) false; set_en (set_en (with_data l n) false) true]).
  replace [(rs l, n mod 16)] with ([] ++ [] ++ [] ++ [] ++ [(rs (with_data l n), nibble (with_data l n))])
    by (rewrite nibble_with_data; reflexivity).
  eapply delivers_app; [apply delivers_high; exact H|].
  eapply delivers_app; [apply delivers_high; exact H|].
  eapply delivers_app; [apply delivers_high; exact H|].
  eapply delivers_app; [apply delivers_high; exact H|].
  apply delivers_pulse. exact H.
Qed.

Lemma par_write8_l : forall l b, en l = true -> 0 <= b < 256 ->
  delivers l (par_write8 l b) [(rs l, b / 16); (rs l, b mod 16)] (with_data l b).
Proof.
  intros l b H Hb. unfold par_write8. cbv zeta.
  pose proof (par_write4_l l (Z.shiftr b 4) H) as D. pose proof D as (_ & _ & L & _). rewrite L.
  pose proof (par_write4_l (with_data l (Z.shiftr b 4)) b H) as D2.
  pose proof (delivers_app _ _ _ _ _ _ _ D D2) as D3. cbn [app] in D3.
  replace (Z.shiftr b 4 mod 16) with (b / 16) in D3; [exact D3|].
  rewrite Z.shiftr_div_pow2 by lia. change (2 ^ 4) with 16. symmetry. apply Z.mod_small. lia.
Qed.

Lemma par_op_l : forall l o, en l = true -> dop_ok o ->
  exists l', delivers l (par_op l o) (nibs (rs l) o) l' /\ rs l' = rs_after (rs l) o.
Proof.
  intros l [b|b|n] H Ho; cbn [par_op nibs rs_after dop_ok] in *.
  - eexists. split.
    + change (set_rs l false :: par_write8 (set_rs l false) b) with ([set_rs l false] ++ par_write8 (set_rs l false) b).
      eapply (delivers_app l _ [] _ _ [_; _]); [apply delivers_high; exact H|]. apply (par_write8_l (set_rs l false) b H Ho).
    + reflexivity.
  - eexists. split.
    + change (set_rs l true :: par_write8 (set_rs l true) b) with ([set_rs l true] ++ par_write8 (set_rs l true) b).
      eapply (delivers_app l _ [] _ _ [_; _]); [apply delivers_high; exact H|]. apply (par_write8_l (set_rs l true) b H Ho).
    + reflexivity.
  - eexists. split; [apply par_write4_l; exact H|reflexivity].
Qed.

Lemma par_run_d : forall os l, en l = true -> Forall dop_ok os ->
  exists l', delivers l (par_run l os) (all_nibs (rs l) os) l'.
Proof.
  induction os as [|o os IH]; intros l H F; cbn [par_run all_nibs].
  - exists l. apply delivers_nil. exact H.
  - inversion F; subst. destruct (par_op_l l o H H2) as (l1 & D & R). pose proof D as (E & _ & L & _). cbv zeta. rewrite L.
    destruct (IH l1 E H3) as (l2 & D2). rewrite R in D2. exists l2. eapply delivers_app; eassumption.
Qed.

(** ** I2C driver *)
Lemma ba_step_bits : forall iw r i (f : Z -> Z -> option (Z * bool)) v, 8 <= iw -> 0 <= r < 256 -> 0 <= i < 8 ->
  (f r i = ba_put iw 8 r i v) -> exists r', f r i = Some (r', true) /\ 0 <= r' < 256 /\
    forall j, 0 <= j < 8 -> Z.testbit r' j = if j =? i then v else Z.testbit r j.
Proof.
  intros iw r i f v Hw Hr Hi E. rewrite E. apply (ba_put_ok iw 8); lia.
Qed.
Lemma ba_set_ok : forall iw w b i, 1 <= w <= iw -> 0 <= b < 2 ^ w -> 0 <= i < w ->
  exists b', ba_set iw w b i = Some (b', true) /\ 0 <= b' < 2 ^ w /\
    forall j, 0 <= j < w -> Z.testbit b' j = if j =? i then true else Z.testbit b j.
Proof.
  intros iw w b i Hw Hb Hi. unfold ba_set, ba_valid. replace (i + 1 <=? w) with true by lia. cbn [negb].
  destruct (one_bits iw w i) as (s & E & Hs); [unfold mask_ok; lia|]. rewrite E.
  eexists. split; [reflexivity|]. split; [apply un_range; lia|].
  intros j Hj. assert (J : j <? w = true) by lia.
  rewrite testbit_un, Z.lor_spec, J, Hs by lia. destruct (j =? i), (Z.testbit b j); reflexivity.
Qed.
Lemma ba_reset_ok : forall iw w b i, 1 <= w <= iw -> 0 <= b < 2 ^ w -> 0 <= i < w ->
  exists b', ba_reset iw w b i = Some (b', true) /\ 0 <= b' < 2 ^ w /\
    forall j, 0 <= j < w -> Z.testbit b' j = if j =? i then false else Z.testbit b j.
Proof.
  intros iw w b i Hw Hb Hi. unfold ba_reset, ba_valid. replace (i + 1 <=? w) with true by lia. cbn [negb].
  destruct (one_bits iw w i) as (s & E & Hs); [unfold mask_ok; lia|]. rewrite E.
  eexists. split; [reflexivity|]. split; [apply un_range; lia|].
  intros j Hj. assert (J : j <? w = true) by lia.
  rewrite testbit_un, Z.land_spec, Z.lnot_spec, J, Hs by lia. destruct (j =? i), (Z.testbit b j); reflexivity.
Qed.
Lemma ba_field_ok : forall iw r v, 8 <= iw -> 0 <= r < 256 -> 0 <= v < 256 ->
  exists r', ba_set_field iw 8 r 4 v 4 = Some (r', true) /\ 0 <= r' < 256 /\
    forall j, 0 <= j < 8 -> Z.testbit r' j = if 4 <=? j then Z.testbit v (j - 4) else Z.testbit r j.
Proof.
  intros iw r v Hw Hr Hv. destruct (ba_set_l iw 8 r 4 v 4) as (r' & E & R & T); try lia.
  exists r'. split; [exact E|]. split; [lia|]. intros j Hj. rewrite T by lia. replace (j <? 4 + 4) with true by lia.
  rewrite andb_true_r. reflexivity.
Qed.

(** The register while a call runs: read/write low, backlight [light]. *)
Definition reg_ok (light : bool) (r : Z) : Prop :=
  0 <= r < 256 /\ Z.testbit r 1 = false /\ Z.testbit r 3 = light.
(** A call: it sends bytes that deliver the nibbles, and ends with the lines of the register. *)
Definition i2c_does (iw : Z) (light : bool) (r : Z) (res : option (Z * list Z)) (ns : list (bool * Z)) (rs' light' : bool) : Prop :=
  exists r' tr, res = Some (r', tr) /\ reg_ok light' r' /\ Forall (reg_ok light') tr /\
    rs (i2c_lines r') = rs' /\
    delivers (i2c_lines r) (map i2c_lines tr) ns (i2c_lines r').

Section I.
Variable iw : Z.
Hypothesis iw8 : 8 <= iw.

Ltac bit H k := let E := fresh in pose proof (H k ltac:(lia)) as E; cbn in E.

Lemma i2c_write4_l : forall light r n, reg_ok light r -> Z.testbit r 2 = true -> 0 <= n < 256 ->
  i2c_does iw light r (i2c_write4 iw r n) [(Z.testbit r 0, n mod 16)] (Z.testbit r 0) light /\
  forall r' tr, i2c_write4 iw r n = Some (r', tr) -> Z.testbit r' 2 = true.
Proof.
  intros light r n (R & R1 & R3) R2 Hn. unfold i2c_write4, i2c_pulse.
  destruct (ba_field_ok iw r n iw8 R Hn) as (a & Ea & Ra & Ta). rewrite Ea. cbn [bindo fst snd].
  destruct (ba_reset_ok iw 8 a 2 ltac:(lia) ltac:(lia) ltac:(lia)) as (b & Eb & Rb & Tb). rewrite Eb. cbn [bindo fst snd].
  destruct (ba_set_ok iw 8 b 2 ltac:(lia) ltac:(lia) ltac:(lia)) as (c & Ec & Rc & Tc). rewrite Ec. cbn [bindo fst snd].
  assert (La : i2c_lines a = with_data (i2c_lines r) n).
  { unfold i2c_lines, with_data. cbn [rs en]. rewrite !Ta by lia. reflexivity. }
  assert (Lb : i2c_lines b = set_en (i2c_lines a) false).
  { unfold i2c_lines, set_en. cbn [rs en d4 d5 d6 d7]. rewrite !Tb by lia. reflexivity. }
  assert (Lc : i2c_lines c = set_en (set_en (i2c_lines a) false) true).
  { rewrite <- Lb. unfold i2c_lines, set_en. cbn [rs en d4 d5 d6 d7]. rewrite !Tc by lia. reflexivity. }
  assert (Ea2 : en (i2c_lines a) = true) by (rewrite La; exact R2).
  assert (Ka : reg_ok light a) by (split; [lia|]; rewrite !Ta by lia; auto).
  assert (Kb : reg_ok light b) by (destruct Ka as (? & ? & ?); split; [lia|]; rewrite !Tb by lia; auto).
  assert (Kc : reg_ok light c) by (destruct Kb as (? & ? & ?); split; [lia|]; rewrite !Tc by lia; auto).
  assert (Lca : i2c_lines c = i2c_lines a).
  { rewrite Lc. revert Ea2. generalize (i2c_lines a). intros [] E; cbn in *; subst; reflexivity. }
  split; [|intros r' tr E; injection E as <- <-; rewrite Tc by lia; reflexivity].
  exists c, [a; b; c]. split; [reflexivity|]. split; [exact Kc|]. split; [auto|].
  split; [rewrite Lca, La; reflexivity|].
  cbn [map]. rewrite Lc at 1. rewrite Lb. rewrite Lca.
  change [i2c_lines a; set_en (i2c_lines a) false; set_en (set_en (i2c_lines a) false) true] with
    ([i2c_lines a] ++ [set_en (i2c_lines a) false; set_en (set_en (i2c_lines a) false) true]).
  replace [(Z.testbit r 0, n mod 16)] with ([] ++ [(rs (i2c_lines a), nibble (i2c_lines a))])
    by (rewrite La, nibble_with_data; reflexivity).
  eapply delivers_app; [apply delivers_high; exact Ea2|]. apply delivers_pulse. exact Ea2.
Qed.

Lemma i2c_write8_l : forall light r b, reg_ok light r -> Z.testbit r 2 = true -> 0 <= b < 256 ->
  exists r' tr, i2c_write8 iw r b = Some (r', tr) /\ reg_ok light r' /\ Forall (reg_ok light) tr /\
    Z.testbit r' 0 = Z.testbit r 0 /\ Z.testbit r' 2 = true /\
    delivers (i2c_lines r) (map i2c_lines tr) [(Z.testbit r 0, b / 16); (Z.testbit r 0, b mod 16)] (i2c_lines r').
Proof.
  intros light r b K R2 Hb. unfold i2c_write8.
  assert (Hs : 0 <= Z.shiftr b 4 < 256) by (rewrite Z.shiftr_div_pow2 by lia; change (2 ^ 4) with 16; lia).
  destruct (i2c_write4_l light r (Z.shiftr b 4) K R2 Hs) as [(r1 & t1 & E1 & K1 & F1 & RS1 & D1) EN1].
  specialize (EN1 r1 t1 E1). rewrite E1. cbn [bindo fst snd].
  destruct (i2c_write4_l light r1 b K1 EN1 Hb) as [(r2 & t2 & E2 & K2 & F2 & RS2 & D2) EN2].
  specialize (EN2 r2 t2 E2). rewrite E2. cbn [bindo fst snd].
  cbn [i2c_lines rs] in RS1, RS2.
  exists r2, (t1 ++ t2). split; [reflexivity|]. split; [exact K2|]. split; [apply Forall_app; auto|].
  split; [congruence|]. split; [exact EN2|].
  rewrite map_app. pose proof (delivers_app _ _ _ _ _ _ _ D1 D2) as D. cbn [app] in D.
  rewrite RS1 in D.
  replace (Z.shiftr b 4 mod 16) with (b / 16) in D; [exact D|].
  rewrite Z.shiftr_div_pow2 by lia. change (2 ^ 4) with 16. symmetry. apply Z.mod_small. lia.
Qed.

Lemma i2c_clear_l : forall light r, reg_ok light r -> Z.testbit r 2 = true ->
  exists c, i2c_clear iw r = Some c /\ reg_ok light c /\ Z.testbit c 2 = true /\ Z.testbit c 0 = Z.testbit r 0.
Proof.
  intros light r (R & R1 & R3) R2. unfold i2c_clear.
  destruct (ba_field_ok iw r 0 iw8 R ltac:(lia)) as (c & E & Rc & T). rewrite E. cbn [bindo fst].
  exists c. split; [reflexivity|]. unfold reg_ok. rewrite !T by lia. auto.
Qed.

Lemma i2c_op_l : forall light r o, reg_ok light r -> Z.testbit r 2 = true -> iop_ok o ->
  exists r' tr, i2c_op iw r o = Some (r', tr) /\ reg_ok (light_after light o) r' /\
    Forall (reg_ok (light_after light o)) tr /\
    Z.testbit r' 0 = irs_after (Z.testbit r 0) o /\ Z.testbit r' 2 = true /\
    forall l, delivers l (map i2c_lines tr) (inibs (Z.testbit r 0) o) (i2c_lines r').
Proof.
  intros light r o K R2 Ho.
  assert (Any : forall l c tr ns r', Z.testbit c 2 = true -> delivers (i2c_lines c) (map i2c_lines tr) ns (i2c_lines r') ->
    delivers l (map i2c_lines (c :: tr)) ns (i2c_lines r')).
  { intros l c tr ns r' C D. cbn [map]. change (i2c_lines c :: map i2c_lines tr) with ([i2c_lines c] ++ map i2c_lines tr).
    apply (delivers_app l _ [] (i2c_lines c)); [apply delivers_high; exact C|exact D]. }
  destruct o as [[b|b|n]|v]; cbn [i2c_op light_after irs_after rs_after inibs nibs iop_ok dop_ok] in *.
  - pose proof K as (R & R1 & R3).
    destruct (ba_reset_ok iw 8 r 0 ltac:(lia) ltac:(lia) ltac:(lia)) as (a & Ea & Ra & Ta). rewrite Ea. cbn [bindo fst].
    assert (Ka : reg_ok light a) by (split; [lia|]; rewrite !Ta by lia; auto).
    assert (A2 : Z.testbit a 2 = true) by (rewrite Ta by lia; exact R2).
    destruct (i2c_clear_l light a Ka A2) as (c & Ec & Kc & C2 & C0). rewrite Ec. cbn [bindo].
    destruct (i2c_write8_l light c b Kc C2 Ho) as (r' & tr & E & K' & F & Z0 & Z2 & D). rewrite E. cbn [bindo fst snd].
    assert (C0' : Z.testbit c 0 = false) by (rewrite C0, Ta by lia; reflexivity). rewrite C0' in *.
    exists r', (c :: tr). split; [reflexivity|]. split; [exact K'|]. split; [constructor; assumption|].
    split; [exact Z0|]. split; [exact Z2|]. intros l. apply Any; assumption.
  - pose proof K as (R & R1 & R3).
    destruct (ba_set_ok iw 8 r 0 ltac:(lia) ltac:(lia) ltac:(lia)) as (a & Ea & Ra & Ta). rewrite Ea. cbn [bindo fst].
    assert (Ka : reg_ok light a) by (split; [lia|]; rewrite !Ta by lia; auto).
    assert (A2 : Z.testbit a 2 = true) by (rewrite Ta by lia; exact R2).
    destruct (i2c_clear_l light a Ka A2) as (c & Ec & Kc & C2 & C0). rewrite Ec. cbn [bindo].
    destruct (i2c_write8_l light c b Kc C2 Ho) as (r' & tr & E & K' & F & Z0 & Z2 & D). rewrite E. cbn [bindo fst snd].
    assert (C0' : Z.testbit c 0 = true) by (rewrite C0, Ta by lia; reflexivity). rewrite C0' in *.
    exists r', (c :: tr). split; [reflexivity|]. split; [exact K'|]. split; [constructor; assumption|].
    split; [exact Z0|]. split; [exact Z2|]. intros l. apply Any; assumption.
  - pose proof K as (R & R1 & R3). unfold i2c_write4, i2c_pulse.
    destruct (i2c_write4_l light r n K R2 Ho) as [(r1 & t1 & E1 & K1 & F1 & RS1 & D1) EN1].
    specialize (EN1 r1 t1 E1). unfold i2c_write4, i2c_pulse in E1. rewrite E1.
    exists r1, t1. split; [reflexivity|]. split; [exact K1|]. split; [exact F1|]. split; [exact RS1|]. split; [exact EN1|].
    intros l. revert E1. destruct (ba_field_ok iw r n iw8 R Ho) as (a & Ea & Ra & Ta). rewrite Ea. cbn [bindo fst snd].
    destruct (ba_reset_ok iw 8 a 2 ltac:(lia) ltac:(lia) ltac:(lia)) as (b & Eb & Rb & Tb). rewrite Eb. cbn [bindo fst snd].
    destruct (ba_set_ok iw 8 b 2 ltac:(lia) ltac:(lia) ltac:(lia)) as (c & Ec & Rc & Tc). rewrite Ec. cbn [bindo fst snd].
    intros E1. injection E1 as <- <-.
    assert (A2 : en (i2c_lines a) = true) by (cbn [i2c_lines en]; rewrite Ta by lia; exact R2).
    destruct D1 as (D1 & D2 & D3 & D4). split; [exact D1|]. cbn [map] in *. split.
    + cbn [setup] in *. destruct D2 as [_ D2]. split; [intros _ F; congruence|exact D2].
    + split; [exact D3|]. intros m. specialize (D4 m). cbn [watch] in D4 |- *. rewrite A2 in *. cbn [negb] in *. rewrite andb_false_r in *.
      exact D4.
  - destruct K as (R & R1 & R3).
    destruct (ba_put_ok iw 8 r 3 v ltac:(lia) ltac:(lia) ltac:(lia)) as (a & Ea & Ra & Ta). rewrite Ea. cbn [bindo fst].
    assert (Ka : reg_ok v a) by (split; [lia|]; rewrite !Ta by lia; auto).
    assert (A2 : Z.testbit a 2 = true) by (rewrite Ta by lia; exact R2).
    destruct (i2c_clear_l v a Ka A2) as (c & Ec & Kc & C2 & C0). rewrite Ec. cbn [bindo].
    exists c, [c]. split; [reflexivity|]. split; [exact Kc|]. split; [auto|].
    split; [rewrite C0, Ta by lia; reflexivity|]. split; [exact C2|]. intros l. apply delivers_high. exact C2.
Qed.

Lemma i2c_run_d : forall os light r, reg_ok light r -> Z.testbit r 2 = true -> Forall iop_ok os ->
  exists r' tr, i2c_run iw r os = Some (r', tr) /\ reg_ok (final_light light os) r' /\
    Forall (fun b => 0 <= b < 256 /\ Z.testbit b 1 = false) tr /\ Z.testbit r' 2 = true /\
    (os <> [] -> forall l, delivers l (map i2c_lines tr) (all_inibs (Z.testbit r 0) os) (i2c_lines r')).
Proof.
  induction os as [|o os IH]; intros light r K R2 F; cbn [i2c_run all_inibs].
  - exists r, []. split; [reflexivity|]. split; [exact K|]. split; [constructor|]. split; [exact R2|]. congruence.
  - inversion F; subst. destruct (i2c_op_l light r o K R2 H1) as (r1 & t1 & E1 & K1 & F1 & S1 & EN1 & D1).
    rewrite E1. cbn [bindo fst snd].
    destruct (IH (light_after light o) r1 K1 EN1 H2) as (r2 & t2 & E2 & K2 & F2 & EN2 & D2). rewrite E2. cbn [bindo fst snd].
    exists r2, (t1 ++ t2). split; [reflexivity|]. split; [exact K2|]. split.
    { apply Forall_app. split; [|exact F2]. eapply Forall_impl; [|exact F1]. intros b (A & B & _). auto. }
    split; [exact EN2|]. intros _ l. rewrite map_app, <- S1. destruct os as [|o2 os].
    + cbn [i2c_run] in E2. injection E2 as <- <-. cbn [map all_inibs]. rewrite !app_nil_r. apply D1.
    + eapply delivers_app; [apply D1|]. apply D2. discriminate.
Qed.
End I.

(** ** Shift register driver *)
Section W3.
Variables (iw w : Z) (ix : indices).
Hypothesis Hw : 1 <= w <= iw.
Hypothesis Hin : Forall (fun i => 0 <= i < w) (index_list ix).
Hypothesis Hdup : NoDup (index_list ix).

Lemma dist : irs ix <> ien ix /\ irs ix <> i4 ix /\ irs ix <> i5 ix /\ irs ix <> i6 ix /\ irs ix <> i7 ix /\
  ien ix <> i4 ix /\ ien ix <> i5 ix /\ ien ix <> i6 ix /\ ien ix <> i7 ix /\
  i4 ix <> i5 ix /\ i4 ix <> i6 ix /\ i4 ix <> i7 ix /\ i5 ix <> i6 ix /\ i5 ix <> i7 ix /\ i6 ix <> i7 ix.
Proof.
  unfold index_list in Hdup. repeat match goal with H : NoDup (_ :: _) |- _ => inversion H; clear H; subst end.
  cbn [In] in *. repeat split; intros E; tauto || (rewrite E in *; tauto).
Qed.
Lemma inr : 0 <= irs ix < w /\ 0 <= ien ix < w /\ 0 <= i4 ix < w /\ 0 <= i5 ix < w /\ 0 <= i6 ix < w /\ 0 <= i7 ix < w.
Proof.
  unfold index_list in Hin. repeat match goal with H : Forall _ (_ :: _) |- _ => inversion H; clear H; subst end. tauto.
Qed.

Local Notation others := (HdSpec.others w ix).
Lemma others_refl : forall r, others r r. Proof. intros r j _ _. reflexivity. Qed.
Lemma others_trans : forall a b c, others a b -> others b c -> others a c.
Proof. intros a b c A B j Hj N. rewrite B by assumption. apply A; assumption. Qed.

Lemma put_l : forall r i v, 0 <= r < 2 ^ w -> In i (index_list ix) ->
  exists r', put iw w r i v = Some r' /\ 0 <= r' < 2 ^ w /\ others r r' /\
    forall j, 0 <= j < w -> Z.testbit r' j = if j =? i then v else Z.testbit r j.
Proof.
  intros r i v Hr Hi. assert (0 <= i < w) by (rewrite Forall_forall in Hin; apply Hin; exact Hi).
  unfold put. destruct (ba_put_ok iw w r i v Hw Hr H) as (r' & E & R & T). rewrite E. cbn [bindo fst].
  exists r'. split; [reflexivity|]. split; [exact R|]. split; [|exact T].
  intros j Hj N. rewrite T by exact Hj. destruct (Z.eqb_spec j i); [subst; contradiction|reflexivity].
Qed.

Ltac fields T := unfold w3_lines;
  destruct dist as (? & ? & ? & ? & ? & ? & ? & ? & ? & ? & ? & ? & ? & ? & ?); destruct inr as (? & ? & ? & ? & ? & ?);
  cbn [rs en d4 d5 d6 d7 set_rs set_en set_d4 set_d5 set_d6 set_d7];
  rewrite !T by assumption; rewrite ?Z.eqb_refl;
  repeat match goal with
  | H : ?a <> ?b |- context [?a =? ?b] => rewrite (proj2 (Z.eqb_neq a b) H)
  | H : ?a <> ?b |- context [?b =? ?a] => rewrite (proj2 (Z.eqb_neq b a) (not_eq_sym H))
  end; reflexivity.

Lemma put_rs : forall r v, 0 <= r < 2 ^ w -> exists r', put iw w r (irs ix) v = Some r' /\ 0 <= r' < 2 ^ w /\ others r r' /\
  w3_lines ix r' = set_rs (w3_lines ix r) v.
Proof. intros r v H. destruct (put_l r (irs ix) v H) as (r' & E & R & O & T); [cbn; tauto|]. exists r'. split; [exact E|]. split; [exact R|]. split; [exact O|]. fields T. Qed.
Lemma put_en : forall r v, 0 <= r < 2 ^ w -> exists r', put iw w r (ien ix) v = Some r' /\ 0 <= r' < 2 ^ w /\ others r r' /\
  w3_lines ix r' = set_en (w3_lines ix r) v.
Proof. intros r v H. destruct (put_l r (ien ix) v H) as (r' & E & R & O & T); [cbn; tauto|]. exists r'. split; [exact E|]. split; [exact R|]. split; [exact O|]. fields T. Qed.
Lemma put_4 : forall r v, 0 <= r < 2 ^ w -> exists r', put iw w r (i4 ix) v = Some r' /\ 0 <= r' < 2 ^ w /\ others r r' /\
  w3_lines ix r' = set_d4 (w3_lines ix r) v.
Proof. intros r v H. destruct (put_l r (i4 ix) v H) as (r' & E & R & O & T); [cbn; tauto|]. exists r'. split; [exact E|]. split; [exact R|]. split; [exact O|]. fields T. Qed.
Lemma put_5 : forall r v, 0 <= r < 2 ^ w -> exists r', put iw w r (i5 ix) v = Some r' /\ 0 <= r' < 2 ^ w /\ others r r' /\
  w3_lines ix r' = set_d5 (w3_lines ix r) v.
Proof. intros r v H. destruct (put_l r (i5 ix) v H) as (r' & E & R & O & T); [cbn; tauto|]. exists r'. split; [exact E|]. split; [exact R|]. split; [exact O|]. fields T. Qed.
Lemma put_6 : forall r v, 0 <= r < 2 ^ w -> exists r', put iw w r (i6 ix) v = Some r' /\ 0 <= r' < 2 ^ w /\ others r r' /\
  w3_lines ix r' = set_d6 (w3_lines ix r) v.
Proof. intros r v H. destruct (put_l r (i6 ix) v H) as (r' & E & R & O & T); [cbn; tauto|]. exists r'. split; [exact E|]. split; [exact R|]. split; [exact O|]. fields T. Qed.
Lemma put_7 : forall r v, 0 <= r < 2 ^ w -> exists r', put iw w r (i7 ix) v = Some r' /\ 0 <= r' < 2 ^ w /\ others r r' /\
  w3_lines ix r' = set_d7 (w3_lines ix r) v.
Proof. intros r v H. destruct (put_l r (i7 ix) v H) as (r' & E & R & O & T); [cbn; tauto|]. exists r'. split; [exact E|]. split; [exact R|]. split; [exact O|]. fields T. Qed.

Definition w3_does (r : Z) (res : option (Z * list Z)) (ns : list (bool * Z)) (r' : Z) : Prop :=
  exists tr, res = Some (r', tr) /\ 0 <= r' < 2 ^ w /\ others r r' /\ Forall (others r) tr /\
    delivers (w3_lines ix r) (map (w3_lines ix) tr) ns (w3_lines ix r').

Lemma w3_write4_l : forall r n, 0 <= r < 2 ^ w -> en (w3_lines ix r) = true ->
  exists r', w3_does r (w3_write4 iw w ix r n) [(rs (w3_lines ix r), n mod 16)] r' /\ rs (w3_lines ix r') = rs (w3_lines ix r).
Proof.
  intros r n Hr He. unfold w3_write4. rewrite nz1, nz2, nz4, nz8.
  destruct (put_4 r (Z.testbit n 0) Hr) as (a & Ea & Ra & Oa & La). rewrite Ea. cbn [bindo].
  destruct (put_5 a (Z.testbit n 1) Ra) as (b & Eb & Rb & Ob & Lb). rewrite Eb. cbn [bindo].
  destruct (put_6 b (Z.testbit n 2) Rb) as (c & Ec & Rc & Oc & Lc). rewrite Ec. cbn [bindo].
  destruct (put_7 c (Z.testbit n 3) Rc) as (d & Ed & Rd & Od & Ld). rewrite Ed. cbn [bindo].
  destruct (put_en d false Rd) as (e & Ee & Re & Oe & Le). rewrite Ee. cbn [bindo].
  destruct (put_en e true Re) as (f & Ef & Rf & Of & Lf). rewrite Ef. cbn [bindo].
  assert (D : w3_lines ix d = with_data (w3_lines ix r) n) by (rewrite Ld, Lc, Lb, La; reflexivity).
  assert (Ed2 : en (w3_lines ix d) = true) by (rewrite D; exact He).
  assert (Fd : w3_lines ix f = w3_lines ix d).
  { rewrite Lf, Le. revert Ed2. generalize (w3_lines ix d). intros [] E; cbn in *; subst; reflexivity. }
  assert (Od' : others r d) by (eapply others_trans; [exact Oa|]; eapply others_trans; [exact Ob|]; eapply others_trans; eassumption).
  assert (Oe' : others r e) by (eapply others_trans; eassumption).
  assert (Of' : others r f) by (eapply others_trans; eassumption).
  exists f. split.
  - exists [d; e; f]. split; [reflexivity|]. split; [exact Rf|]. split; [exact Of'|]. split; [auto|].
    cbn [map]. rewrite Lf at 1. rewrite Le. rewrite Fd.
    change [w3_lines ix d; set_en (w3_lines ix d) false; set_en (set_en (w3_lines ix d) false) true] with
      ([w3_lines ix d] ++ [set_en (w3_lines ix d) false; set_en (set_en (w3_lines ix d) false) true]).
    replace [(rs (w3_lines ix r), n mod 16)] with ([] ++ [(rs (w3_lines ix d), nibble (w3_lines ix d))])
      by (rewrite D, nibble_with_data; reflexivity).
    eapply delivers_app; [apply delivers_high; exact Ed2|]. apply delivers_pulse. exact Ed2.
  - rewrite Fd, D. reflexivity.
Qed.

Lemma w3_write8_l : forall r b, 0 <= r < 2 ^ w -> en (w3_lines ix r) = true -> 0 <= b < 256 ->
  exists r', w3_does r (w3_write8 iw w ix r b) [(rs (w3_lines ix r), b / 16); (rs (w3_lines ix r), b mod 16)] r' /\
    rs (w3_lines ix r') = rs (w3_lines ix r).
Proof.
  intros r b Hr He Hb. unfold w3_write8.
  destruct (w3_write4_l r (Z.shiftr b 4) Hr He) as (r1 & (t1 & E1 & R1 & O1 & F1 & D1) & S1). rewrite E1. cbn [bindo fst snd].
  pose proof D1 as (He1 & _).
  destruct (w3_write4_l r1 b R1 He1) as (r2 & (t2 & E2 & R2 & O2 & F2 & D2) & S2). rewrite E2. cbn [bindo fst snd].
  exists r2. split; [|congruence]. exists (t1 ++ t2). split; [reflexivity|]. split; [exact R2|].
  split; [eapply others_trans; eassumption|]. split.
  { apply Forall_app. split; [exact F1|]. eapply Forall_impl; [|exact F2]. intros z Hz. eapply others_trans; eassumption. }
  rewrite map_app. pose proof (delivers_app _ _ _ _ _ _ _ D1 D2) as D. cbn [app] in D. rewrite S1 in D.
  replace (Z.shiftr b 4 mod 16) with (b / 16) in D; [exact D|].
  rewrite Z.shiftr_div_pow2 by lia. change (2 ^ 4) with 16. symmetry. apply Z.mod_small. lia.
Qed.

Lemma w3_op_l : forall r o, 0 <= r < 2 ^ w -> en (w3_lines ix r) = true -> dop_ok o ->
  exists r' tr, w3_op iw w ix r o = Some (r', tr) /\ 0 <= r' < 2 ^ w /\ others r r' /\ Forall (others r) tr /\
    delivers (w3_lines ix r) (map (w3_lines ix) tr) (nibs (rs (w3_lines ix r)) o) (w3_lines ix r') /\
    rs (w3_lines ix r') = rs_after (rs (w3_lines ix r)) o.
Proof.
  intros r o Hr He Ho.
  assert (RS : forall v b, 0 <= b < 256 -> exists r' tr, bindo (put iw w r (irs ix) v) (fun r => w3_write8 iw w ix r b) = Some (r', tr) /\
    0 <= r' < 2 ^ w /\ others r r' /\ Forall (others r) tr /\
    delivers (w3_lines ix r) (map (w3_lines ix) tr) [(v, b / 16); (v, b mod 16)] (w3_lines ix r') /\ rs (w3_lines ix r') = v).
  { intros v b Hb. destruct (put_rs r v Hr) as (a & Ea & Ra & Oa & La). rewrite Ea. cbn [bindo].
    assert (Ha : en (w3_lines ix a) = true) by (rewrite La; exact He).
    assert (Sa : rs (w3_lines ix a) = v) by (rewrite La; reflexivity).
    destruct (w3_write8_l a b Ra Ha Hb) as (r' & (tr & E & R & O & F & D) & S). rewrite E. rewrite Sa in *.
    exists r', tr. split; [reflexivity|]. split; [exact R|]. split; [eapply others_trans; eassumption|].
    split; [eapply Forall_impl; [|exact F]; intros z Hz; eapply others_trans; eassumption|]. split; [|exact S].
    (* the first register written has enable high, so the starting lines may differ in RS *)
    assert (T : exists x tl, tr = x :: tl /\ en (w3_lines ix x) = true).
    { revert E. unfold w3_write8, w3_write4. rewrite nz1, nz2, nz4, nz8.
      destruct (put_4 a (Z.testbit (Z.shiftr b 4) 0) Ra) as (a1 & Q1 & R1 & _ & L1). rewrite Q1. cbn [bindo].
      destruct (put_5 a1 (Z.testbit (Z.shiftr b 4) 1) R1) as (a2 & Q2 & R2 & _ & L2). rewrite Q2. cbn [bindo].
      destruct (put_6 a2 (Z.testbit (Z.shiftr b 4) 2) R2) as (a3 & Q3 & R3 & _ & L3). rewrite Q3. cbn [bindo].
      destruct (put_7 a3 (Z.testbit (Z.shiftr b 4) 3) R3) as (a4 & Q4 & R4 & _ & L4). rewrite Q4. cbn [bindo].
      destruct (put_en a4 false R4) as (a5 & Q5 & R5 & _ & L5). rewrite Q5. cbn [bindo].
      destruct (put_en a5 true R5) as (a6 & Q6 & R6 & _ & L6). rewrite Q6. cbn [bindo fst snd].
      match goal with |- bindo ?m _ = _ -> _ => destruct m as [[? ?]|]; cbn [bindo fst snd]; [|discriminate] end.
      intros E. injection E as _ <-. exists a4. eexists. split; [reflexivity|]. rewrite L4, L3, L2, L1. exact Ha. }
    destruct T as (x & tl & -> & Ex). destruct D as (D1 & D2 & D3 & D4). cbn [map] in *.
    split; [exact D1|]. split.
    - cbn [setup] in *. destruct D2 as [_ D2]. split; [intros _ X; congruence|exact D2].
    - split; [rewrite <- D3; apply last_cons_any|]. intros m. specialize (D4 m). cbn [watch] in *. rewrite Ex in *. cbn [negb] in *. rewrite andb_false_r in *. exact D4. }
  destruct o as [b|b|n]; cbn [w3_op nibs rs_after dop_ok] in *.
  - apply RS. exact Ho.
  - apply RS. exact Ho.
  - destruct (w3_write4_l r n Hr He) as (r' & (tr & E & R & O & F & D) & S). exists r', tr. rewrite E. repeat split; auto; try lia; apply D.
Qed.

Lemma w3_run_d : forall os r, 0 <= r < 2 ^ w -> en (w3_lines ix r) = true -> Forall dop_ok os ->
  exists r' tr, w3_run iw w ix r os = Some (r', tr) /\ 0 <= r' < 2 ^ w /\ others r r' /\ Forall (others r) tr /\
    delivers (w3_lines ix r) (map (w3_lines ix) tr) (all_nibs (rs (w3_lines ix r)) os) (w3_lines ix r').
Proof.
  induction os as [|o os IH]; intros r Hr He F; cbn [w3_run all_nibs].
  - exists r, []. split; [reflexivity|]. split; [exact Hr|]. split; [apply others_refl|]. split; [constructor|]. apply delivers_nil. exact He.
  - inversion F; subst. destruct (w3_op_l r o Hr He H1) as (r1 & t1 & E1 & R1 & O1 & F1 & D1 & S1). rewrite E1. cbn [bindo fst snd].
    pose proof D1 as (He1 & _).
    destruct (IH r1 R1 He1 H2) as (r2 & t2 & E2 & R2 & O2 & F2 & D2). rewrite E2. cbn [bindo fst snd].
    exists r2, (t1 ++ t2). split; [reflexivity|]. split; [exact R2|]. split; [eapply others_trans; eassumption|]. split.
    { apply Forall_app. split; [exact F1|]. eapply Forall_impl; [|exact F2]. intros z Hz. eapply others_trans; eassumption. }
    rewrite map_app, <- S1. eapply delivers_app; eassumption.
Qed.

Lemma w3_attach_l : forall r, 0 <= r < 2 ^ w -> exists r', w3_attach iw w ix r = Some (r', [r']) /\ 0 <= r' < 2 ^ w /\ others r r' /\
  w3_lines ix r' = {| rs := false; en := true; d4 := false; d5 := false; d6 := false; d7 := false |}.
Proof.
  intros r Hr. unfold w3_attach.
  destruct (put_rs r false Hr) as (a1 & Q1 & R1 & O1 & L1). rewrite Q1. cbn [bindo].
  destruct (put_en a1 true R1) as (a2 & Q2 & R2 & O2 & L2). rewrite Q2. cbn [bindo].
  destruct (put_4 a2 false R2) as (a3 & Q3 & R3 & O3 & L3). rewrite Q3. cbn [bindo].
  destruct (put_5 a3 false R3) as (a4 & Q4 & R4 & O4 & L4). rewrite Q4. cbn [bindo].
  destruct (put_6 a4 false R4) as (a5 & Q5 & R5 & O5 & L5). rewrite Q5. cbn [bindo].
  destruct (put_7 a5 false R5) as (a6 & Q6 & R6 & O6 & L6). rewrite Q6. cbn [bindo].
  exists a6. split; [reflexivity|]. split; [exact R6|]. split.
  - repeat (eapply others_trans; [eassumption|]). apply others_refl.
  - rewrite L6, L5, L4, L3, L2, L1. reflexivity.
Qed.
End W3.
End W.
