Require Import ZArith List Bool Lia ZifyBool.
Import ListNotations.
From Verif Require Import Base BaseFacts BitModel HdModel HdSpec HdIfProofs HdProofs HdTimeModel HdTimeSpec HdTimeProofs HdTimeProps.
From Verif Require Import RealModel DelayModel DelaySpec DelayProofs DelayProps HdDelayModel HdDelaySpec.
Open Scope Z_scope.
Ltac Zify.zify_post_hook ::= idtac.

Definition amap {A} (f : Z -> Z) (a : act A) : act A := match a with Put x => Put x | Wait t => Wait (f t) end.
Definition tmap (f : Z -> Z) (o : top) : top := match o with TOp o => TOp o | TWait t => TWait (f t) end.
Definition omap {A B} (g : list A -> list A) (x : option (B * list A)) : option (B * list A) :=
  match x with Some (b, l) => Some (b, g l) | None => None end.

Section Map.
Variables (p q : profile) (f : Z -> Z).
Hypothesis E1 : p_init_long q = f (p_init_long p).
Hypothesis E2 : p_init q = f (p_init p).
Hypothesis E3 : p_init_short q = f (p_init_short p).
Hypothesis E4 : p_command q = f (p_command p).
Hypothesis E5 : p_command_long q = f (p_command_long p).
Hypothesis E6 : p_pulse q = f (p_pulse p).

(** ** The drivers. *)
Lemma par4_map : forall l d, t_par_write4 q l d = (fst (t_par_write4 p l d), map (amap f) (snd (t_par_write4 p l d))).
Proof. intros l d. unfold t_par_write4. cbn [fst snd map amap]. rewrite E6. reflexivity. Qed.
Lemma par8_map : forall l d, t_par_write8 q l d = (fst (t_par_write8 p l d), map (amap f) (snd (t_par_write8 p l d))).
Proof.
  intros l d. unfold t_par_write8. rewrite par4_map. destruct (t_par_write4 p l (Z.shiftr d 4)) as [l1 t1]. cbn [fst snd]. rewrite par4_map.
  destruct (t_par_write4 p l1 d) as [l2 t2]. cbn [fst snd]. rewrite map_app. reflexivity.
Qed.
Lemma par_op_map : forall l o, t_par_op q l (tmap f o) = (fst (t_par_op p l o), map (amap f) (snd (t_par_op p l o))).
Proof.
  intros l [[b|b|n]|t]; cbn [tmap t_par_op]; cbv zeta; [| |apply par4_map|reflexivity]; rewrite par8_map; [set (x := t_par_write8 p _ b)|set (x := t_par_write8 p _ b)]; destruct x; reflexivity.
Qed.
Lemma par_run_map : forall os l, t_par_run q l (map (tmap f) os) = (fst (t_par_run p l os), map (amap f) (snd (t_par_run p l os))).
Proof.
  induction os as [|o os IH]; intros l; [reflexivity|]. cbn [map t_par_run]. rewrite par_op_map. destruct (t_par_op p l o) as [l1 t1]. cbn [fst snd].
  rewrite IH. destruct (t_par_run p l1 os) as [l2 t2]. cbn [fst snd]. rewrite map_app. reflexivity.
Qed.

Lemma bind2_map : forall (B C : Type) (x : option (B * list (act Z))) (k k' : B -> option (C * list (act Z))),
  (forall b, k' b = omap (map (amap f)) (k b)) ->
  bindo (omap (map (amap f)) x) (fun a => bindo (k' (fst a)) (fun b => Some (fst b, snd a ++ snd b))) =
  omap (map (amap f)) (bindo x (fun a => bindo (k (fst a)) (fun b => Some (fst b, snd a ++ snd b)))).
Proof.
  intros B C [[b l]|] k k' H; [|reflexivity]. cbn [omap bindo fst snd]. rewrite H. destruct (k b) as [[c l2]|]; [|reflexivity].
  cbn [omap bindo fst snd]. rewrite map_app. reflexivity.
Qed.
Lemma i2c4_map : forall iw r d, t_i2c_write4 q iw r d = omap (map (amap f)) (t_i2c_write4 p iw r d).
Proof.
  intros iw r d. unfold t_i2c_write4. destruct (ba_set_field iw 8 r 4 d 4) as [a|]; [|reflexivity]. cbn [bindo].
  destruct (ba_reset iw 8 (fst a) 2) as [b|]; [|reflexivity]. cbn [bindo]. destruct (ba_set iw 8 (fst b) 2) as [c|]; [|reflexivity].
  cbn [bindo omap map amap]. rewrite E6. reflexivity.
Qed.
Lemma i2c8_map : forall iw r d, t_i2c_write8 q iw r d = omap (map (amap f)) (t_i2c_write8 p iw r d).
Proof. intros iw r d. unfold t_i2c_write8. rewrite i2c4_map. exact (bind2_map Z Z _ (fun b => t_i2c_write4 p iw b d) (fun b => t_i2c_write4 q iw b d) (fun b => i2c4_map iw b d)). Qed.
Lemma i2c_op_map : forall iw r o, t_i2c_op q iw r (tmap f o) = omap (map (amap f)) (t_i2c_op p iw r o).
Proof.
  intros iw r [[b|b|n]|t]; cbn [tmap t_i2c_op]; [| |apply i2c4_map|reflexivity].
  - destruct (ba_reset iw 8 r 0) as [a|]; [|reflexivity]. cbn [bindo]. destruct (i2c_clear iw (fst a)) as [c|]; [|reflexivity]. cbn [bindo].
    rewrite i2c8_map. destruct (t_i2c_write8 p iw c b) as [[x y]|]; reflexivity.
  - destruct (ba_set iw 8 r 0) as [a|]; [|reflexivity]. cbn [bindo]. destruct (i2c_clear iw (fst a)) as [c|]; [|reflexivity]. cbn [bindo].
    rewrite i2c8_map. destruct (t_i2c_write8 p iw c b) as [[x y]|]; reflexivity.
Qed.
Lemma i2c_run_map : forall iw os r, t_i2c_run q iw r (map (tmap f) os) = omap (map (amap f)) (t_i2c_run p iw r os).
Proof. intros iw. induction os as [|o os IH]; intros r; [reflexivity|]. cbn [map t_i2c_run]. rewrite i2c_op_map. exact (bind2_map Z Z _ (fun b => t_i2c_run p iw b os) (fun b => t_i2c_run q iw b (map (tmap f) os)) IH). Qed.
Lemma w34_map : forall iw w ix r d, t_w3_write4 q iw w ix r d = omap (map (amap f)) (t_w3_write4 p iw w ix r d).
Proof.
  intros iw w ix r d. unfold t_w3_write4. do 6 (match goal with |- bindo ?x _ = _ => destruct x; [cbn [bindo]|reflexivity] end).
  cbn [omap map amap]. rewrite E6. reflexivity.
Qed.
Lemma w38_map : forall iw w ix r d, t_w3_write8 q iw w ix r d = omap (map (amap f)) (t_w3_write8 p iw w ix r d).
Proof. intros iw w ix r d. unfold t_w3_write8. rewrite w34_map. exact (bind2_map Z Z _ (fun b => t_w3_write4 p iw w ix b d) (fun b => t_w3_write4 q iw w ix b d) (fun b => w34_map iw w ix b d)). Qed.
Lemma w3_op_map : forall iw w ix r o, t_w3_op q iw w ix r (tmap f o) = omap (map (amap f)) (t_w3_op p iw w ix r o).
Proof.
  intros iw w ix r [[b|b|n]|t]; cbn [tmap t_w3_op]; [| |apply w34_map|reflexivity].
  - destruct (put iw w r (irs ix) false); [cbn [bindo]; apply w38_map|reflexivity].
  - destruct (put iw w r (irs ix) true); [cbn [bindo]; apply w38_map|reflexivity].
Qed.
Lemma w3_run_map : forall iw w ix os r, t_w3_run q iw w ix r (map (tmap f) os) = omap (map (amap f)) (t_w3_run p iw w ix r os).
Proof. intros iw w ix. induction os as [|o os IH]; intros r; [reflexivity|]. cbn [map t_w3_run]. rewrite w3_op_map. exact (bind2_map Z Z _ (fun b => t_w3_run p iw w ix b os) (fun b => t_w3_run q iw w ix b (map (tmap f) os)) IH). Qed.

(** ** Controller and view. *)
Lemma clear_map : t_clear q = map (tmap f) (t_clear p). Proof. unfold t_clear. cbn [map tmap]. rewrite E5. reflexivity. Qed.
Lemma home_map : t_home q = map (tmap f) (t_home p). Proof. unfold t_home. cbn [map tmap]. rewrite E5. reflexivity. Qed.
Lemma control_map : forall x, bindo x (t_control q) = omap (map (tmap f)) (bindo x (t_control p)).
Proof. intros [r|]; [|reflexivity]. cbn [bindo]. unfold t_control. cbn [omap map tmap]. rewrite E4. reflexivity. Qed.
Lemma entry_map : forall x, bindo x (t_entry q) = omap (map (tmap f)) (bindo x (t_entry p)).
Proof. intros [r|]; [|reflexivity]. cbn [bindo]. unfold t_entry. cbn [omap map tmap]. rewrite E4. reflexivity. Qed.
Lemma ctl_map : forall iw r o, o <> CInit true -> t_ctl_op q iw r o = omap (map (tmap f)) (t_ctl_op p iw r o).
Proof.
  intros iw r o N. destruct o; cbn [t_ctl_op]; try apply control_map; try apply entry_map;
    try (cbn [omap map tmap]; rewrite ?E4, ?E5, ?clear_map, ?home_map; reflexivity).
  - destruct full; [congruence|]. cbn [omap app]. rewrite map_app, clear_map, home_map. reflexivity.
  - destruct (put8 iw r 0 _) as [a|]; [cbn [bindo]|reflexivity]. destruct (put8 iw a 1 _) as [b0|]; [cbn [bindo]|reflexivity]. apply control_map.
  - destruct (put8 iw r 4 _) as [a|]; [cbn [bindo]|reflexivity]. apply entry_map.
Qed.
Lemma goto_map : forall rows v, t_goto q rows v = option_map (map (tmap f)) (t_goto p rows v).
Proof. intros rows v. unfold t_goto. destruct (calc_address rows (row v) (col v)); [|reflexivity]. cbn [option_map map tmap]. rewrite E4. reflexivity. Qed.
Definition full_start (o : call) : bool := match o with OnView (VInit true) | OnCtl (CInit true) => true | _ => false end.
Lemma call_map : forall iw rows s o, full_start o = false -> t_call q iw rows s o = omap (map (tmap f)) (t_call p iw rows s o).
Proof.
  intros iw rows [r v] o N. destruct o as [o|o]; cbn [t_call].
  - destruct o as [ch|a b| |full]; cbv zeta.
    + destruct (ch =? 10); [|destruct (ch =? 13); [|reflexivity]]; rewrite goto_map; match goal with |- context [t_goto p rows ?v] => destruct (t_goto p rows v) end; reflexivity.
    + rewrite goto_map. match goal with |- context [t_goto p rows ?v] => destruct (t_goto p rows v) end; reflexivity.
    + rewrite home_map. reflexivity.
    + destruct full; [discriminate|]. rewrite ctl_map by discriminate. destruct (t_ctl_op p iw r (CInit false)) as [[x y]|]; reflexivity.
  - rewrite ctl_map; [|intros ->; discriminate]. destruct (t_ctl_op p iw r o) as [[x y]|]; reflexivity.
Qed.
Lemma calls_map : forall iw rows cs s, Forall (fun o => full_start o = false) cs -> t_calls q iw rows s cs = omap (map (tmap f)) (t_calls p iw rows s cs).
Proof.
  intros iw rows. induction cs as [|o cs IH]; intros s F; [reflexivity|]. inversion F; subst. cbn [t_calls]. rewrite call_map by assumption.
  destruct (t_call p iw rows s o) as [[s1 d1]|]; [|reflexivity]. cbn [omap bindo fst snd]. rewrite IH by assumption.
  destruct (t_calls p iw rows s1 cs) as [[s2 d2]|]; [|reflexivity]. cbn [omap bindo fst snd]. rewrite map_app. reflexivity.
Qed.
Lemma ok_no_start : forall o, call_ok o -> full_start o = false.
Proof. intros [[| | |full]|o] H; try reflexivity; cbn in *; [subst; reflexivity|]. destruct H as [H _]. destruct o; try reflexivity. destruct full; [destruct H|reflexivity]. Qed.
Lemma start_map : forall iw rows s cs, Forall call_ok cs ->
  match t_calls p iw rows s (OnView (VInit true) :: cs) with
  | Some (s', os) => exists os0, os = TWait (p_power p) :: os0 /\ t_calls q iw rows s (OnView (VInit true) :: cs) = Some (s', TWait (p_power q) :: map (tmap f) os0)
  | None => t_calls q iw rows s (OnView (VInit true) :: cs) = None
  end.
Proof.
  intros iw rows [r v] cs F. cbn [t_calls t_call]. change (t_ctl_op p iw r (CInit true)) with (Some (r, t_power_up p ++ t_clear p ++ t_home p)).
  change (t_ctl_op q iw r (CInit true)) with (Some (r, t_power_up q ++ t_clear q ++ t_home q)). cbn [bindo fst snd]. rewrite (ctl_map iw r (CEntry true false)) by discriminate.
  destruct (t_ctl_op p iw r (CEntry true false)) as [[r1 d1]|]; [|reflexivity]. cbn [omap bindo fst snd].
  rewrite calls_map; [|eapply Forall_impl; [|exact F]; apply ok_no_start].
  destruct (t_calls p iw rows (r1, v) cs) as [[s2 d2]|]; [|reflexivity]. cbn [omap bindo fst snd].
  eexists. split; [unfold t_power_up; cbn [app]; reflexivity|]. unfold t_power_up. cbn [app map tmap].
  rewrite !map_app. rewrite clear_map, home_map, E1, E2, E3. rewrite <- !app_assoc. reflexivity.
Qed.
End Map.

(** ** Steps with their durations. *)
Definition retime (f : Z -> Z) (tr : list (act lines * Z)) : list (act lines * Z) := map (fun x => (amap f (fst x), snd x)) tr.
Lemma hears_retime : forall f dv lo tr l s, hears dv lo l s (retime f tr) = hears dv lo l s tr.
Proof.
  intros f dv lo. induction tr as [|[a d] tr IH]; intros l s; [reflexivity|]. destruct a as [l'|t]; cbn [retime map amap fst snd hears]; cbv zeta.
  - fold (retime f tr). destruct (en l && negb (en l')); [|apply IH]. destruct (busy (passes s d) >? 0); [reflexivity|].
    destruct (takes dv lo (passes s d) (rs l') (nibble l')) as [s1 t1]. rewrite IH. reflexivity.
  - apply IH.
Qed.
Lemma runs_takes : forall b c acts tr, runs_all b c acts tr -> takes_at_least c (map (amap (us_least b)) acts) (retime (us_least b) tr).
Proof.
  intros b c acts tr [E F]. split.
  - unfold retime. rewrite map_map. cbn [fst]. rewrite <- E, map_map. reflexivity.
  - unfold retime. rewrite Forall_map. eapply Forall_impl; [|exact F]. intros [[l'|t] d] H; exact H.
Qed.
Lemma takes_runs : forall b c acts tr', takes_at_least c (map (amap (us_least b)) acts) tr' -> exists tr, runs_all b c acts tr /\ tr' = retime (us_least b) tr.
Proof.
  intros b c. induction acts as [|a acts IH]; intros tr' [E F]; destruct tr' as [|[a' d] tr']; try discriminate E.
  - exists []. split; [split; [reflexivity|constructor]|reflexivity].
  - cbn [map fst] in E. injection E as E0 E. apply Forall_cons_iff in F as [F0 F]. destruct (IH tr' (conj E F)) as (tr & [R1 R2] & ->).
    exists ((a, d) :: tr). split; [split; [cbn [map fst]; rewrite R1; reflexivity|constructor; [|exact R2]]|].
    + subst a'. destruct a; exact F0.
    + cbn [retime map fst snd]. rewrite E0. reflexivity.
Qed.

(** ** Drivers. *)
Definition same_driver (f : Z -> Z) (d d' : list top -> option (list (act lines))) : Prop :=
  forall os, d' (map (tmap f) os) = option_map (map (amap f)) (d os).
Lemma lines_map : forall (A : Type) (g : A -> lines) f acts, map (on_lines g) (map (amap f) acts) = map (amap f) (map (on_lines g) acts).
Proof. intros A g f acts. rewrite !map_map. apply map_ext. intros [x|t]; reflexivity. Qed.
Section Real.
Variables (b : board) (pw : Z) (p : profile).
Notation q := (effective b pw p).
Notation f := (us_least b).
Lemma pins_same : forall l, same_driver f (by_pins p l) (by_pins q l).
Proof. intros l os. unfold by_pins. rewrite (par_run_map p q f) by reflexivity. reflexivity. Qed.
Lemma i2c_same : forall iw r, same_driver f (by_i2c p iw r) (by_i2c q iw r).
Proof.
  intros iw r os. unfold by_i2c. rewrite (i2c_run_map p q f) by reflexivity. destruct (t_i2c_run p iw r os) as [[x y]|]; [|reflexivity].
  cbn [omap bindo snd option_map]. rewrite lines_map. reflexivity.
Qed.
Lemma w3_same : forall iw w ix r, same_driver f (by_3wire p iw w ix r) (by_3wire q iw w ix r).
Proof.
  intros iw w ix r os. unfold by_3wire. rewrite (w3_run_map p q f) by reflexivity. destruct (t_w3_run p iw w ix r os) as [[x y]|]; [|reflexivity].
  cbn [omap bindo snd option_map]. rewrite lines_map. reflexivity.
Qed.
Lemma real_calls : forall iw rows cs s, Forall call_ok cs -> t_calls q iw rows s cs = omap (map (tmap f)) (t_calls p iw rows s cs).
Proof. intros iw rows cs s F. apply calls_map; try reflexivity. eapply Forall_impl; [|exact F]. apply ok_no_start. Qed.
Lemma served_l : forall dv c iw l d d', same_driver f d d' ->
  (served b p dv c iw l d <-> never_busy q (in_cycles (clock b) dv) c iw l d').
Proof.
  intros dv c iw l d d' D. split; intros H lo rows s cs s' os acts tr Hlo Hr S F T A R.
  - rewrite real_calls in T by exact F. destruct (t_calls p iw rows s cs) as [[s1 os1]|] eqn:T0; [|discriminate]. cbn [omap] in T. injection T as -> <-.
    rewrite D in A. destruct (d os1) as [acts1|] eqn:A0; [|discriminate]. cbn [option_map] in A. injection A as <-.
    apply takes_runs in R as (tr1 & R & ->). rewrite hears_retime. eapply H; eassumption.
  - rewrite <- hears_retime with (f := f). eapply H; [exact Hlo|exact Hr|exact S|exact F| | |apply runs_takes; exact R].
    + rewrite real_calls by exact F. rewrite T. reflexivity.
    + rewrite D, A. reflexivity.
Qed.
End Real.

(** ** The durations. *)
Lemma us_nonneg : forall b t, board_ok b -> 0 <= t < 4294967296 -> 0 <= us_least b t.
Proof.
  intros [short long|k] t B T; cbn in B |- *.
  - unfold wait_us. destruct (u16 t <=? 1); [lia|]. set (x := u16 (Z.shiftl (u16 t) 2) - 5). pose proof (Z.mod_pos_bound x 65536 ltac:(lia)) as X. unfold u16 at 1. lia.
  - unfold delay_cycles. destruct (ticks_l (1000000 * k) 1000000 t ltac:(lia) ltac:(lia) T) as [L _]. set (n := delay_ticks _ _ _) in *. clearbody n.
    destruct (4294967296 <=? n); [lia|]. assert (0 <= 1000000 * k * t) by (apply Z.mul_nonneg_nonneg; lia). lia.
Qed.
Lemma us_enough : forall b t, board_ok b -> 0 <= t <= 16385 -> clock b * t <= us_least b t.
Proof.
  intros [short long|k] t B T; cbn [board_ok clock us_least] in *.
  - apply us_at_least_l; lia.
  - rewrite (Z.mul_comm 1000000 k), (Z.mul_comm k 1000000). rewrite cycles_exact_l; nia.
Qed.
Lemma ms_enough : forall b ms, board_ok b -> 0 <= ms <= 1000 -> clock b * (1000 * ms - 4) <= ms_least b ms.
Proof.
  intros [short long|k] t B T; cbn [board_ok clock ms_least] in *; [lia|].
  replace (1000000 * k) with (1000 * (1000 * k)) by lia. rewrite cycles_exact_l; nia.
Qed.
Lemma ms_takes_least : forall b ms d, board_ok b -> 0 <= ms < 4294967296 -> ms_takes b ms d -> ms_least b ms <= d.
Proof.
  intros [short long|k] ms d B M H; cbn [ms_takes ms_least] in *.
  - destruct H as (now & polls & c & R & W & L). pose proof (ms_at_least_l ms now polls c M R W) as X. unfold ms_cycles in X. lia.
  - destruct (delay_cycles _ _ _); exact H.
Qed.
Lemma ms_nonneg : forall b ms, board_ok b -> 1 <= ms < 4294967296 -> 0 <= ms_least b ms.
Proof.
  intros [short long|k] t B T; cbn [ms_least board_ok] in *; [lia|].
  unfold delay_cycles. destruct (ticks_l (1000000 * k) 1000 t ltac:(lia) ltac:(lia) ltac:(lia)) as [L _]. set (n := delay_ticks _ _ _) in *. clearbody n.
  destruct (4294967296 <=? n); [lia|]. assert (0 <= 1000000 * k * t) by (apply Z.mul_nonneg_nonneg; lia). lia.
Qed.
Lemma effective_ok : forall b pw p, board_ok b -> 0 <= pw -> delays_ok p -> profile_ok (effective b pw p).
Proof.
  intros b pw p B W D. unfold delays_ok in D. rewrite Forall_forall in D. unfold profile_ok, effective.
  cbn [p_power p_init_long p_init p_init_short p_command p_command_long p_pulse].
  repeat split; try exact W; (apply us_nonneg; [exact B|apply D; cbn [In]; tauto]).
Qed.
Lemma in_reach_ok : forall p, in_reach p -> delays_ok p.
Proof. intros p [_ F]. eapply Forall_impl; [|exact F]. intros t H. cbn in H. lia. Qed.
Lemma scale_le : forall k a x y c, 0 < k -> k * x <= a -> y <= x + c -> k * y <= a + k * c.
Proof. intros k a x y c K X Y. assert (k * y <= k * (x + c)) by (apply Z.mul_le_mono_nonneg_l; lia). lia. Qed.
Lemma covers_kept : forall b p dv c nib pre pw, board_ok b -> in_reach p -> covers nib pre p dv c ->
  covers nib pre (effective b pw p) (in_cycles (clock b) dv) (clock b * c).
Proof.
  intros b p dv c nib pre pw B [_ R] (C1 & C2 & C3 & C4). rewrite Forall_forall in R.
  assert (U : forall t, In t [p_init_long p; p_init p; p_init_short p; p_command p; p_command_long p; p_pulse p] -> clock b * t <= us_least b t)
    by (intros t I; apply us_enough; [exact B|apply R; exact I]).
  pose proof (U (p_pulse p) ltac:(cbn [In]; tauto)) as U1. pose proof (U (p_command p) ltac:(cbn [In]; tauto)) as U2.
  pose proof (U (p_command_long p) ltac:(cbn [In]; tauto)) as U3. assert (K : 0 < clock b) by (destruct b; cbn in *; lia). clear U R B.
  unfold covers, effective, in_cycles. cbn [p_pulse p_command p_command_long d_half d_data d_fast d_slow].
  set (k := clock b) in *. clearbody k. revert U1 U2 U3. generalize (us_least b (p_pulse p)) (us_least b (p_command p)) (us_least b (p_command_long p)). intros u1 u2 u3 U1 U2 U3.
  rewrite !(Z.mul_assoc _ k c), !(Z.mul_comm _ k), <- !Z.mul_assoc.
  repeat split; (eapply scale_le; [exact K| |eassumption]); lia.
Qed.
Lemma covers_start_kept : forall b p dv c nib pre ms, board_ok b -> in_reach p -> p_power p = 1000 * ms -> 0 <= ms <= 1000 -> covers_start nib pre p (slower_start 4 dv) c ->
  covers_start nib pre (effective b (ms_least b ms) p) (in_cycles (clock b) dv) (clock b * c).
Proof.
  intros b p dv c nib pre ms B [_ R] M M2 (C1 & C2 & C3 & C4 & C5). rewrite Forall_forall in R.
  assert (U : forall t, In t [p_init_long p; p_init p; p_init_short p; p_command p; p_command_long p; p_pulse p] -> clock b * t <= us_least b t)
    by (intros t I; apply us_enough; [exact B|apply R; exact I]).
  pose proof (U (p_pulse p) ltac:(cbn [In]; tauto)) as U1. pose proof (U (p_init_long p) ltac:(cbn [In]; tauto)) as U2.
  pose proof (U (p_init p) ltac:(cbn [In]; tauto)) as U3. pose proof (U (p_init_short p) ltac:(cbn [In]; tauto)) as U4.
  pose proof (ms_enough b ms B M2) as U5.
  assert (K : 0 < clock b) by (destruct b; cbn in *; lia). clear U R B.
  unfold covers_start, effective, in_cycles. unfold slower_start in *. cbn [p_power p_pulse p_init_long p_init p_init_short d_power d_first d_second d_fast] in *. rewrite M in C1.
  set (k := clock b) in *. clearbody k. revert U1 U2 U3 U4 U5. generalize (us_least b (p_pulse p)) (us_least b (p_init_long p)) (us_least b (p_init p)) (us_least b (p_init_short p)) (ms_least b ms).
  intros u1 u2 u3 u4 u5 U1 U2 U3 U4 U5. rewrite !(Z.mul_assoc _ k c), !(Z.mul_comm _ k), <- !Z.mul_assoc.
  split; [eapply scale_le; [exact K|exact U5|lia]|]. repeat split; (eapply scale_le; [exact K| |eassumption]); lia.
Qed.

(** ** From power-on. *)
Lemma starts_takes : forall b ms c p acts tr, board_ok b -> 0 <= ms < 4294967296 -> starts b ms c (Wait (p_power p) :: acts) tr ->
  exists tr', takes_at_least c (Wait (ms_least b ms) :: map (amap (us_least b)) acts) tr' /\ forall dv lo l s, hears dv lo l s tr' = hears dv lo l s tr.
Proof.
  intros b ms c p acts tr B M (d & rest & -> & E & W & F). cbn [map fst] in E. injection E as _ E.
  exists ((Wait (ms_least b ms), d) :: retime (us_least b) rest). destruct (runs_takes b c acts rest (conj E F)) as [T1 T2]. split.
  - split; [cbn [map fst]; rewrite T1; reflexivity|]. constructor; [apply ms_takes_least; assumption|exact T2].
  - intros dv lo l s. cbn [hears]. apply hears_retime.
Qed.
Lemma par_run_wait : forall p l t os, snd (t_par_run p l (TWait t :: os)) = Wait t :: snd (t_par_run p l os).
Proof. intros p l t os. cbn [t_par_run t_par_op]. destruct (t_par_run p l os). reflexivity. Qed.
Lemma i2c_run_wait : forall p iw r t os, t_i2c_run p iw r (TWait t :: os) = omap (cons (Wait t)) (t_i2c_run p iw r os).
Proof. intros p iw r t os. cbn [t_i2c_run t_i2c_op bindo fst snd]. destruct (t_i2c_run p iw r os) as [[x y]|]; reflexivity. Qed.
Lemma w3_run_wait : forall p iw w ix r t os, t_w3_run p iw w ix r (TWait t :: os) = omap (cons (Wait t)) (t_w3_run p iw w ix r os).
Proof. intros p iw w ix r t os. cbn [t_w3_run t_w3_op bindo fst snd]. destruct (t_w3_run p iw w ix r os) as [[x y]|]; reflexivity. Qed.

(** Such times exist. *)
Lemma polls_l : forall n now, rising now (map (fun k => now + 15936 * Z.of_nat k) (seq 1 n)) /\ within 15936 now (map (fun k => now + 15936 * Z.of_nat k) (seq 1 n)).
Proof.
  assert (G : forall n now j x, x = now + 15936 * Z.of_nat j -> rising x (map (fun k => now + 15936 * Z.of_nat k) (seq (S j) n)) /\
     within 15936 x (map (fun k => now + 15936 * Z.of_nat k) (seq (S j) n))).
  { induction n as [|n IH]; intros now j x X; [split; exact Logic.I|]. cbn [seq map rising within].
    destruct (IH now (S j) (now + 15936 * Z.of_nat (S j)) eq_refl) as [A B].
    split; split; try assumption; rewrite X, Nat2Z.inj_succ; lia. }
  intros n now. apply (G n now 0%nat). cbn. lia.
Qed.
Lemma ms_happens : forall b ms, 0 <= ms < 4294967296 -> exists d, ms_takes b ms d.
Proof.
  intros [short long|k] ms M; cbn [ms_takes].
  - destruct (Z.eq_dec ms 0) as [->|N]; [exists 0, 0, [], 0; repeat split; lia|].
    set (n := Z.to_nat (2 * ms + 2)). destruct (polls_l n 0) as [R W].
    set (polls := map (fun k => 0 + 15936 * Z.of_nat k) (seq 1 n)) in *.
    destruct (delay_ms ms 0 polls ltac:(lia) R) as [_ H]. destruct (H ltac:(lia) W) as (_ & _ & G).
    destruct (wait_ms ms 0 polls) as [c|] eqn:E.
    + exists (c - 0), 0, polls, c. split; [exact R|]. split; [exact E|]. lia.
    + exfalso. apply (G (0 + 15936 * Z.of_nat n)); [| |reflexivity].
      * apply (in_map (fun k => 0 + 15936 * Z.of_nat k)). apply in_seq. subst n. lia.
      * subst n. rewrite Z2Nat.id by lia. unfold ms_cycles. clear - M N. lia.
  - destruct (delay_cycles (1000000 * k) 1000 ms) as [n|]; [exists n|exists 0]; lia.
Qed.
Lemma runs_happen : forall b c acts, exists tr, runs_all b c acts tr.
Proof.
  intros b c acts. exists (map (fun a => (a, match a with Put _ => c | Wait t => us_least b t end)) acts). split.
  - rewrite map_map. cbn [fst]. apply map_id.
  - apply Forall_map, Forall_forall. intros [l|t] _; unfold runs; cbn [fst snd]; apply Z.le_refl.
Qed.
Lemma starts_happen : forall b ms c acts, 0 <= ms < 4294967296 -> exists tr, starts b ms c (Wait (1000 * ms) :: acts) tr.
Proof.
  intros b ms c acts M. destruct (ms_happens b ms M) as (d & D). destruct (runs_happen b c acts) as (tr & F & R).
  exists ((Wait (1000 * ms), d) :: tr), d, tr. split; [reflexivity|]. split; [cbn [map fst]; rewrite F; reflexivity|]. split; assumption.
Qed.
