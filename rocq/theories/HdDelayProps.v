(** C85: the display gets the time it needs from the delays as they really are. *)
Require Import ZArith List Bool Lia ZifyBool.
Import ListNotations.
From Verif Require Import Base BaseFacts BitModel HdModel HdSpec HdIfProofs HdProofs HdTimeModel HdTimeSpec HdTimeProofs HdTimeProps.
From Verif Require Import RealModel DelayModel DelaySpec DelayProofs HdDelayModel HdDelaySpec HdDelayProofs.
Open Scope Z_scope.
Ltac Zify.zify_post_hook ::= idtac.

(** Any profile, on both kinds of board and over the three drivers: the display is never busy when it is given
    something, exactly if its times are covered by the delays as Delay.h makes them. *)
Theorem display_delays : forall b p dv c iw, board_ok b -> delays_ok p -> 0 <= c -> 8 <= iw ->
  let q := effective b 0 p in let d := in_cycles (clock b) dv in
  (forall l, en l = true -> (served b p dv c iw l (by_pins p l) <-> covers_parallel q d c)) /\
  (forall r, 0 <= r < 256 -> Z.testbit r 1 = false -> Z.testbit r 2 = true ->
    (served b p dv c iw (i2c_lines r) (by_i2c p iw r) <-> covers_i2c q d c)) /\
  (forall w ix r, 1 <= w <= iw -> Forall (fun i => 0 <= i < w) (index_list ix) -> NoDup (index_list ix) ->
    0 <= r < 2 ^ w -> Z.testbit r (ien ix) = true ->
    (served b p dv c iw (w3_lines ix r) (by_3wire p iw w ix r) <-> covers_3wire q d c)).
Proof.
  intros b p dv c iw B D C Hiw q d. destruct (timing_exact q d c iw) as (X1 & X2 & X3); [apply effective_ok; [exact B|lia|exact D]|exact C|exact Hiw|].
  split; [|split].
  - intros l E. rewrite (X1 l E). apply served_l. apply pins_same.
  - intros r R R1 R2. rewrite (X2 r R R1 R2). apply served_l. apply i2c_same.
  - intros w ix r Hw Hin Hd R R2. rewrite (X3 w ix r Hw Hin Hd R R2). apply served_l. apply w3_same.
Qed.
Print Assumptions display_delays.

(** So up to 16.385 ms, and a second after power-on, a profile that covers a display on paper (C66) also does with the
    delays as they are; after power-on it must have 4 us to spare.  [c]: microseconds of a write. *)
Theorem display_delays_kept : forall b p dv c iw, board_ok b -> in_reach p -> 0 <= c -> 8 <= iw ->
  (forall l, en l = true -> covers_parallel p dv c -> served b p dv (clock b * c) iw l (by_pins p l)) /\
  (forall r, 0 <= r < 256 -> Z.testbit r 1 = false -> Z.testbit r 2 = true -> covers_i2c p dv c ->
    served b p dv (clock b * c) iw (i2c_lines r) (by_i2c p iw r)) /\
  (forall w ix r, 1 <= w <= iw -> Forall (fun i => 0 <= i < w) (index_list ix) -> NoDup (index_list ix) ->
    0 <= r < 2 ^ w -> Z.testbit r (ien ix) = true -> covers_3wire p dv c ->
    served b p dv (clock b * c) iw (w3_lines ix r) (by_3wire p iw w ix r)) /\
  (forall nib pre ms, p_power p = 1000 * ms -> 0 <= ms <= 1000 -> covers_start nib pre p (slower_start 4 dv) c ->
    covers_start nib pre (effective b (ms_least b ms) p) (in_cycles (clock b) dv) (clock b * c)).
Proof.
  intros b p dv c iw B R C Hiw. assert (C2 : 0 <= clock b * c) by (apply Z.mul_nonneg_nonneg; [destruct b; cbn in *; lia|exact C]).
  destruct (display_delays b p dv (clock b * c) iw B (in_reach_ok p R) C2 Hiw) as (X1 & X2 & X3). split; [|split; [|split]].
  - intros l E Q. apply X1; [exact E|]. apply covers_kept; assumption.
  - intros r R0 R1 R2 Q. apply X2; try assumption. apply covers_kept; assumption.
  - intros w ix r Hw Hin Hd R0 R2 Q. apply X3; try assumption. apply covers_kept; assumption.
  - intros nib pre ms M M2 Q. apply covers_start_kept; assumption.
Qed.
Print Assumptions display_delays_kept.

(** From power-on: a full initialisation and then any calls arrive, in order. *)
Theorem display_delays_start : forall b p ms dv c lo iw rows s l cs, board_ok b -> delays_ok p -> p_power p = 1000 * ms -> 1 <= ms < 4294967296 ->
  0 <= c -> 0 <= lo < 16 -> 8 <= iw -> rows_ok rows ->
  covers_parallel (effective b 0 p) (in_cycles (clock b) dv) c -> covers_start 5 1 (effective b (ms_least b ms) p) (in_cycles (clock b) dv) c ->
  0 <= d_power dv -> en l = true -> rs l = false -> state_ok s -> Forall call_ok cs ->
  exists s1 s' os ds, t_calls p iw rows s (OnView (VInit true) :: cs) = Some (s', os) /\
    (exists ds0, plain_call iw rows s (OnView (VInit true)) = Some (s1, ds0)) /\ plain_calls iw rows s1 cs = Some (s', ds) /\
    (exists tr, starts b ms c (snd (t_par_run p l os)) tr) /\
    forall tr, starts b ms c (snd (t_par_run p l os)) tr ->
    exists d', hears (in_cycles (clock b) dv) lo l (powered (in_cycles (clock b) dv)) tr = Some (d', init_bytes lo ++ map byte_of ds) /\ dm d' = M4 /\ boot d' = [].
Proof.
  intros b p ms dv c lo iw rows s l cs B D P M C Hlo Hiw Hr Hcov Hst Hd E E2 S F.
  assert (M0 : 0 <= ms_least b ms) by (apply ms_nonneg; assumption).
  destruct (timing_start_parallel (effective b (ms_least b ms) p) (in_cycles (clock b) dv) c lo iw rows s l cs) as (s1 & s' & osq & ds & T & X & Q & H);
    try assumption.
  { apply effective_ok; assumption. }
  { cbn [in_cycles d_power]. apply Z.mul_nonneg_nonneg; [destruct b; cbn in *; lia|exact Hd]. }
  pose proof (start_map p (effective b (ms_least b ms) p) (us_least b) eq_refl eq_refl eq_refl eq_refl eq_refl iw rows s cs F) as Y.
  destruct (t_calls p iw rows s (OnView (VInit true) :: cs)) as [[s2 os]|] eqn:T2; [|rewrite Y in T; discriminate].
  destruct Y as (os0 & -> & Y). rewrite Y in T. injection T as -> <-. exists s1, s', (TWait (p_power p) :: os0), ds.
  split; [reflexivity|]. split; [exact X|]. split; [exact Q|].
  split; [rewrite par_run_wait, P; apply starts_happen; lia|]. intros tr R. rewrite par_run_wait in R.
  apply starts_takes in R as (tr' & R & G); [|exact B|lia]. rewrite <- G. apply H. rewrite par_run_wait.
  rewrite (par_run_map p (effective b (ms_least b ms) p) (us_least b)) by reflexivity. exact R.
Qed.
Print Assumptions display_delays_start.

(** The same over I2C and through a shift register. *)
Theorem display_delays_start_i2c : forall b p ms dv c lo iw rows s cs, board_ok b -> delays_ok p -> p_power p = 1000 * ms -> 1 <= ms < 4294967296 ->
  0 <= c -> 0 <= lo < 16 -> 8 <= iw -> rows_ok rows ->
  covers_i2c (effective b 0 p) (in_cycles (clock b) dv) c -> covers_start 2 1 (effective b (ms_least b ms) p) (in_cycles (clock b) dv) c ->
  0 <= d_power dv -> state_ok s -> Forall call_ok cs ->
  exists r s1 s' os ds r' acts, i2c_new iw = Some r /\
    t_calls p iw rows s (OnView (VInit true) :: cs) = Some (s', os) /\
    (exists ds0, plain_call iw rows s (OnView (VInit true)) = Some (s1, ds0)) /\ plain_calls iw rows s1 cs = Some (s', ds) /\
    t_i2c_run p iw r os = Some (r', acts) /\
    (exists tr, starts b ms c (map (on_lines i2c_lines) acts) tr) /\
    forall tr, starts b ms c (map (on_lines i2c_lines) acts) tr ->
    exists d', hears (in_cycles (clock b) dv) lo (i2c_lines r) (powered (in_cycles (clock b) dv)) tr = Some (d', init_bytes lo ++ map byte_of ds) /\ dm d' = M4 /\ boot d' = [].
Proof.
  intros b p ms dv c lo iw rows s cs B D P M C Hlo Hiw Hr Hcov Hst Hd S F.
  assert (M0 : 0 <= ms_least b ms) by (apply ms_nonneg; assumption).
  destruct (timing_start_i2c (effective b (ms_least b ms) p) (in_cycles (clock b) dv) c lo iw rows s cs) as (r & s1 & s' & osq & ds & r' & actsq & N & T & X & Q & A & H);
    try assumption.
  { apply effective_ok; assumption. }
  { cbn [in_cycles d_power]. apply Z.mul_nonneg_nonneg; [destruct b; cbn in *; lia|exact Hd]. }
  pose proof (start_map p (effective b (ms_least b ms) p) (us_least b) eq_refl eq_refl eq_refl eq_refl eq_refl iw rows s cs F) as Y.
  destruct (t_calls p iw rows s (OnView (VInit true) :: cs)) as [[s2 os]|] eqn:T2; [|rewrite Y in T; discriminate].
  destruct Y as (os0 & -> & Y). rewrite Y in T. injection T as -> <-. rewrite i2c_run_wait in A.
  rewrite (i2c_run_map p (effective b (ms_least b ms) p) (us_least b)) in A by reflexivity.
  destruct (t_i2c_run p iw r os0) as [[r2 acts]|] eqn:A2; [|discriminate]. cbn [omap] in A. injection A as -> <-.
  exists r, s1, s', (TWait (p_power p) :: os0), ds, r', (Wait (p_power p) :: acts).
  split; [exact N|]. split; [reflexivity|]. split; [exact X|]. split; [exact Q|]. split; [rewrite i2c_run_wait, A2; reflexivity|].
  split; [cbn [map on_lines]; rewrite P; apply starts_happen; lia|]. intros tr R. cbn [map on_lines] in R.
  apply starts_takes in R as (tr' & R & G); [|exact B|lia]. rewrite <- G. apply H. cbn [map on_lines]. rewrite lines_map. exact R.
Qed.
Print Assumptions display_delays_start_i2c.
Theorem display_delays_start_3wire : forall b p ms dv c lo iw w ix rows s r0 cs, board_ok b -> delays_ok p -> p_power p = 1000 * ms -> 1 <= ms < 4294967296 ->
  0 <= c -> 0 <= lo < 16 -> 8 <= iw -> rows_ok rows ->
  1 <= w <= iw -> Forall (fun i => 0 <= i < w) (index_list ix) -> NoDup (index_list ix) -> 0 <= r0 < 2 ^ w ->
  covers_3wire (effective b 0 p) (in_cycles (clock b) dv) c -> covers_start 2 0 (effective b (ms_least b ms) p) (in_cycles (clock b) dv) c ->
  0 <= d_power dv -> state_ok s -> Forall call_ok cs ->
  exists r s1 s' os ds r' acts, w3_attach iw w ix r0 = Some (r, [r]) /\
    t_calls p iw rows s (OnView (VInit true) :: cs) = Some (s', os) /\
    (exists ds0, plain_call iw rows s (OnView (VInit true)) = Some (s1, ds0)) /\ plain_calls iw rows s1 cs = Some (s', ds) /\
    t_w3_run p iw w ix r os = Some (r', acts) /\
    (exists tr, starts b ms c (map (on_lines (w3_lines ix)) acts) tr) /\
    forall tr, starts b ms c (map (on_lines (w3_lines ix)) acts) tr ->
    exists d', hears (in_cycles (clock b) dv) lo (w3_lines ix r) (powered (in_cycles (clock b) dv)) tr = Some (d', init_bytes lo ++ map byte_of ds) /\ dm d' = M4 /\ boot d' = [].
Proof.
  intros b p ms dv c lo iw w ix rows s r0 cs B D P M C Hlo Hiw Hr Hw Hin Hnd R0 Hcov Hst Hd S F.
  assert (M0 : 0 <= ms_least b ms) by (apply ms_nonneg; assumption).
  destruct (timing_start_3wire (effective b (ms_least b ms) p) (in_cycles (clock b) dv) c lo iw w ix rows s r0 cs) as (r & s1 & s' & osq & ds & r' & actsq & N & T & X & Q & A & H);
    try assumption.
  { apply effective_ok; assumption. }
  { cbn [in_cycles d_power]. apply Z.mul_nonneg_nonneg; [destruct b; cbn in *; lia|exact Hd]. }
  pose proof (start_map p (effective b (ms_least b ms) p) (us_least b) eq_refl eq_refl eq_refl eq_refl eq_refl iw rows s cs F) as Y.
  destruct (t_calls p iw rows s (OnView (VInit true) :: cs)) as [[s2 os]|] eqn:T2; [|rewrite Y in T; discriminate].
  destruct Y as (os0 & -> & Y). rewrite Y in T. injection T as -> <-. rewrite w3_run_wait in A.
  rewrite (w3_run_map p (effective b (ms_least b ms) p) (us_least b)) in A by reflexivity.
  destruct (t_w3_run p iw w ix r os0) as [[r2 acts]|] eqn:A2; [|discriminate]. cbn [omap] in A. injection A as -> <-.
  exists r, s1, s', (TWait (p_power p) :: os0), ds, r', (Wait (p_power p) :: acts).
  split; [exact N|]. split; [reflexivity|]. split; [exact X|]. split; [exact Q|]. split; [rewrite w3_run_wait, A2; reflexivity|].
  split; [cbn [map on_lines]; rewrite P; apply starts_happen; lia|]. intros tr R. cbn [map on_lines] in R.
  apply starts_takes in R as (tr' & R & G); [|exact B|lia]. rewrite <- G. apply H. cbn [map on_lines]. rewrite lines_map. exact R.
Qed.
Print Assumptions display_delays_start_3wire.

(** The delays in the comments of the profile serve a display with the data sheet's times on both kinds of board. *)
Theorem display_delays_commented : forall b iw l, board_ok b -> 8 <= iw -> en l = true ->
  served b commented_profile datasheet (clock b) iw l (by_pins commented_profile l) /\
  covers_start 5 1 (effective b (ms_least b 50) commented_profile) (in_cycles (clock b) datasheet) (clock b).
Proof.
  intros b iw l B Hiw E. assert (R : in_reach commented_profile).
  { split; [exists 50; split; [lia|reflexivity]|]. repeat (constructor; [cbn; lia|]). constructor. }
  destruct (display_delays_kept b commented_profile datasheet 1 iw B R ltac:(lia) Hiw) as (X & _ & _ & Y). rewrite Z.mul_1_r in *.
  split; [apply X; [exact E|]|apply Y; [reflexivity|lia|]]; unfold covers_parallel, covers, covers_start; cbn; lia.
Qed.
Print Assumptions display_delays_commented.

(** Finding: with the Arduino's delays, a longer delay can be too short: with 16.4 ms after a slow command instead of
    1.64 ms the display is given something while it is busy. *)
Theorem display_delays_refuted : forall short long c iw l, 16 <= short -> 20 <= long < 36 -> 0 <= c <= 3000 -> 8 <= iw -> en l = true ->
  covers_parallel (with_long commented_profile 16400) datasheet 1 /\
  ~ served (Core short long) (with_long commented_profile 16400) datasheet c iw l (by_pins (with_long commented_profile 16400) l).
Proof.
  intros short long c iw l S L C Hiw E. split; [unfold covers_parallel, covers; cbn; lia|]. intros H.
  apply (display_delays (Core short long)) in H; [|cbn; lia|repeat (constructor; [cbn; lia|]); constructor|lia|exact Hiw|exact E].
  destruct H as (_ & _ & _ & H). cbn [effective in_cycles us_least clock with_long commented_profile datasheet p_pulse p_command_long d_slow] in H.
  change (wait_us short long 37) with (long + 4 * 143) in H. change (wait_us short long 16400) with (long + 4 * 59) in H. lia.
Qed.
Print Assumptions display_delays_refuted.
(** Exactly those delays at 16 MHz, pins that take a microsecond: the character after a clear arrives with 1.64 ms, and
    is lost with 16.4 ms. *)
Definition timed (b : board) (c : Z) (acts : list (act lines)) : list (act lines * Z) :=
  map (fun a => (a, match a with Put _ => c | Wait t => us_least b t end)) acts.
Example display_delays_example :
  forall p, In p [commented_profile; with_long commented_profile 16400] ->
  match t_calls p 16 2 at0 [OnCtl CClear; OnView (VChar 65)] with
  | Some (_, os) => option_map snd (hears (in_cycles 16 datasheet) 0 start_lines idle (timed (Core 16 20) 16 (snd (t_par_run p start_lines os)))) =
                    if p_command_long p =? 16400 then None else Some [(false, 1); (true, 65)]
  | None => False
  end.
Proof. intros p [<-|[<-|[]]]; lazy; reflexivity. Qed.
