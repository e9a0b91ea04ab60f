(** C66: the delays of the display drivers are long enough for a display of given speed. *)
Require Import ZArith List Bool Lia ZifyBool.
Import ListNotations.
From Verif Require Import Base BitModel HdModel HdSpec HdIfProofs HdProofs HdTimeModel HdTimeSpec HdTimeProofs.
Open Scope Z_scope.
Ltac Zify.zify_post_hook ::= idtac.

(** C66: over the pins, whatever the calls and however much longer the steps take than asked: no edge
    comes while the display is busy, and it takes the bytes of the calls in order. *)
Theorem timing_parallel : forall p dv c lo iw rows s l cs, profile_ok p -> 0 <= c -> 0 <= lo < 16 -> 8 <= iw -> rows_ok rows ->
  covers_parallel p dv c -> en l = true -> state_ok s -> Forall call_ok cs ->
  exists s' os, t_calls p iw rows s cs = Some (s', os) /\ plain_calls iw rows s cs = Some (s', driver_calls os) /\
    forall tr, takes_at_least c (snd (t_par_run p l os)) tr ->
    exists d', hears dv lo l idle tr = Some (d', map byte_of (driver_calls os)) /\ dm d' = M4 /\ boot d' = [].
Proof.
  intros p dv c lo iw rows s l cs Hp Hc Hlo Hiw Hr Hcov E S F.
  destruct (t_calls_l p dv c lo iw rows 5 1 Hp Hiw Hr Hcov cs s S F) as (s' & os & T & C & P).
  exists s', os. split; [exact T|]. split; [exact P|]. intros tr Htr.
  apply (calm_hears p dv c lo 5 1 Hc ltac:(lia) ltac:(lia) os (rs l) l (snd (t_par_run p l os)) (fst (t_par_run p l os)) C); [|exact Htr].
  apply par_renders; [exact E|apply C].
Qed.

(** C66: the same over I2C. *)
Theorem timing_i2c : forall p dv c lo iw rows s r cs, profile_ok p -> 0 <= c -> 0 <= lo < 16 -> 8 <= iw -> rows_ok rows ->
  covers_i2c p dv c -> 0 <= r < 256 -> Z.testbit r 1 = false -> Z.testbit r 2 = true -> state_ok s -> Forall call_ok cs ->
  exists s' os r' acts, t_calls p iw rows s cs = Some (s', os) /\ plain_calls iw rows s cs = Some (s', driver_calls os) /\
    t_i2c_run p iw r os = Some (r', acts) /\
    forall tr, takes_at_least c (map (on_lines i2c_lines) acts) tr ->
    exists d', hears dv lo (i2c_lines r) idle tr = Some (d', map byte_of (driver_calls os)) /\ dm d' = M4 /\ boot d' = [].
Proof.
  intros p dv c lo iw rows s r cs Hp Hc Hlo Hiw Hr Hcov R R1 R2 S F.
  destruct (t_calls_l p dv c lo iw rows 2 1 Hp Hiw Hr Hcov cs s S F) as (s' & os & T & C & P).
  destruct (i2c_renders p iw Hiw (Z.testbit r 3) os r) as (r' & acts & Er & Rr); [repeat split; auto; lia|exact R2|apply C|].
  exists s', os, r', acts. split; [exact T|]. split; [exact P|]. split; [exact Er|]. intros tr Htr.
  exact (calm_hears p dv c lo 2 1 Hc ltac:(lia) ltac:(lia) os _ _ _ _ C Rr tr Htr).
Qed.

(** C66: the same through a shift register. *)
Theorem timing_3wire : forall p dv c lo iw w ix rows s r cs, profile_ok p -> 0 <= c -> 0 <= lo < 16 -> 8 <= iw -> rows_ok rows ->
  1 <= w <= iw -> Forall (fun i => 0 <= i < w) (index_list ix) -> NoDup (index_list ix) ->
  covers_3wire p dv c -> 0 <= r < 2 ^ w -> Z.testbit r (ien ix) = true -> state_ok s -> Forall call_ok cs ->
  exists s' os r' acts, t_calls p iw rows s cs = Some (s', os) /\ plain_calls iw rows s cs = Some (s', driver_calls os) /\
    t_w3_run p iw w ix r os = Some (r', acts) /\
    forall tr, takes_at_least c (map (on_lines (w3_lines ix)) acts) tr ->
    exists d', hears dv lo (w3_lines ix r) idle tr = Some (d', map byte_of (driver_calls os)) /\ dm d' = M4 /\ boot d' = [].
Proof.
  intros p dv c lo iw w ix rows s r cs Hp Hc Hlo Hiw Hr Hw Hin Hdup Hcov R R2 S F.
  destruct (t_calls_l p dv c lo iw rows 2 0 Hp Hiw Hr Hcov cs s S F) as (s' & os & T & C & P).
  destruct (w3_renders p iw w ix Hw Hin Hdup os r R R2) as (r' & acts & Er & Rr); [apply C|].
  exists s', os, r', acts. split; [exact T|]. split; [exact P|]. split; [exact Er|]. intros tr Htr.
  exact (calm_hears p dv c lo 2 0 Hc ltac:(lia) ltac:(lia) os _ _ _ _ C Rr tr Htr).
Qed.

(** C66: a full initialisation right after power-on, then any calls; the three drivers. *)
Theorem timing_start_parallel : forall p dv c lo iw rows s l cs, profile_ok p -> 0 <= c -> 0 <= lo < 16 -> 8 <= iw -> rows_ok rows ->
  covers_parallel p dv c -> covers_start 5 1 p dv c -> 0 <= d_power dv -> en l = true -> rs l = false -> state_ok s -> Forall call_ok cs ->
  exists s1 s' os ds, t_calls p iw rows s (OnView (VInit true) :: cs) = Some (s', os) /\
    (exists ds0, plain_call iw rows s (OnView (VInit true)) = Some (s1, ds0)) /\ plain_calls iw rows s1 cs = Some (s', ds) /\
    forall tr, takes_at_least c (snd (t_par_run p l os)) tr ->
    exists d', hears dv lo l (powered dv) tr = Some (d', init_bytes lo ++ map byte_of ds) /\ dm d' = M4 /\ boot d' = [].
Proof.
  intros p dv c lo iw rows s l cs Hp Hc Hlo Hiw Hr Hcov Hst Hd E E2 S F.
  destruct (start_l p dv c lo iw rows 5 1 Hp Hiw Hr Hcov s cs S F) as (s1 & s' & os0 & os & T & X & P & D0 & C).
  exists s1, s', (t_power_up p ++ os0 ++ os), (driver_calls os). split; [exact T|]. split; [exact X|]. split; [exact P|]. intros tr Htr.
  destruct (start_hears p dv c lo 5 1 Hp Hc Hlo Hcov Hst (os0 ++ os) l (snd (t_par_run p l (t_power_up p ++ os0 ++ os))) (fst (t_par_run p l (t_power_up p ++ os0 ++ os))) C) with (tr := tr)
    as (d' & H & Q); [|exact Hd|exact Htr|].
  - rewrite <- E2. apply par_renders; [exact E|]. apply Forall_app. split; [|apply C].
    destruct Hp as (? & ? & ? & ? & ? & ? & ?). repeat constructor; cbn; try assumption; lia.
  - exists d'. rewrite H, driver_calls_app, D0. split; [reflexivity|exact Q].
Qed.
Theorem timing_start_i2c : forall p dv c lo iw rows s cs, profile_ok p -> 0 <= c -> 0 <= lo < 16 -> 8 <= iw -> rows_ok rows ->
  covers_i2c p dv c -> covers_start 2 1 p dv c -> 0 <= d_power dv -> state_ok s -> Forall call_ok cs ->
  exists r s1 s' os ds r' acts, i2c_new iw = Some r /\
    t_calls p iw rows s (OnView (VInit true) :: cs) = Some (s', os) /\
    (exists ds0, plain_call iw rows s (OnView (VInit true)) = Some (s1, ds0)) /\ plain_calls iw rows s1 cs = Some (s', ds) /\
    t_i2c_run p iw r os = Some (r', acts) /\
    forall tr, takes_at_least c (map (on_lines i2c_lines) acts) tr ->
    exists d', hears dv lo (i2c_lines r) (powered dv) tr = Some (d', init_bytes lo ++ map byte_of ds) /\ dm d' = M4 /\ boot d' = [].
Proof.
  intros p dv c lo iw rows s cs Hp Hc Hlo Hiw Hr Hcov Hst Hd S F.
  destruct (start_l p dv c lo iw rows 2 1 Hp Hiw Hr Hcov s cs S F) as (s1 & s' & os0 & os & T & X & P & D0 & C).
  destruct (i2c_renders p iw Hiw true (t_power_up p ++ os0 ++ os) 12) as (r' & acts & Er & Rr); [repeat split; lia|reflexivity| |].
  { apply Forall_app. split; [|apply C]. destruct Hp as (? & ? & ? & ? & ? & ? & ?). repeat constructor; cbn; try assumption; lia. }
  exists 12, s1, s', (t_power_up p ++ os0 ++ os), (driver_calls os), r', acts. split; [apply hd_i2c_new_l; exact Hiw|].
  split; [exact T|]. split; [exact X|]. split; [exact P|]. split; [exact Er|]. intros tr Htr.
  destruct (start_hears p dv c lo 2 1 Hp Hc Hlo Hcov Hst (os0 ++ os) _ _ _ C Rr Hd tr Htr) as (d' & H & Q).
  exists d'. rewrite H, driver_calls_app, D0. split; [reflexivity|exact Q].
Qed.
Theorem timing_start_3wire : forall p dv c lo iw w ix rows s r0 cs, profile_ok p -> 0 <= c -> 0 <= lo < 16 -> 8 <= iw -> rows_ok rows ->
  1 <= w <= iw -> Forall (fun i => 0 <= i < w) (index_list ix) -> NoDup (index_list ix) -> 0 <= r0 < 2 ^ w ->
  covers_3wire p dv c -> covers_start 2 0 p dv c -> 0 <= d_power dv -> state_ok s -> Forall call_ok cs ->
  exists r s1 s' os ds r' acts, w3_attach iw w ix r0 = Some (r, [r]) /\
    t_calls p iw rows s (OnView (VInit true) :: cs) = Some (s', os) /\
    (exists ds0, plain_call iw rows s (OnView (VInit true)) = Some (s1, ds0)) /\ plain_calls iw rows s1 cs = Some (s', ds) /\
    t_w3_run p iw w ix r os = Some (r', acts) /\
    forall tr, takes_at_least c (map (on_lines (w3_lines ix)) acts) tr ->
    exists d', hears dv lo (w3_lines ix r) (powered dv) tr = Some (d', init_bytes lo ++ map byte_of ds) /\ dm d' = M4 /\ boot d' = [].
Proof.
  intros p dv c lo iw w ix rows s r0 cs Hp Hc Hlo Hiw Hr Hw Hin Hdup R0 Hcov Hst Hd S F.
  destruct (start_l p dv c lo iw rows 2 0 Hp Hiw Hr Hcov s cs S F) as (s1 & s' & os0 & os & T & X & P & D0 & C).
  destruct (w3_attach_l iw w ix Hw Hin Hdup r0 R0) as (r & E0 & R & _ & L0).
  destruct (w3_renders p iw w ix Hw Hin Hdup (t_power_up p ++ os0 ++ os) r R) as (r' & acts & Er & Rr); [rewrite L0; reflexivity| |].
  { apply Forall_app. split; [|apply C]. destruct Hp as (? & ? & ? & ? & ? & ? & ?). repeat constructor; cbn; try assumption; lia. }
  exists r, s1, s', (t_power_up p ++ os0 ++ os), (driver_calls os), r', acts. split; [exact E0|].
  split; [exact T|]. split; [exact X|]. split; [exact P|]. split; [exact Er|]. intros tr Htr.
  rewrite L0 in Rr at 2. cbn [rs] in Rr.
  destruct (start_hears p dv c lo 2 0 Hp Hc Hlo Hcov Hst (os0 ++ os) _ _ _ C Rr Hd tr Htr) as (d' & H & Q).
  exists d'. rewrite H, driver_calls_app, D0. split; [reflexivity|exact Q].
Qed.

(** C66: the condition is exact: with any less delay some history of calls reaches a busy display.
    Over the pins, over I2C and through a shift register. *)
Theorem timing_exact : forall p dv c iw, profile_ok p -> 0 <= c -> 8 <= iw ->
  (forall l, en l = true -> (covers_parallel p dv c <-> never_busy p dv c iw l (by_pins p l))) /\
  (forall r, 0 <= r < 256 -> Z.testbit r 1 = false -> Z.testbit r 2 = true ->
    (covers_i2c p dv c <-> never_busy p dv c iw (i2c_lines r) (by_i2c p iw r))) /\
  (forall w ix r, 1 <= w <= iw -> Forall (fun i => 0 <= i < w) (index_list ix) -> NoDup (index_list ix) ->
    0 <= r < 2 ^ w -> Z.testbit r (ien ix) = true ->
    (covers_3wire p dv c <-> never_busy p dv c iw (w3_lines ix r) (by_3wire p iw w ix r))).
Proof.
  intros p dv c iw Hp Hc Hiw. split; [|split].
  - intros l E. pose proof (pins_render p l E) as R. split; intros H.
    + apply (serve_all p dv c iw 5 1 l (by_pins p l)); auto; lia.
    + apply (need_all p dv c iw 5 1 l (by_pins p l)); auto.
  - intros r R R1 R2. pose proof (i2c_render p iw r Hiw R R1 R2) as Q. split; intros H.
    + apply (serve_all p dv c iw 2 1 (i2c_lines r) (by_i2c p iw r)); auto; lia.
    + apply (need_all p dv c iw 2 1 (i2c_lines r) (by_i2c p iw r)); auto.
  - intros w ix r Hw Hin Hdup R R2. pose proof (w3_render p iw w ix r Hw Hin Hdup R R2) as Q. split; intros H.
    + apply (serve_all p dv c iw 2 0 (w3_lines ix r) (by_3wire p iw w ix r)); auto; lia.
    + apply (need_all p dv c iw 2 0 (w3_lines ix r) (by_3wire p iw w ix r)); auto.
Qed.

(** C66: the default profile serves a display with the data sheet's times only if a write takes long
    enough by itself: a pin write 102 us, an I2C write 178 us, a shift register write 238 us. *)
Theorem timing_default : forall c,
  (covers_parallel default_profile datasheet c <-> 102 <= c) /\
  (covers_i2c default_profile datasheet c <-> 178 <= c) /\
  (covers_3wire default_profile datasheet c <-> 238 <= c).
Proof. intros c. unfold covers_parallel, covers_i2c, covers_3wire, covers.
  cbn [default_profile datasheet commented_profile p_power p_init_long p_init p_init_short p_command p_command_long p_pulse d_half d_slow d_fast d_data d_power d_first d_second]. lia. Qed.

(** C66: so with faster pins characters or commands get lost. *)
Theorem timing_default_refuted : forall c iw l, 0 <= c < 102 -> 8 <= iw -> en l = true ->
  ~ never_busy default_profile datasheet c iw l (by_pins default_profile l).
Proof.
  intros c iw l H Hiw E N. apply timing_exact in N; [|unfold profile_ok; cbn; lia|lia|exact Hiw|exact E]. apply timing_default in N. lia.
Qed.

(** C66: the condition for the start is exact too: with any less delay the initialisation and the clear
    after it reach a busy display. *)
Theorem timing_start_exact : forall p dv c, profile_ok p -> 0 <= c -> 0 <= d_power dv -> ~ covers_start 5 1 p dv c ->
  hears dv 0 start_lines (powered dv) (exactly c (snd (t_par_run p start_lines (t_power_up p ++ t_clear p)))) = None.
Proof.
  intros p dv c Hp Hc Hd N. destruct (hears _ _ _ _ _) eqn:E; [|reflexivity].
  exfalso. apply N. apply need_start; [exact Hp|exact Hc|exact Hd|]. rewrite E. discriminate.
Qed.

(** C66: the same over I2C and over a shift register. *)
Theorem timing_start_exact_i2c : forall p dv c iw, profile_ok p -> 0 <= c -> 0 <= d_power dv -> 8 <= iw -> ~ covers_start 2 1 p dv c ->
  exists r acts, i2c_new iw = Some r /\ by_i2c p iw r (t_power_up p ++ t_clear p) = Some acts /\ hears dv 0 (i2c_lines r) (powered dv) (exactly c acts) = None.
Proof.
  intros p dv c iw Hp Hc Hd Hiw N. destruct (need_start_21 p dv c (i2c_lines 12) _ Hp Hc Hd (i2c_render p iw 12 Hiw ltac:(lia) eq_refl eq_refl) eq_refl) as (acts & D & X).
  exists 12, acts. split; [apply hd_i2c_new_l; exact Hiw|]. split; [exact D|]. destruct (hears _ _ _ _ _) eqn:E; [|reflexivity]. exfalso. apply N, X. discriminate.
Qed.
Theorem timing_start_exact_3wire : forall p dv c iw w ix r, profile_ok p -> 0 <= c -> 0 <= d_power dv -> 1 <= w <= iw ->
  Forall (fun i => 0 <= i < w) (index_list ix) -> NoDup (index_list ix) -> 0 <= r < 2 ^ w -> Z.testbit r (ien ix) = true -> Z.testbit r (irs ix) = false -> ~ covers_start 2 0 p dv c ->
  exists acts, by_3wire p iw w ix r (t_power_up p ++ t_clear p) = Some acts /\ hears dv 0 (w3_lines ix r) (powered dv) (exactly c acts) = None.
Proof.
  intros p dv c iw w ix r Hp Hc Hd Hw Hin Hdup R Re Rr N.
  destruct (need_start_20 p dv c (w3_lines ix r) _ Hp Hc Hd (w3_render p iw w ix r Hw Hin Hdup R Re) Rr) as (acts & D & X).
  exists acts. split; [exact D|]. destruct (hears _ _ _ _ _) eqn:E; [|reflexivity]. exfalso. apply N, X. discriminate.
Qed.

(** C66: the default profile does not wait long enough after power-on, unless a pin write takes a
    millisecond. *)
Theorem timing_start_refuted : forall c, covers_start 5 1 default_profile datasheet c <-> 1000 <= c.
Proof.
  intros c. unfold covers_start.
  cbn [default_profile datasheet commented_profile p_power p_init_long p_init p_init_short p_command p_command_long p_pulse d_half d_slow d_fast d_data d_power d_first d_second]. lia.
Qed.

(** C66: what a display may need with the default profile, number by number. *)
Theorem timing_default_waits : forall nib pre dv c,
  (covers nib pre default_profile dv c <->
     d_half dv <= 8 + (1 + nib) * c /\ d_data dv <= 8 + (1 + pre + nib) * c /\
     d_fast dv <= 23 + (1 + pre + nib) * c /\ d_slow dv <= 808 + (1 + pre + nib) * c) /\
  (covers_start nib pre default_profile dv c <->
     d_power dv <= 10000 + nib * c /\ d_first dv <= 1008 + (1 + nib) * c /\ d_second dv <= 38 + (1 + nib) * c /\
     d_fast dv <= 28 + (1 + nib) * c /\ d_fast dv <= 8 + (1 + pre + nib) * c).
Proof. intros. split; reflexivity. Qed.

(** C66: the delays in the comments of the profile do serve such a display, from power-on, once a pin
    write takes a microsecond. *)
Theorem timing_commented : forall c iw l, 1 <= c -> 8 <= iw -> en l = true ->
  covers_parallel commented_profile datasheet c /\ covers_start 5 1 commented_profile datasheet c /\
  never_busy commented_profile datasheet c iw l (by_pins commented_profile l).
Proof.
  intros c iw l H Hiw E. assert (C : covers_parallel commented_profile datasheet c) by (unfold covers_parallel, covers;
    cbn [default_profile datasheet commented_profile p_power p_init_long p_init p_init_short p_command p_command_long p_pulse d_half d_slow d_fast d_data d_power d_first d_second]; lia).
  split; [exact C|]. split; [unfold covers_start;
    cbn [default_profile datasheet commented_profile p_power p_init_long p_init p_init_short p_command p_command_long p_pulse d_half d_slow d_fast d_data d_power d_first d_second]; lia|]. apply timing_exact; [unfold profile_ok; cbn; lia|lia|exact Hiw|exact E|exact C].
Qed.

(** After a clear, one character on pins that take 4 us: with the default profile it is lost. *)
Example timing_clear_example :
  match t_calls default_profile 16 2 at0 [OnCtl CClear; OnView (VChar 65)] with
  | Some (_, os) => hears datasheet 0 start_lines idle (exactly 4 (snd (t_par_run default_profile start_lines os))) = None
  | None => False
  end.
Proof. lazy. reflexivity. Qed.
(** With the delays in the comments it arrives. *)
Example timing_clear_example2 :
  match t_calls commented_profile 16 2 at0 [OnCtl CClear; OnView (VChar 65)] with
  | Some (_, os) => match hears datasheet 0 start_lines idle (exactly 4 (snd (t_par_run commented_profile start_lines os))) with
                    | Some (_, ts) => ts = [(false, 1); (true, 65)]
                    | None => False
                    end
  | None => False
  end.
Proof. lazy. reflexivity. Qed.
(** From power-on with the delays in the comments. *)
Example timing_start_example :
  match t_calls commented_profile 16 2 at0 [OnView (VInit true); OnView (VChar 65)] with
  | Some (_, os) => match hears datasheet 0 start_lines (powered datasheet) (exactly 4 (snd (t_par_run commented_profile start_lines os))) with
                    | Some (d, ts) => dm d = M4 /\ ts = init_bytes 0 ++ [(true, 65)]
                    | None => False
                    end
  | None => False
  end.
Proof. lazy. split; reflexivity. Qed.

Print Assumptions timing_parallel.
Print Assumptions timing_i2c.
Print Assumptions timing_3wire.
Print Assumptions timing_start_parallel.
Print Assumptions timing_start_i2c.
Print Assumptions timing_start_3wire.
Print Assumptions timing_exact.
Print Assumptions timing_default.
Print Assumptions timing_default_refuted.
Print Assumptions timing_start_exact.
Print Assumptions timing_start_exact_i2c.
Print Assumptions timing_start_exact_3wire.
Print Assumptions timing_start_refuted.
Print Assumptions timing_default_waits.
Print Assumptions timing_commented.
