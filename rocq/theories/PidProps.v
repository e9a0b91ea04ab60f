(** Properties of PID. *)
Require Import ZArith List Bool Lia.
Import ListNotations.
From Verif Require Import Base RangeModel PidModel PidSpec PidProofs.
Open Scope Z_scope.

(** C38.  T = long: as long as nothing overflows, every output of every history is the limited sum
    of the proportional, integral and derivative terms. *)
Theorem pid_output_refines : forall r largest ins s s' vs, 0 <= largest -> r_begin r <= r_end r ->
  Forall (fun i => 0 <= i_dt i) ins ->
  pid_run TLong r largest s ins = Some (s', vs) ->
  p_acc s' = integral r largest (p_acc s) ins /\ length vs = length ins /\
  forall n i, nth_error ins n = Some i ->
    nth_error vs n = Some (pid_output r largest (p_acc s) (p_last s) (firstn n ins) i).
Proof. exact run_long. Qed.
Print Assumptions pid_output_refines.

(** C38.  And nothing overflows on histories of moderate size, however long. *)
Theorem pid_defined : forall r largest ins s, 0 <= largest -> -1000000 <= r_begin r <= 0 -> 0 <= r_end r <= 1000000 ->
  Forall moderate ins -> r_begin r <= p_acc s <= r_end r -> Z.abs (p_last s) <= 4000 ->
  exists s' vs, pid_run TLong r largest s ins = Some (s', vs).
Proof. exact run_defined. Qed.
Print Assumptions pid_defined.
(** C38.  In general it is defined exactly if every intermediate result fits. *)
Theorem pid_defined_iff : forall r largest ins s, 0 <= largest -> r_begin r <= r_end r -> Forall (fun i => 0 <= i_dt i) ins ->
  (pid_run TLong r largest s ins <> None <->
   forall n i, nth_error ins n = Some i -> fits_long r largest (p_acc s) (p_last s) (firstn n ins) i).
Proof. exact run_long_iff. Qed.
Print Assumptions pid_defined_iff.
(** A proportional term of exactly 2^31 is too much, one of -2^31 is not. *)
Example pid_edge_example :
  let i p := mkIn 1 0 1 p 0 0 (fun e _ => e) in
  pid_run TLong (mkRange (-255) 255) 0 (mkPid 0 0) [i (-2147483648)] = Some (mkPid 0 1, [-255]) /\
  pid_run TLong (mkRange (-255) 255) 0 (mkPid 0 0) [i 2147483648] = None.
Proof. split; lazy; reflexivity. Qed.
Example pid_example :
  let i sp := mkIn sp 100 10 2 1 5 (fun e _ => e) in
  pid_run TLong (mkRange (-255) 255) 1 (mkPid 0 0) [i 110; i 105; i 101; i 90] = Some (mkPid (-100) (-10), [125; 158; -2; -125]).
Proof. vm_compute. reflexivity. Qed.

(** C38.  For int and long: outputs are always within the range, and so is the integral once it
    starts there and the range contains 0. *)
Theorem pid_bounded : forall t r largest ins s s' vs, r_begin r <= r_end r ->
  pid_run t r largest s ins = Some (s', vs) ->
  Forall (fun v => r_begin r <= v <= r_end r) vs /\
  (r_begin r <= 0 <= r_end r -> r_begin r <= p_acc s <= r_end r -> r_begin r <= p_acc s' <= r_end r).
Proof. exact run_bounds. Qed.
Print Assumptions pid_bounded.

(** C38.  Without limiting or dead band the integral is the sum over the history. *)
Theorem pid_integral_sum : forall r largest ins acc, r_begin r <= r_end r ->
  Forall (fun i => ~ dead largest i /\ i_i i <> 0) ins ->
  (forall n, (n <= length ins)%nat ->
     r_begin r <= acc + fold_right Z.add 0 (map (fun i => raw_error i * i_dt i * i_i i) (firstn n ins)) <= r_end r) ->
  integral r largest acc ins = acc + fold_right Z.add 0 (map (fun i => raw_error i * i_dt i * i_i i) ins).
Proof. exact integral_sum. Qed.
Print Assumptions pid_integral_sum.

(** C38.  No wind-up: under a constant error the integral moves linearly and then stays at the end
    of the range, so it moves back at the first call with an opposite error. *)
Theorem pid_no_windup : forall r largest i n acc, r_begin r <= acc <= r_end r -> ~ dead largest i -> i_i i <> 0 ->
  integral r largest acc (repeat i n) = limit r (acc + Z.of_nat n * (raw_error i * i_dt i * i_i i)).
Proof. exact integral_saturates. Qed.
Print Assumptions pid_no_windup.

(** C38.  In the dead band the integral is forgotten, and without a derivative gain the output is 0. *)
Theorem pid_dead_band : forall r largest acc last before i, r_begin r <= 0 <= r_end r -> dead largest i ->
  integral r largest acc (before ++ [i]) = 0 /\
  (i_d i = 0 -> pid_output r largest acc last before i = 0).
Proof. exact dead_output. Qed.
Print Assumptions pid_dead_band.

(** C38, findings.  Neither field is initialised, and with an integral gain of 0 ("unused term") the
    garbage is still added to the output. *)
Theorem pid_uninitialised_refuted : forall g, -1000 <= g <= 1000 ->
  process TLong (mkRange (-5000) 5000) 0 (mkPid g 0) (mkIn 10 0 1 1 0 0 (fun e _ => e)) = Some (mkPid g 10, 10 + g).
Proof.
  intros g H. unfold process, calc_error, calc_p, calc_i, calc_d. cbn [i_set i_feedback i_dt i_p i_i i_d i_filter].
  rewrite chk_ok by lia. cbn [bind Z.eqb p_acc p_last]. 
  change (((10 - 0 <=? 0) && (10 - 0 >=? 0) || (10 - 0 >=? - 0) && (10 - 0 <=? 0))%bool) with false.
  cbv iota. cbn [bind]. change (10 - 0) with 10. rewrite (chk_ok (10 * 1)) by lia. cbn [bind p_acc p_last].
  rewrite chk_ok by lia. cbn [bind]. rewrite chk_ok by lia. cbn [bind].
  rewrite clip_limit by (cbn; lia). unfold limit. cbn [r_begin r_end]. do 2 f_equal. lia.
Qed.
Print Assumptions pid_uninitialised_refuted.

(** C38, findings for T = int where int has 16 bits: deltaTime is unsigned, so a falling error gives
    a large positive derivative term, and the integral wraps around instead of saturating. *)
Theorem pid_int_refuted :
  (* error falls from 20 to 10 in 2 ms: the term is 32763 instead of -5 *)
  process TInt (mkRange (-255) 255) 0 (mkPid 0 20) (mkIn 10 0 2 0 0 1 (fun e _ => e)) = Some (mkPid 0 10, 255) /\
  pid_output (mkRange (-255) 255) 0 0 20 [] (mkIn 10 0 2 0 0 1 (fun e _ => e)) = -5 /\
  (* a positive error of 200 over 200 ms drives the integral to the lower end *)
  process TInt (mkRange (-255) 255) 0 (mkPid 0 0) (mkIn 200 0 200 0 1 0 (fun e _ => e)) = Some (mkPid (-255) 200, -255).
Proof. vm_compute. auto. Qed.
Print Assumptions pid_int_refuted.

(** C38.  T = int with 16 bits is right as long as nothing leaves the 16 bits and the derivative term
    does not fall: the products error * time * gain themselves may. *)
Theorem pid_int_exact : forall r largest ins s, 0 <= largest -> r_begin r <= r_end r ->
  Forall (fun i => 0 <= i_dt i) ins ->
  (forall n i, nth_error ins n = Some i -> fits_int r largest (p_acc s) (p_last s) (firstn n ins) i) ->
  exists s' vs, pid_run TInt r largest s ins = Some (s', vs) /\
    p_acc s' = integral r largest (p_acc s) ins /\ length vs = length ins /\
    forall n i, nth_error ins n = Some i ->
      nth_error vs n = Some (pid_output r largest (p_acc s) (p_last s) (firstn n ins) i).
Proof. exact run_int. Qed.
Print Assumptions pid_int_exact.
(** The first call is in the dead band; in the last one 120 * 300 does not fit, the new integral does. *)
Example pid_int_ex :
  let ins := [mkIn 5 0 10 2 1 0 (fun e _ => e); mkIn 100 0 10 2 (-5) 3 (fun e _ => e); mkIn 120 0 300 1 1 3 (fun e _ => e)] in
  (forall n i, nth_error ins n = Some i -> fits_int (mkRange (-20000) 20000) 5 0 0 (firstn n ins) i) /\
  pid_run TInt (mkRange (-20000) 20000) 5 (mkPid 0 0) ins = Some (mkPid 20000 120, [0; -4770; 20000]).
Proof.
  split; [|reflexivity]. intros [|[|[|n]]] i E; cbn in E; try (destruct n; discriminate); injection E as <-;
    unfold fits_int, int16; cbn; repeat split; intros; lia.
Qed.
(** C38, finding: with T = int every falling derivative over two or more time units counts as a
    rise. *)
Theorem pid_int_falling_refuted : forall s e dt bias filter, 2 <= dt < 65536 -> bias <> 0 ->
  let num := (filter e dt - p_last s) * bias in
  int16 (filter e dt - p_last s) -> int16 num -> num < 0 ->
  exists v, calc_d TInt s e dt bias filter = Some (mkPid (p_acc s) (filter e dt), v) /\
    v = (65536 + num) / dt /\ 0 <= v /\ Z.quot num dt <= 0.
Proof. exact int_falls. Qed.
Print Assumptions pid_int_falling_refuted.

(** C38, finding: a derivative gain with a delta time of 0 divides by zero. *)
Theorem pid_zero_time_refuted : forall t,
  process t (mkRange (-255) 255) 0 (mkPid 0 0) (mkIn 10 0 0 0 0 1 (fun e _ => e)) = None.
Proof. intros []; reflexivity. Qed.
Print Assumptions pid_zero_time_refuted.
