(** C84: blocking delays. *)
Require Import ZArith List Bool Lia.
Import ListNotations.
From Verif Require Import Base RealModel HdTimeModel HdTimeSpec DelayModel DelaySpec DelayProofs.
Open Scope Z_scope.

(** Arduino, microseconds: up to 16385 the call takes at least as long as asked, from 2 on as long but for the
    rest of the call itself; above it is always too short. *)
Theorem delay_us : forall short long t, 16 <= short <= 1000 -> 20 <= long < 36 -> 0 <= t < 4294967296 ->
  (us_cycles t <= wait_us short long t <-> t <= 16385) /\
  (2 <= t <= 16385 -> wait_us short long t = us_cycles t + (long - 20)).
Proof. intros short long t S L T. split; [apply us_exact_l; assumption|apply us_close_l]. Qed.
Print Assumptions delay_us.
(** Finding: 16.386 ms takes less than 5 us, and 65.536 ms and 65.537 ms are not waited for at all. *)
Theorem delay_us_refuted : forall short long, 20 <= long < 36 ->
  wait_us short long 16386 < us_cycles 5 /\ wait_us short long 65536 = short /\ wait_us short long 65537 = short.
Proof. intros short long L. split; [|split; reflexivity]. change (wait_us short long 16386) with (long + 4 * 3). unfold us_cycles. lia. Qed.
Print Assumptions delay_us_refuted.

(** Arduino, milliseconds: however the loop is delayed, the call does not end more than 4 us too early.  If the loop
    reads the clock at least every 996 us it ends with the first reading of as many microseconds, so at most 1 ms
    too late - for all timeouts, also across the wrap of micros(). *)
Theorem delay_ms : forall t now polls, 0 <= t < 4294967296 -> rising now polls ->
  (forall c, wait_ms t now polls = Some c -> ms_cycles t - 64 < c - now) /\
  (0 < t -> within 15936 now polls ->
    wait_ms t now polls = find (fun c => 1000 * t <=? 4 * (c / 64) - 4 * (now / 64)) polls /\
    (forall c, wait_ms t now polls = Some c -> c - now < ms_cycles t + ms_cycles 1) /\
    (forall c, In c polls -> ms_cycles t + 64 <= c - now -> wait_ms t now polls <> None)).
Proof.
  intros t now polls T R. split; [intros c E; apply (ms_at_least_l t now polls c T R E)|]. intros T0 W. assert (T1 : 0 < t < 4294967296) by lia.
  split; [apply ms_exact_l; assumption|]. split.
  - intros c E. pose proof (ms_latest_l t now polls c T1 R W E) as H. change (ms_cycles 1) with (64 + 15936). lia.
  - intros c I H. apply (ms_ends_l t now polls c T1 R W I H).
Qed.
Print Assumptions delay_ms.
(** Finding: it can end too early. *)
Theorem delay_ms_early_refuted : exists now polls c, rising now polls /\ wait_ms 1 now polls = Some c /\ c - now < ms_cycles 1.
Proof. exists 63, [15999; 16000], 16000. repeat split; try (cbn [rising]; lia); unfold ms_cycles; lia. Qed.
Print Assumptions delay_ms_early_refuted.
Example delay_ms_example : wait_ms 2 4294967295999 [4294967296100; 4294967312064; 4294967328000; 4294967344000] = Some 4294967328000.
Proof. reflexivity. Qed.

(** AVR: any clock, in units of 1/per seconds: if the cycles fit in 32 bits, they are as many as asked, short of
    at most one part in 2^22, and over by at most one cycle and one part in 2^21. *)
Theorem delay_avr : forall f per t, 1 <= f -> per = 1000 \/ per = 1000000 -> 0 <= t < 4294967296 -> f * t <= per * 4294963200 ->
  exists n, delay_cycles f per t = Some n /\ 4194303 * (f * t) <= 4194304 * (per * n) /\ 2097152 * (per * (n - 1)) <= 2097153 * (f * t).
Proof. intros f per t F P T B. apply cycles_l; try assumption. destruct P; subst per; lia. Qed.
Print Assumptions delay_avr.
(** With a clock of up to 16 MHz that makes whole cycles, delays below 2^24 cycles are exact. *)
Theorem delay_avr_exact : forall k per t, per = 1000 \/ per = 1000000 -> 0 <= k -> 0 <= t < 16777216 -> per * k < 16777216 -> k * t < 16777216 ->
  delay_cycles (per * k) per t = Some (k * t).
Proof. intros k per t P K T B1 B2. apply cycles_exact_l; try assumption. destruct P; subst per; lia. Qed.
Print Assumptions delay_avr_exact.
(** Finding: at 16 MHz five minutes are undefined. *)
Theorem delay_avr_refuted : delay_cycles 16000000 1000 300000 = None.
Proof. lazy. reflexivity. Qed.
Print Assumptions delay_avr_refuted.

(** The display driver's delays (C66), for any profile in reach: at least as long as in the profile, after power-on
    short of at most 4 us.  The default profile and the one in the comments are in reach. *)
Theorem delay_profile : forall p, in_reach p ->
  (forall short long t, 16 <= short -> 20 <= long -> In t [p_init_long p; p_init p; p_init_short p; p_command p; p_command_long p; p_pulse p] ->
    us_cycles t <= wait_us short long t) /\
  (exists ms, p_power p = 1000 * ms /\ forall now polls c, rising now polls -> wait_ms ms now polls = Some c -> us_cycles (p_power p - 4) < c - now).
Proof.
  intros p [(ms & M & E) F]. split.
  - intros short long t S L I. rewrite Forall_forall in F. apply us_at_least_l; try assumption. apply F. exact I.
  - exists ms. split; [exact E|]. intros now polls c R W. pose proof (ms_at_least_l ms now polls c M R W) as H. rewrite E. unfold us_cycles. unfold ms_cycles in H. lia.
Qed.
Print Assumptions delay_profile.
Example delay_profile_example : in_reach default_profile /\ in_reach commented_profile.
Proof.
  split; split; try (exists 10; split; [lia|reflexivity]); try (exists 50; split; [lia|reflexivity]); repeat (constructor; [cbn; lia|]); constructor.
Qed.
