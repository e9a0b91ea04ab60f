(** Properties of Time, TimeEx and Delays. *)
Require Import ZArith List Bool Lia.
Import ListNotations.
From Verif Require Import Base TimeModel TimeSpec TimeProofs.
Open Scope Z_scope.

(** C21.  The true clock reads [now] at the last Update and advances by [dts]. *)
Theorem time_deltas_exact : forall dts now, Forall (fun d => 0 <= d < 4294967296) dts ->
  clock_run (u32 now) now dts = dts /\ sumZ (clock_run (u32 now) now dts) = sumZ dts.
Proof. exact clock_exact_l. Qed.
Print Assumptions time_deltas_exact.

(** Longer intervals lose whole turns of the counter. *)
Theorem time_deltas_modulo : forall dts now, Forall (fun d => 0 <= d) dts ->
  clock_run (u32 now) now dts = map u32 dts.
Proof. exact clock_run_l. Qed.
Print Assumptions time_deltas_modulo.

Theorem time_conversions : forall ticks, 0 <= ticks < 4294967296 ->
  time_ms false ticks = ticks /\ time_us true ticks = ticks /\
  (time_us false ticks = ticks * 1000 <-> ticks <= 4294967) /\
  1000 * time_ms true ticks <= ticks < 1000 * (time_ms true ticks + 1) /\
  (ticks <= 4294967 -> time_ms true (time_us false ticks) = ticks).
Proof. exact time_conv_l. Qed.
Print Assumptions time_conversions.

(** TimeEx: Update answers the elapsed ticks; getDeltaTime keeps only 16 bits of them. *)
Theorem time_ex_delta : forall s now dt, te_ticks s = u32 now -> 0 <= dt < 4294967296 ->
  let (s', d) := tex_update s (u32 (now + dt)) in
  d = dt /\ te_start s' = te_start s /\ te_ticks s' = u32 (now + dt) /\
  tex_delta s' = dt mod 65536 /\ (tex_delta s' = dt <-> dt < 65536).
Proof. exact tex_delta_l. Qed.
Print Assumptions time_ex_delta.

(** TimeEx: the start time is the clock reading at the last Reset (or at construction), whatever
    Updates follow; getDeltaTime is 0 right after Reset and otherwise the time between the last
    two readings, kept to 16 bits. *)
Theorem time_ex_start : forall us now pre mid,
  let t0 := last_reading now pre in
  let s := tex_run (tex_new now) (pre ++ TxReset :: map TxUpdate mid) in
  tex_start_ms us s = time_ms us t0 /\ tex_start_us us s = time_us us t0 /\
  (mid = [] -> tex_delta s = 0) /\
  (forall mid' n, mid = mid' ++ [n] -> tex_delta s = (n - last (t0 :: mid') 0) mod 65536) /\
  tex_start_ms us (tex_run (tex_new now) (map TxUpdate mid)) = time_ms us now /\
  tex_start_us us (tex_run (tex_new now) (map TxUpdate mid)) = time_us us now.
Proof. exact tex_start_l. Qed.
Print Assumptions time_ex_start.

(** C22.  After Wait(id,t) started a delay, the polls answer false while the deltas they saw sum
    to less than t, and true at the first poll where the sum reaches t; other ids may do anything. *)
Theorem delay_fires_at_first_opportunity : forall n pre s0 outs0 id t mid s outs,
  Forall dl_ok pre -> dl_run (dl_init n) pre = Some (s0, outs0) ->
  0 < id < 65536 -> 0 <= t < 4294967296 -> dl_waiting (d_slots s0) id = false ->
  Forall dl_ok mid -> Forall (fun o => is_cancel id o = false) mid ->
  dl_run s0 (DWait id t :: mid) = Some (s, outs) ->
  exists rest, outs = false :: rest /\
  let ds := poll_deltas id (d_delta s0) mid in
  let ans := answers (is_wait id) mid rest in
  length ans = length ds /\
  forall k, (k < length ds)%nat -> (forall i, (i < k)%nat -> nth i ans true = false) ->
    nth k ans false = (t <=? sumZ (firstn (S k) ds)).
Proof. exact delay_exact_l. Qed.
Print Assumptions delay_fires_at_first_opportunity.

(** C22.  With at most one poll per Update a delay never fires before its time has passed. *)
Theorem delay_never_early : forall n pre s0 outs0 id t mid s outs,
  Forall dl_ok pre -> dl_run (dl_init n) pre = Some (s0, outs0) ->
  0 < id < 65536 -> 0 <= t < 4294967296 -> dl_waiting (d_slots s0) id = false ->
  Forall dl_ok mid -> Forall (fun o => is_cancel id o = false) mid ->
  once_per_update id false mid = true ->
  dl_run s0 (DWait id t :: mid) = Some (s, outs) ->
  In true (answers (is_wait id) mid (tl outs)) -> t <= elapsed mid.
Proof. exact delay_not_early_l. Qed.
Print Assumptions delay_never_early.

(** C22, finding: polling twice after one Update counts its delta twice; the delay of 10 fires
    after 5 ticks. *)
Theorem delay_double_poll_early_refuted :
  exists s, dl_run (dl_init 4) [DWait 1 10; DUpdate 5; DWait 1 10; DWait 1 10] = Some (s, [false; false; false; true]).
Proof. eexists. vm_compute. reflexivity. Qed.
Print Assumptions delay_double_poll_early_refuted.

(** C22, finding: deltas of Updates without a poll are lost; after 1000 ticks the delay of 10 has
    not fired. *)
Theorem delay_skipped_poll_late_refuted :
  exists s, dl_run (dl_init 4) [DWait 1 10; DUpdate 999; DUpdate 1; DWait 1 10] = Some (s, [false; false; false; false]).
Proof. eexists. vm_compute. reflexivity. Qed.
Print Assumptions delay_skipped_poll_late_refuted.

(** C23.  Every id behaves as its own private timer, whatever happens to the other ids. *)
Theorem delays_independent : forall n ops s outs, Forall dl_ok ops -> dl_run (dl_init n) ops = Some (s, outs) ->
  forall id, 0 < id < 65536 -> about id ops outs = tm_run id None 0 ops.
Proof. exact delays_timers_l. Qed.
Print Assumptions delays_independent.

(** C23, C24.  After any history each waiting id occupies one slot, and a further call is undefined exactly when it starts a new delay in a full table. *)
Theorem delays_capacity : forall n ops s outs, Forall dl_ok ops -> dl_run (dl_init n) ops = Some (s, outs) ->
  let L := filter (fun id => negb (id =? 0)) (map fst (d_slots s)) in
  length (d_slots s) = n /\ NoDup L /\ (forall id, 0 < id < 65536 -> (In id L <-> dl_waiting (d_slots s) id = true)) /\
    (length L <= n)%nat /\
    forall o, dl_ok o -> (dl_step s o = None <-> exists id t, o = DWait id t /\ ~ In id L /\ length L = n).
Proof. exact delay_capacity_l. Qed.
Print Assumptions delays_capacity.

(** C23.  getLastDeltaTime answers the delta of the last Update, kept to 16 bits. *)
Theorem delays_last_delta : forall n ops s outs, Forall dl_ok ops -> dl_run (dl_init n) ops = Some (s, outs) ->
  let d := last_update 0 ops in
  dl_last_delta s = d mod 65536 /\ (dl_last_delta s = d <-> d < 65536).
Proof. exact last_delta_l. Qed.
Print Assumptions delays_last_delta.
Example delays_last_delta_example :
  exists s, dl_run (dl_init 2) [DUpdate 5; DWait 1 10; DUpdate 65540; DWait 1 10] = Some (s, [false; false; false; true]) /\ dl_last_delta s = 4.
Proof. eexists. split; lazy; reflexivity. Qed.

(** C24, finding: id 0 marks empty slots.  In a fresh table of two or more slots Wait(0,t) answers
    true at once for every t. *)
Theorem delay_id_zero_immediate : forall n t, (2 <= n)%nat ->
  exists s, dl_step (dl_init n) (DWait 0 t) = Some (s, true).
Proof. exact wait_zero_fresh_l. Qed.
Print Assumptions delay_id_zero_immediate.

(** With exactly one free slot it never completes, however long one polls. *)
Theorem delay_id_zero_never : forall ts s, free_slots (d_slots s) = 1%nat ->
  exists s', dl_run s (flat_map (fun p => [DUpdate (fst p); DWait 0 (snd p)]) ts)
             = Some (s', repeat false (2 * length ts)).
Proof. exact wait_zero_forever_l. Qed.
Print Assumptions delay_id_zero_never.

(** Non-vacuity. *)
Example time_example :
  clock_run 4294967290 4294967290 [10; 3; 4294967295] = [10; 3; 4294967295].
Proof. vm_compute. reflexivity. Qed.
Example time_ex_example :
  let s := tex_new 100 in
  let (s', d) := tex_update s 70100 in d = 70000 /\ tex_delta s' = 4464.
Proof. vm_compute. split; reflexivity. Qed.
Example delay_example :
  let mid := [DWait 2 1; DUpdate 3; DWait 2 1; DWait 1 10; DUpdate 6; DIsWaiting 1; DWait 1 10;
              DClear 2; DUpdate 1; DWait 1 10] in
  Forall dl_ok mid /\ Forall (fun o => is_cancel 1 o = false) mid /\ once_per_update 1 false mid = true /\
  poll_deltas 1 0 mid = [3; 6; 1] /\
  exists s outs, dl_run (dl_init 2) (DWait 1 10 :: mid) = Some (s, outs) /\
    answers (is_wait 1) mid (tl outs) = [false; false; true].
Proof.
  cbv zeta. split; [|split; [|split; [|split]]].
  - repeat (apply Forall_cons; [cbn; lia|]). apply Forall_nil.
  - repeat (apply Forall_cons; [reflexivity|]). apply Forall_nil.
  - reflexivity.
  - reflexivity.
  - eexists. eexists. split; vm_compute; reflexivity.
Qed.
Example delay_full_example :
  exists s outs, dl_run (dl_init 2) [DWait 1 10; DWait 7 5] = Some (s, outs) /\
    dl_step s (DWait 3 1) = None /\ free_slots (d_slots s) = 0%nat.
Proof. eexists. eexists. split; [vm_compute; reflexivity|]. vm_compute. repeat split. Qed.
Example delay_one_free_example :
  exists s outs, dl_run (dl_init 2) [DWait 1 10] = Some (s, outs) /\ free_slots (d_slots s) = 1%nat.
Proof. eexists. eexists. split; [vm_compute; reflexivity|]. vm_compute. repeat split. Qed.

Example time_ex_start_example :
  let s := tex_run (tex_new 5) [TxUpdate 9; TxReset; TxUpdate 20; TxUpdate 31] in
  tex_start_ms false s = 9 /\ tex_start_us false s = 9000 /\ tex_delta s = 11.
Proof. vm_compute. repeat split. Qed.
