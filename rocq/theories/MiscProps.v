(** Properties of identifiable objects and debug messages. *)
Require Import ZArith List Bool Lia.
Import ListNotations.
From Verif Require Import Base TimeModel TimeSpec TimeProofs MiscModel MiscSpec MiscProofs.
Open Scope Z_scope.

(** C93.  On AVR, where memory has 64 KB and nothing lies at address 0, objects that lie apart have
    different ids, and no id is 0. *)
Theorem ident_distinct : forall x y, in_memory 16 x -> in_memory 16 y -> apart x y ->
  get_id (fst x) <> get_id (fst y) /\ 0 < get_id (fst x) < 65536.
Proof. intros x y H K A. destruct (ident_distinct_l x y H K A) as [D [_ R]]. split; assumption. Qed.
Print Assumptions ident_distinct.

(** C93.  Objects that share one Delays and pass their ids each have a timer of their own, as if Delays knew
    them by their address: on any board on which their addresses differ in the low 16 bits and none of these
    are 0. *)
Theorem ident_timers : forall n ops s outs, Forall times_ok ops ->
  (forall a, In a (addresses ops) -> get_id a <> 0) ->
  (forall a b, In a (addresses ops) -> In b (addresses ops) -> get_id a = get_id b -> a = b) ->
  dl_run (dl_init n) (map by_object ops) = Some (s, outs) ->
  forall a, In a (addresses ops) -> about a ops outs = tm_run a None 0 ops.
Proof. exact ident_timers_l. Qed.
Print Assumptions ident_timers.

(** C93: so it is on AVR for numbered objects that lie apart: each has a timer of its own. *)
Theorem ident_timers_avr : forall layout n ops s outs, Forall times_ok ops ->
  (forall k, In k (addresses ops) -> in_memory 16 (layout k)) ->
  (forall k j, In k (addresses ops) -> In j (addresses ops) -> k <> j -> apart (layout k) (layout j)) ->
  dl_run (dl_init n) (map by_object (map (placed layout) ops)) = Some (s, outs) ->
  forall k, In k (addresses ops) -> about k ops outs = tm_run k None 0 ops.
Proof. exact ident_timers_avr_l. Qed.
Print Assumptions ident_timers_avr.

(** C93, finding: with more than 64 KB of memory objects can share an id.  A delay of 10 of the second object
    then ends after 5, because the polls of the first count for it too. *)
Theorem ident_collision_refuted : forall a b, a <> b -> get_id a = get_id b -> get_id a <> 0 ->
  let ops := [DWait a 10; DWait b 10; DUpdate 5; DWait a 10; DWait b 10] in
  exists s outs, dl_run (dl_init 4) (map by_object ops) = Some (s, outs) /\
    about b ops outs = [false; true] /\ tm_run b None 0 ops = [false; false].
Proof. exact ident_collision_l. Qed.
Print Assumptions ident_collision_refuted.
(** C93, finding: an object at a multiple of 64 KB has id 0, for which Delays answers true at once. *)
Theorem ident_zero_refuted : forall a n t, a mod 65536 = 0 -> (2 <= n)%nat ->
  exists s, dl_step (dl_init n) (by_object (DWait a t)) = Some (s, true).
Proof. exact ident_zero_l. Qed.
Print Assumptions ident_zero_refuted.

(** C94.  In a debug build with AtlDebugWrite the messages that AtlDebugLevel lets through are written, in order;
    without AtlDebugLevel all are; in any other build none. *)
Theorem debug_log : forall dbg write level l,
  log_all dbg write level l =
  if dbg && write
  then map snd (filter (fun x => match level with None => true | Some f => f (fst (fst x)) (snd (fst x)) end) l)
  else [].
Proof. exact log_all_filter. Qed.
Print Assumptions debug_log.
(** C94.  What CanLog promises: when it answers false nothing is written; when it answers true the message is
    written if there is an AtlDebugWrite. *)
Theorem debug_can_log : forall dbg write level c v m,
  (can_log dbg level c v = false -> log dbg write level c v m = []) /\
  (can_log dbg level c v = true -> log dbg write level c v m = if write then [m] else []).
Proof.
  intros dbg write level c v m. unfold log. destruct dbg, write; cbn [negb]; split; intros H; try reflexivity;
    try (rewrite H; reflexivity); discriminate H.
Qed.
Print Assumptions debug_can_log.
(** C94, finding: CanLog answers true in a debug build without AtlDebugWrite, where nothing is written. *)
Theorem debug_can_log_refuted : forall c v m, can_log true None c v = true /\ log true false None c v m = [].
Proof. split; reflexivity. Qed.
Print Assumptions debug_can_log_refuted.

(** Non-vacuity.  The four tasks of a sketch on AVR; two objects of a board with 96 KB of RAM from 0x20070000. *)
Example ident_example :
  Forall (in_memory 16) [(256, 2); (258, 2); (260, 6); (2303, 1)] /\
  ForallOrdPairs apart [(256, 2); (258, 2); (260, 6); (2303, 1)] /\
  get_id 537331968 = get_id 537397504 /\ get_id 537331968 <> 0.
Proof. repeat constructor; unfold apart; cbn; try lia; discriminate. Qed.
Example ident_timers_example :
  let ops := [DWait 1 10; DWait 2 5; DUpdate 7; DWait 1 10; DWait 2 5; DUpdate 3; DWait 1 10] in
  let layout := fun k => (254 + 2 * k, 2) in
  exists s outs, dl_run (dl_init 4) (map by_object (map (placed layout) ops)) = Some (s, outs) /\
    about 1 ops outs = [false; false; true] /\ about 2 ops outs = [false; true].
Proof. eexists. eexists. repeat split; lazy; reflexivity. Qed.
Example debug_example :
  log_all true true (Some (fun c v => (c =? 128) && (v <=? 3))) [(128, 2, [1]); (129, 2, [2]); (128, 5, [3]); (128, 3, [4])]
  = [[1]; [4]].
Proof. reflexivity. Qed.
