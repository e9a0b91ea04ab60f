(** Properties of RingBuffer and BufferedInputStream. *)
Require Import ZArith List Bool.
Import ListNotations.
From Verif Require Import Base RingModel RingSpec RingProofs.
Open Scope Z_scope.

(** C01.  [ring_clear r0] is the constructed (or cleared) buffer over arbitrary memory.
    Whenever the call history never reads an empty queue, the buffer answers every call, and
    reports every length, as the bounded queue does. *)
Theorem ring_fifo : forall (T : Type) (Size : Z) (r0 : ring T) ops q outs,
  1 <= Size <= 65535 ->
  q_run (Size - 1) [] ops = Some (q, outs) ->
  exists r, ring_run Size (ring_clear r0) ops = Some (r, outs).
Proof. exact (fun T Size r0 ops q outs HS => @ring_fifo_l T Size HS r0 ops q outs). Qed.
Print Assumptions ring_fifo.

(** C02.  After any history that leaves the queue empty, one more Read succeeds; afterwards the
    buffer claims to be full: length Size-1, every Write refused, Size-1 further Reads answered. *)
Theorem ring_underrun : forall (T : Type) (Size : Z) (r0 : ring T) ops outs,
  1 <= Size <= 65535 ->
  q_run (Size - 1) [] ops = Some ([], outs) ->
  exists r r' v, ring_run Size (ring_clear r0) ops = Some (r, outs) /\
    ring_length Size r = 0 /\
    ring_read Size r = Some (r', v) /\
    ring_length Size r' = Size - 1 /\
    (forall w, ring_write Size r' w = Some (r', false)) /\
    exists r'' vs, ring_run Size r' (repeat RRead (Z.to_nat (Size - 1))) = Some (r'', vs) /\
      length vs = Z.to_nat (Size - 1).
Proof. exact (fun T Size r0 ops outs HS => @ring_underrun_l T Size HS r0 ops outs). Qed.
Print Assumptions ring_underrun.

(** C02.  What they answer: the last Size items ever written (before that, what the memory held), oldest first. *)
Theorem ring_underrun_stale : forall (T : Type) (Size : Z) (r0 : ring T) ops outs,
  1 <= Size <= 65535 -> Forall (fun o => o <> RClear) ops ->
  q_run (Size - 1) [] ops = Some ([], outs) ->
  exists r r' vs, ring_run Size (ring_clear r0) ops = Some (r, outs) /\
    ring_run Size r (repeat RRead (Z.to_nat Size)) = Some (r', vs) /\
    map fst vs = map ResRead (skipn (length (stored ops outs)) (cells_of Size (rb_mem r0) ++ stored ops outs)).
Proof. exact (fun T Size r0 ops outs HS => @ring_stale_l T Size HS r0 ops outs). Qed.
Print Assumptions ring_underrun_stale.

(** C02, the natural but false reading: a Read on an empty buffer leaves it empty. *)
Theorem ring_read_empty_harmless_refuted :
  exists (Size : Z) (r r' : ring Z) v,
    ring_length Size r = 0 /\ ring_read Size r = Some (r', v) /\ ring_length Size r' <> 0.
Proof. exact ring_read_empty_l. Qed.
Print Assumptions ring_read_empty_harmless_refuted.

(** C03.  BufferedInputStream over byte items: any history whatever is answered as by a stream. *)
Theorem buffered_input_stream : forall (T : Type) (Size : Z) (toZ : T -> Z) (r0 : ring T) ops,
  1 <= Size <= 65535 ->
  (forall v, 0 <= toZ v < 256) ->
  exists r, bis_run Size toZ (ring_clear r0) ops = Some (r, snd (stream_run (Size - 1) toZ [] ops)).
Proof. exact (fun T Size toZ r0 ops HS => @bis_stream_l T Size HS toZ r0 ops). Qed.
Print Assumptions buffered_input_stream.

(** Non-vacuity: a history that wraps both cursors twice and meets a full buffer. *)
Example ring_fifo_example :
  let ops := [RWrite 1; RWrite 2; RWrite 3; RRead; RWrite 4; RRead; RRead; RWrite 5; RWrite 6;
              RRead; RRead] in
  let outs := [(ResWrite true, 1); (ResWrite true, 2); (ResWrite false, 2); (ResRead 1, 1);
               (ResWrite true, 2); (ResRead 2, 1); (ResRead 4, 0); (ResWrite true, 1);
               (ResWrite true, 2); (ResRead 5, 1); (ResRead 6, 0)] in
  q_run 2 [] ops = Some ([], outs) /\
  option_map snd (ring_run 3 (ring_clear (mkRing (fun _ => 0) 1 2)) ops) = Some outs.
Proof. vm_compute. auto. Qed.

Example ring_underrun_example :
  option_map snd (ring_run 3 (ring_clear (mkRing (fun i => 100 + i) 1 2))
    [RWrite 1; RRead; RRead; RWrite 9; RRead; RRead; RRead]) =
  Some [(ResWrite true, 1); (ResRead 1, 0); (ResRead 101, 2); (ResWrite false, 2);
        (ResRead 102, 1); (ResRead 1, 0); (ResRead 101, 2)].
Proof. vm_compute. reflexivity. Qed.

Example buffered_input_stream_example :
  stream_run 2 (fun v => v) [] [RRead; RWrite 200; RWrite 5; RWrite 6; RRead; RRead; RRead] =
  ([], [inr (-1); inl (ResWrite true); inl (ResWrite true); inl (ResWrite false);
        inr 200; inr 5; inr (-1)]).
Proof. vm_compute. reflexivity. Qed.

(** After four Writes into a buffer of three cells 2, 3 and 4 come out again. *)
Example ring_underrun_stale_example :
  let ops := [RWrite 1; RRead; RWrite 2; RWrite 3; RRead; RRead; RWrite 4; RRead] in
  option_map (fun x => stored ops (snd x)) (q_run 2 [] ops) = Some [1; 2; 3; 4] /\
  option_map (fun x => skipn 8 (map fst (snd x))) (ring_run 3 (ring_clear (mkRing (fun i => 100 + i) 1 2)) (ops ++ [RRead; RRead; RRead])) =
    Some [ResRead 2; ResRead 3; ResRead 4].
Proof. vm_compute. split; reflexivity. Qed.
