(** Specification for both streams on one USART. *)
Require Import ZArith List Bool.
Import ListNotations.
From Verif Require Import Base RingModel StreamModel StreamSpec AvrModel DuplexModel.
Open Scope Z_scope.

(** What is sent so far is the beginning of what was accepted (with the byte of a Write that is about to end), the
    rest is queued; outside Write the length is exact, and the interrupt is on whenever something is queued. *)
Definition tx_good (St : Z) (d : dxs) (rest : list Z) : Prop :=
  accepted (t_done (d_tx d)) ++ (match t_pc (d_tx d) with TWrap v => [v] | _ => [] end) = t_sent (d_tx d) ++ rest /\
  Z.of_nat (length rest) <= St - 1 /\
  (t_pc (d_tx d) = TIdle -> ring_length St (t_ring (d_tx d)) = Z.of_nat (length rest) /\
     (rest <> [] -> Z.testbit (d_b d) 5 = true)).
(** What the handler stored is what Read returned, the byte being returned, and the rest, which is queued; outside
    Read the length is exact, and the interrupt is on exactly if a Read has been finished; its first answer is -1,
    and nothing is stored before. *)
Definition rx_good (Sr : Z) (d : dxs) (rest : list Z) : Prop :=
  r_acc (d_rx d) = filter (fun v => 0 <=? v) (r_got (d_rx d)) ++ (match r_pc (d_rx d) with RWrap v => [v] | _ => [] end) ++ rest /\
  Z.of_nat (length rest) <= Sr - 1 /\
  (r_pc (d_rx d) = RIdle -> ring_length Sr (r_ring (d_rx d)) = Z.of_nat (length rest) /\
     (Z.testbit (d_b d) 7 = true <-> r_got (d_rx d) <> [])) /\
  (forall v l, r_got (d_rx d) = v :: l -> v = -1) /\ (r_got (d_rx d) = [] -> r_acc (d_rx d) = []).
(** The switches that are used: transmitter, receiver, transmit complete interrupt. *)
Definition switch (e : dev) : Prop := match e with DSet k _ => k = 3 \/ k = 4 \/ k = 6 | _ => True end.
(** Bit [i] of UCSRB belongs to nobody in this history: neither the streams nor a switch change it. *)
Definition unswitched (i : Z) (e : dev) : Prop := match e with DSet k _ => k <> i | _ => True end.
(** A handler of the program (a timer's, say) that calls Write itself: the whole call at one go, its switch on too. *)
Definition isr_write (St : Z) (d : dxs) (v : Z) : option dxs :=
  option_map (fun s => mkD s (d_rx d) (r_put (d_b d) 5 true) (d_set d) (d_oth d)) (tx_run St (txof d) (tx_write v)).
(** Into Read, to the first load of its switch on. *)
Definition in_read : list dev := [DRead; DStep; DStep; DStep].
(** Steps and handlers, no new call. *)
Definition no_call (e : dev) : Prop := match e with DStep | DUdre | DRxc _ _ => True | _ => False end.
(** The values of the calls of Write that were begun. *)
Fixpoint d_calls (St Sr : Z) (d : dxs) (evs : list dev) : list Z :=
  match evs with
  | [] => []
  | e :: r => (match e with DWrite v => if at_rest d then [v] else [] | _ => [] end) ++
              match d_step St Sr d e with Some d' => d_calls St Sr d' r | None => [] end
  end.
