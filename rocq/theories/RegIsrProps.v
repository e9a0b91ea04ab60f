(** C108: register calls of the main program while interrupt handlers make such calls too. *)
Require Import ZArith List Bool Lia.
Import ListNotations.
From Verif Require Import Base AvrModel AvrSpec RegIsrModel RegIsrSpec RegIsrProofs RegIsrMore.
Open Scope Z_scope.

(** C108, no value is invented.  Whatever the handlers do and whenever they run: when the main program is
    between two calls, its answers are those of its calls alone, and every bit has the value its own last
    call gave it, or one that a handler's call gave it.  In particular a bit that no handler names is right.
    [unasked]: no handler changes the direction of a pin whose direction the main program asks for. *)
Theorem reg_values : forall one m s prog evs, same_regs m s -> Forall rop_ok prog -> Forall rop_ok (handled evs) ->
  unasked prog (handled evs) -> let k := krun one (k_init m prog) evs in k_call k = None ->
  exists done, prog = done ++ k_prog k /\ k_ans k = snd (brun s done) /\ bytes (k_regs k) /\
    forall a i, 0 <= i < 8 -> Z.testbit (k_regs k a) i = fst (brun s done) a i \/
      exists o, In o (handled evs) /\ gives o a i (Z.testbit (k_regs k a) i).
Proof. exact reg_values_l. Qed.
Print Assumptions reg_values.

(** C108, inside a call: each bit has the value from before the call or the one after it, or one that a handler's
    call gave it; only where Bit::Set sets a bit that is set already it is clear for a moment. *)
Theorem reg_moment : forall one m s prog evs, same_regs m s -> Forall rop_ok prog -> Forall usart_real prog -> Forall rop_ok (handled evs) ->
  unasked prog (handled evs) -> let k := krun one (k_init m prog) evs in k_call k <> None ->
  exists done o, prog = done ++ o :: k_prog k /\ k_ans k = snd (brun s done) /\ bytes (k_regs k) /\
    forall a i, 0 <= i < 8 -> let x := Z.testbit (k_regs k a) i in
      x = fst (brun s done) a i \/ x = fst (brun s (done ++ [o])) a i \/ (x = false /\ blinks o a i) \/
      exists o', In o' (handled evs) /\ gives o' a i x.
Proof. exact reg_moment_l. Qed.
Print Assumptions reg_moment.
Example reg_blink_example :
  let k n := krun (fun a => a <? 64) (k_init (fun a => if a =? 193 then 32 else 0) [UdreInt 0 true]) (repeat KStep n) in
  map (fun n => k_regs (k n) (a_ucsrb 0)) [2; 3; 4; 5; 6]%nat = [32; 0; 0; 32; 32] /\ k_call (k 6%nat) = None.
Proof. split; reflexivity. Qed.

(** C108, it ends: so many instructions are enough, whatever the handlers do. *)
Theorem reg_done : forall prog, exists n, forall one m evs, (n <= ksteps evs)%nat ->
  let k := krun one (k_init m prog) evs in k_call k = None /\ k_prog k = [].
Proof. exact reg_done_l. Qed.
Print Assumptions reg_done.

(** C108, the handlers' bits.  As long as no handler changes a register that is loaded and not yet stored: at
    any moment every bit that the main program does not name is as the handlers' calls alone leave it. *)
Theorem reg_handlers : forall one prog m s evs, Forall rop_ok prog -> same_regs m s -> Forall rop_ok (handled evs) ->
  unasked (handled evs) prog -> polite one (k_init m prog) evs ->
  forall a i, 0 <= i < 8 -> (forall o, In o prog -> ~ names o a i) ->
  Z.testbit (k_regs (krun one (k_init m prog) evs) a) i = fst (brun s (handled evs)) a i.
Proof. intros one prog m s evs F. exact (reg_handlers_l one prog F m s evs). Qed.
Print Assumptions reg_handlers.

(** C108: enough for that is that each register changed by both sides is changed by one instruction. *)
Theorem reg_apart : forall one prog m evs, Forall rop_ok prog -> apart_regs one prog (handled evs) -> polite one (k_init m prog) evs.
Proof. intros one prog m evs F. exact (reg_apart_l one prog F m evs). Qed.
Print Assumptions reg_apart.

(** C108, otherwise: a handler between the load and the store of a register has changed this register in
    vain, all of it; what it did to other registers stays. *)
Theorem reg_lost : forall one m a i v r h prog ans os, one a = false -> bytes m -> Forall rop_ok os -> 0 <= i < 8 ->
  let k := krun one (mkK m (Some (Chg a i v :: r, None, h)) prog ans) [KStep; KIsr os; KStep] in
  (forall j, 0 <= j < 8 -> Z.testbit (k_regs k a) j = if j =? i then v else Z.testbit (m a) j) /\
  (forall b, b <> a -> k_regs k b = fst (rrun m os) b) /\ k_call k = Some (r, None, h).
Proof. exact reg_lost_l. Qed.
Print Assumptions reg_lost.

(** C108, two pins of one port, one written by the main program, the other by handlers: the handlers' pin
    has the value last written to it, always, exactly if the port is changed by one instruction. *)
Theorem reg_pins : forall one p pin pin', 0 <= pin < 8 -> 0 <= pin' < 8 -> pin <> pin' ->
  (one (a_out p) = true <->
   forall m vs evs, bytes m -> Forall (writes p pin') (handled evs) ->
     Z.testbit (k_regs (krun one (k_init m (map (PortWrite p pin) vs)) evs) (a_out p)) pin' =
     last_pin p pin' (handled evs) (Z.testbit (m (a_out p)) pin')).
Proof. exact reg_pins_l. Qed.
Print Assumptions reg_pins.
(** The main program's pin is right in any case. *)
Theorem reg_pin_main : forall one p pin pin' m vs evs, 0 <= pin < 8 -> 0 <= pin' < 8 -> pin <> pin' -> bytes m ->
  Forall (writes p pin') (handled evs) ->
  let k := krun one (k_init m (map (PortWrite p pin) vs)) evs in k_call k = None -> k_prog k = [] ->
  Z.testbit (k_regs k (a_out p)) pin = last vs (Z.testbit (m (a_out p)) pin).
Proof. exact reg_pin_main_l. Qed.
Print Assumptions reg_pin_main.

(** C108, Close of a USART: handlers that may switch its interrupts off at any moment, as the transmit
    stream's does, cannot keep Close from ending with everything off. *)
Theorem reg_close : forall one m id evs, id = 0 \/ id = 1 -> bytes m -> Forall rop_ok (handled evs) -> Forall (only_off id) (handled evs) ->
  let k := krun one (k_init m [Close id]) evs in k_call k = None -> k_prog k = [] ->
  hw_powered (k_regs k) id = false /\ hw_enables (k_regs k) id = [false; false; false; false; false].
Proof. exact reg_close_l. Qed.
Print Assumptions reg_close.

(** Pin 1 of port B is written while a handler switches pin 5 on, and the interrupt of the receiver while
    the transmit stream's handler switches its own off: both changes of the handlers are lost. *)
Example reg_pins_example :
  let evs := [KStep; KStep; KIsr [PortWrite 1 5 true]; KStep; KStep] in
  k_regs (krun (fun _ => false) (k_init (fun _ => 0) [PortWrite 1 1 true]) evs) (a_out 1) = 2 /\
  k_regs (krun (fun a => a <? 64) (k_init (fun _ => 0) [PortWrite 1 1 true]) evs) (a_out 1) = 34.
Proof. split; reflexivity. Qed.
Example reg_usart_example :
  let k := krun (fun a => a <? 64) (k_init (fun a => if a =? 193 then 32 else 0) [RxcInt 0 true])
             [KStep; KStep; KIsr [UdreInt 0 false]; KStep; KStep; KStep; KStep] in
  k_regs k (a_ucsrb 0) = 160 /\ k_call k = None /\ k_ans k = [true].
Proof. repeat split; reflexivity. Qed.
(** The stream's handler only switches off. *)
Example udre_only_off : forall id, only_off id (UdreInt id false).
Proof.
  intros id. split.
  - intros i Hi (s & E & N). cbn [bstep fst] in E. unfold set1 in E. destruct ((_ =? _) && (i =? 5)); [discriminate E|]. apply N. exact E.
  - intros (s & E & N). cbn [bstep fst] in E. unfold set1 in E. destruct ((a_prr =? _) && (_ =? 5)) eqn:X; [|apply N; exact E].
    apply andb_prop in X. destruct X as [_ X]. unfold prusart in X. destruct (id =? 0); discriminate X.
Qed.
