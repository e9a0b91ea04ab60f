(** Properties of PushButton, AVR Button and DigitalInput. *)
Require Import ZArith List Bool Lia.
Import ListNotations.
From Verif Require Import Base TimeModel TimeSpec TaskSpec ButtonModel ButtonSpec ButtonProofs.
Open Scope Z_scope.

(** C27, C28.  Whatever the pin does, however the scans fall, and whatever other users of the same
    Delays do, the reported states are those of the push-button state machine. *)
Theorem push_button_refines : forall n pre id debounce hold inverse ops delta outs,
  pb_history n pre id debounce hold inverse ops delta outs ->
  outs = map p_report (p_run debounce hold PUnknown (scans inverse delta ops)).
Proof. exact history_l. Qed.
Print Assumptions push_button_refines.

(** C27, C28.  One scan changes the reported state only as allowed: a settled state is left only
    for Pending when the contact changed (or Hold from Closed), and Pending only for the contact's
    level. *)
Theorem push_button_transitions : forall n pre id debounce hold inverse ops delta outs,
  pb_history n pre id debounce hold inverse ops delta outs ->
  let ins := scans inverse delta ops in
  let st := reports ((stUnknown, false) :: outs) in
  length outs = length ins /\
  forall i, (i < length ins)%nat -> allowed (st i) (fst (nth i ins (false, 0))) (st (S i)).
Proof. exact history_transitions. Qed.
Print Assumptions push_button_transitions.

(** C27.  The scan after the one that saw the change starts the debounce time; Pending is left at
    exactly the first later scan where the deltas reach the debounce time, for the level then read. *)
Theorem push_button_debounce : forall n pre id debounce hold inverse ops delta outs,
  pb_history n pre id debounce hold inverse ops delta outs ->
  let ins := scans inverse delta ops in
  let st := reports ((stUnknown, false) :: outs) in
  forall i, (S i < length ins)%nat -> st i <> stPending -> st (S i) = stPending ->
  st (S (S i)) = stPending /\
  forall k, (S (S i) + k < length ins)%nat ->
    (forall j, (j <= k)%nat -> st (S (S i) + j)%nat = stPending) ->
    st (S (S (S i) + k)) =
      if debounce <=? deltas_from ins (S (S i)) (S k)
      then (if fst (nth (S (S i) + k) ins (false, 0)) then stClosed else stOpen) else stPending.
Proof. exact history_debounce. Qed.
Print Assumptions push_button_debounce.

(** C28.  Hold is reported at exactly the first scan where the contact is still closed and the
    deltas since the scan that reported Closed reach the hold time. *)
Theorem push_button_hold : forall n pre id debounce hold inverse ops delta outs,
  pb_history n pre id debounce hold inverse ops delta outs ->
  let ins := scans inverse delta ops in
  let st := reports ((stUnknown, false) :: outs) in
  forall i k, (S i + k < length ins)%nat -> st i <> stClosed ->
    (forall j, (j <= k)%nat -> st (S i + j)%nat = stClosed) ->
    st (S (S i + k)) =
      if fst (nth (S i + k) ins (false, 0))
      then (if hold <=? deltas_from ins (S i) (S k) then stHold else stClosed) else stPending.
Proof. exact history_hold. Qed.
Print Assumptions push_button_hold.

(** C27, finding: the very first scan is not debounced; a glitch during it is reported as Closed. *)
Theorem push_button_first_scan_refuted :
  pb_run 1 50 1000 false pb_init (dl_init 2) [PScan true; PUpdate 1; PScan false] = Some [(stClosed, false); (stPending, true)].
Proof. vm_compute. reflexivity. Qed.
Print Assumptions push_button_first_scan_refuted.

(** C29.  Read answers true exactly when the sample differs from the one before (false at first);
    the parity of the answers tells whether the value changed overall. *)
Theorem digital_input_edges : forall samples value,
  let (final, rs) := di_run value samples in
  final = last samples value /\ length rs = length samples /\
  (forall i, (i < length samples)%nat ->
     nth i rs false = xorb (nth i samples false) (nth i (value :: samples) false)) /\
  fold_right xorb false rs = xorb value final.
Proof. exact di_run_l. Qed.
Print Assumptions digital_input_edges.

(** C58.  AVR Button::SetButtonState changes the state, remembers the previous one and answers true
    for every new state, except that Closed does not end Hold. *)
Theorem avr_button_state : forall b cur prev ns, 0 <= b < 256 /\ get_state b = cur /\ get_prev b = prev ->
  0 <= cur < 8 -> 0 <= ns < 8 ->
  let (b', r) := bt_set_state b ns in
  if negb (cur =? ns) && negb ((ns =? stClosed) && (cur =? stHold))
  then r = true /\ 0 <= b' < 256 /\ get_state b' = ns /\ get_prev b' = cur else r = false /\ b' = b.
Proof. exact bt_set_l. Qed.
Print Assumptions avr_button_state.

(** C58.  SetButtonValue: a level that means pressed gives Closed, or keeps Hold; the other gives Open. *)
Theorem avr_button_value : forall inverse b v, 0 <= b < 256 ->
  get_state (bt_value inverse b v) =
    if xorb inverse v then (if get_state b =? stHold then stHold else stClosed) else stOpen.
Proof. exact bt_value_l. Qed.
Print Assumptions avr_button_value.

(** Non-vacuity: press with a bounce, hold, release; id 5 shares the Delays. *)
Definition ex_ops : list pb_op :=
  [PScan false; PUpdate 4; PScan true; PUpdate 4; PScan false; PUpdate 4; POther (DWait 5 3); PScan true; PUpdate 7; PScan true;
   PUpdate 8; PScan true; PUpdate 15; PScan true; PUpdate 1; PScan true; PUpdate 1; PScan false; PUpdate 1; PScan false;
   PUpdate 10; POther (DClear 5); PScan false].
Example push_button_example : exists outs,
  pb_history 2 [DUpdate 3] 1 10 20 false ex_ops 3 outs /\
  map fst outs = [stOpen; stPending; stPending; stPending; stClosed; stClosed; stHold; stHold; stPending; stPending; stOpen].
Proof.
  eexists. split.
  - unfold pb_history. split; [lia|]. split; [lia|]. split; [lia|]. split; [repeat constructor; cbn; lia|]. split.
    + unfold ex_ops. repeat (apply Forall_cons; [cbn; try exact I; lia|]). apply Forall_nil.
    + eexists. eexists. split; [vm_compute; reflexivity|]. split; [reflexivity|]. split; [reflexivity|]. vm_compute. reflexivity.
  - reflexivity.
Qed.
Example digital_input_example : di_run false [true; true; false; true] = (true, [true; false; true; true]).
Proof. reflexivity. Qed.
Example avr_button_example : get_state (bt_value true 0 false) = stClosed /\ bt_set_state 19 stClosed = (19, false) /\ get_state 19 = stHold.
Proof. vm_compute. auto. Qed.
