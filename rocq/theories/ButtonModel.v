(** PushButton.h, AVR/Button.h, DigitalInput.h: translated code. *)
Require Import ZArith List Bool.
Import ListNotations.
From Verif Require Import Base BitModel TimeModel.
Open Scope Z_scope.

(** PushButton.h 32-44. *)
Definition stUnknown := 0.
Definition stOpen := 1.
Definition stClosed := 2.
Definition stHold := 3.
Definition stPending := 4.

(** PushButton.h 49-72 (also AVR/Button.h 51-76). *)
Definition pb_convert (inverse value : bool) : Z :=
  if inverse then (if value then stOpen else stClosed) else (if value then stClosed else stOpen).

(** The two states live in 3-bit fields of a BitArray<uint8_t> (PushButton.h 96-98, 138-141,
    203-216).  These fields always fit, so [None] cannot occur (C14). *)
Definition st_get (b i : Z) : Z := match ba_get_field 16 8 b i 3 with Some v => v | None => 0 end.
Definition st_set (b i v : Z) : Z := match ba_set_field 16 8 b i v 3 with Some (b', _) => b' | None => b end.
Definition get_state (b : Z) : Z := st_get b 0.
Definition get_prev (b : Z) : Z := st_get b 3.
Definition set_state (b v : Z) : Z := st_set b 0 v.
Definition set_prev (b v : Z) : Z := st_set b 3 v.

(** 168-181 [SampleButtonState]; [ns] is the converted level that was read. *)
Definition pb_sample (b ns : Z) : Z :=
  let state := get_state b in
  if negb (state =? ns) && negb ((ns =? stClosed) && (state =? stHold))
  then set_state (set_prev b state) ns else b.

Record button := mkButton { pb_task : Z; pb_states : Z }.
(** _task is not initialised by the class; a button with static storage starts at zero. *)
Definition pb_init : button := mkButton 0 0.

Section PushButton.
Variables (id debounce hold : Z) (inverse : bool).

(** 183-201 [DebounceButton]. *)
Definition pb_debounce (b : Z) (d : delays) : Z * delays * bool :=
  let prev := get_prev b in
  let state := get_state b in
  if negb (prev =? state) && negb (state =? stHold) && negb (prev =? stUnknown) && negb (prev =? stPending)
  then (set_state b stPending, mkDelays (dl_clear (d_slots d) id) (d_delta d), true)
  else (b, d, false).

(** 119-131, the part after debouncing. *)
Definition pb_hold (b : Z) (d : delays) : option (Z * delays) :=
  if get_state b =? stClosed then
    match dl_wait (d_slots d) (d_delta d) id hold with
    | None => None
    | Some (l, true) => Some (set_state (set_prev b (get_state b)) stHold, mkDelays l (d_delta d))
    | Some (l, false) => Some (b, mkDelays l (d_delta d))
    end
  else if dl_waiting (d_slots d) id then Some (b, mkDelays (dl_clear (d_slots d) id) (d_delta d))
  else Some (b, d).

(** 106-133 [ScanButton] with the task macros expanded; 113 stands for the line of the
    Task_YieldUntil; [v] is the pin level during this call.  Result: button, delays, answer. *)
Definition pb_scan (s : button) (d : delays) (v : bool) : option (button * delays * bool) :=
  let ns := pb_convert inverse v in
  if pb_task s =? 0 then
    let b := pb_sample (pb_states s) ns in
    let '(b, d, bounced) := pb_debounce b d in
    if bounced then Some (mkButton 113 b, d, true)
    else match pb_hold b d with
         | None => None
         | Some (b, d) => Some (mkButton 0 b, d, false)
         end
  else if pb_task s =? 113 then
    match dl_wait (d_slots d) (d_delta d) id debounce with
    | None => None
    | Some (l, false) => Some (mkButton 113 (pb_states s), mkDelays l (d_delta d), true)
    | Some (l, true) =>
        let d := mkDelays l (d_delta d) in
        let b := set_prev (pb_states s) (get_state (pb_states s)) in
        let b := set_state b ns in
        match pb_hold b d with
        | None => None
        | Some (b, d) => Some (mkButton 0 b, d, false)
        end
    end
  else Some (mkButton 0 (pb_states s), d, false).

(** Calls of a program: ScanButton, Update of the clock, other calls on Delays. *)
Inductive pb_op := PScan (v : bool) | PUpdate (delta : Z) | POther (o : dl_op).

(** The result lists getState() and the answer after each ScanButton. *)
Fixpoint pb_run (s : button) (d : delays) (ops : list pb_op) : option (list (Z * bool)) :=
  match ops with
  | [] => Some []
  | PScan v :: rest =>
      match pb_scan s d v with
      | None => None
      | Some (s', d', r) => match pb_run s' d' rest with
                            | None => None
                            | Some outs => Some ((get_state (pb_states s'), r) :: outs)
                            end
      end
  | PUpdate x :: rest => match dl_step d (DUpdate x) with
                         | None => None
                         | Some (d', _) => pb_run s d' rest
                         end
  | POther o :: rest => match dl_step d o with
                        | None => None
                        | Some (d', _) => pb_run s d' rest
                        end
  end.
End PushButton.

(** ** AVR/Button.h
    129-144 [SetButtonState]. *)
Definition bt_set_state (b ns : Z) : Z * bool :=
  let state := get_state b in
  if negb (state =? ns) && negb ((ns =? stClosed) && (state =? stHold))
  then (set_state (set_prev b state) ns, true) else (b, false).
(** 98-101, 124-127 [SetButtonValue]. *)
Definition bt_value (inverse : bool) (b : Z) (v : bool) : Z := fst (bt_set_state b (pb_convert inverse v)).

(** ** DigitalInput.h 44-55 [Read]: new _value and the result. *)
Definition di_read (value sample : bool) : bool * bool :=
  if negb (Bool.eqb value sample) then (sample, true) else (value, false).
Fixpoint di_run (value : bool) (samples : list bool) : bool * list bool :=
  match samples with
  | [] => (value, [])
  | v :: rest => let (v1, r) := di_read value v in
                 let (v2, rs) := di_run v1 rest in (v2, r :: rs)
  end.
