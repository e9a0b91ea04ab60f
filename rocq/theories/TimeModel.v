(** Time.h, Arduino/Time_Arduino.h, Delays.h: translated code. *)
Require Import ZArith List Bool.
Import ListNotations.
From Verif Require Import Base.
Open Scope Z_scope.

(** ** Time and TimeEx *)

(** Arduino/Time_Arduino.h 32-53 [Update]; [now] is the value of millis()/micros(), a uint32_t.
    Result: new _ticks and the returned delta. *)
Definition time_update (ticks now : Z) : Z * Z := (now, u32 (now - ticks)).

(** Time.h 108-135.  [us]: the resolution is microseconds. *)
Definition time_ms (us : bool) (ticks : Z) : Z := if us then ticks / 1000 else ticks.
Definition time_us (us : bool) (ticks : Z) : Z := if us then ticks else u32 (ticks * 1000).

(** Time.h 140-192 [TimeEx]. *)
Record time_ex := mkTimeEx { te_ticks : Z; te_start : Z; te_prev : Z }.
(** 146-149 with the base constructor 50-54. *)
Definition tex_new (now : Z) : time_ex :=
  let (t, _) := time_update 0 now in mkTimeEx t t t.
(** 153-156. *)
Definition tex_reset (s : time_ex) : time_ex := mkTimeEx (te_ticks s) (te_ticks s) (te_ticks s).
(** 161-166. *)
Definition tex_update (s : time_ex) (now : Z) : time_ex * Z :=
  let (t, d) := time_update (te_ticks s) now in (mkTimeEx t (te_start s) (te_ticks s), d).
(** 170-173 and 177-180. *)
Definition tex_start_ms (us : bool) (s : time_ex) : Z := time_ms us (te_start s).
Definition tex_start_us (us : bool) (s : time_ex) : Z := time_us us (te_start s).
(** 184-187. *)
Definition tex_delta (s : time_ex) : Z := u16 (u32 (te_ticks s - te_prev s)).

(** ** Delays *)

(** Delays.h 168-172: the two parallel arrays as one list of (id, delay) slots of length MaxItems. *)
Record delays := mkDelays { d_slots : list (Z * Z); d_delta : Z }.

(** Delays.h 57-68 [IsWaiting]. *)
Fixpoint dl_waiting (l : list (Z * Z)) (id : Z) : bool :=
  match l with
  | [] => false
  | (s, _) :: r => if s =? id then true else dl_waiting r id
  end.

(** Delays.h 74-83 [Abort]. *)
Definition dl_abort (l : list (Z * Z)) (id : Z) : list (Z * Z) :=
  map (fun p => if fst p =? id then (fst p, 0) else p) l.

(** Delays.h 141-150 [Clear]. *)
Definition dl_clear (l : list (Z * Z)) (id : Z) : list (Z * Z) :=
  map (fun p => if fst p =? id then (0, snd p) else p) l.

(** Delays.h 98-117, the first loop of [Wait]: either a matching slot was handled, giving the new
    slots and the result, or the loop ended with a value of emptyIndex. *)
Fixpoint dl_scan (l : list (Z * Z)) (id delta i empty : Z) : (list (Z * Z) * bool) + Z :=
  match l with
  | [] => inr empty
  | (s, d) :: r =>
      if (empty =? -1) && (s =? 0) then
        match dl_scan r id delta (i + 1) i with
        | inl (r', b) => inl ((s, d) :: r', b)
        | inr e => inr e
        end
      else if s =? id then
        if delta >=? d then inl ((0, d) :: r, true) else inl ((s, u32 (d - delta)) :: r, false)
      else
        match dl_scan r id delta (i + 1) empty with
        | inl (r', b) => inl ((s, d) :: r', b)
        | inr e => inr e
        end
  end.

(** Delays.h 121-129, the second loop. *)
Fixpoint dl_first_empty (l : list (Z * Z)) (i : Z) : Z :=
  match l with
  | [] => -1
  | (s, _) :: r => if s =? 0 then i else dl_first_empty r (i + 1)
  end.

(** Assignment to slot [i]; [None] outside the arrays. *)
Fixpoint dl_store (l : list (Z * Z)) (i : Z) (p : Z * Z) : option (list (Z * Z)) :=
  match l with
  | [] => None
  | q :: r => if i =? 0 then Some (p :: r)
              else match dl_store r (i - 1) p with Some r' => Some (q :: r') | None => None end
  end.

(** Delays.h 94-136 [Wait]. *)
Definition dl_wait (l : list (Z * Z)) (delta id time : Z) : option (list (Z * Z) * bool) :=
  match dl_scan l id delta 0 (-1) with
  | inl r => Some r
  | inr e =>
      let e := if e =? -1 then dl_first_empty l 0 else e in
      match dl_store l e (id, time) with Some l' => Some (l', false) | None => None end
  end.

Inductive dl_op :=
| DUpdate (delta : Z)            (* Update(), the clock having advanced by [delta] *)
| DWait (id time : Z) | DAbort (id : Z) | DClear (id : Z) | DIsWaiting (id : Z).

(** One call, with its result ([false] for the calls returning nothing). *)
Definition dl_step (s : delays) (o : dl_op) : option (delays * bool) :=
  match o with
  | DUpdate d => Some (mkDelays (d_slots s) d, false)   (* Delays.h 47-51 *)
  | DWait id t => match dl_wait (d_slots s) (d_delta s) id t with
                  | Some (l, b) => Some (mkDelays l (d_delta s), b)
                  | None => None
                  end
  | DAbort id => Some (mkDelays (dl_abort (d_slots s) id) (d_delta s), false)
  | DClear id => Some (mkDelays (dl_clear (d_slots s) id) (d_delta s), false)
  | DIsWaiting id => Some (s, dl_waiting (d_slots s) id)
  end.
Fixpoint dl_run (s : delays) (ops : list dl_op) : option (delays * list bool) :=
  match ops with
  | [] => Some (s, [])
  | o :: rest =>
      match dl_step s o with
      | None => None
      | Some (s1, b) => match dl_run s1 rest with
                        | None => None
                        | Some (s2, bs) => Some (s2, b :: bs)
                        end
      end
  end.
(** Delays.h 177-187: initial state. *)
Definition dl_init (n : nat) : delays := mkDelays (repeat (0, 0) n) 0.
(** Delays.h 163-166. *)
Definition dl_last_delta (s : delays) : Z := u16 (d_delta s).
