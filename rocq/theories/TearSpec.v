(** Observations used to state the properties of the byte-wise streams. *)
Require Import ZArith List Bool.
Import ListNotations.
From Verif Require Import TearModel.
Open Scope Z_scope.

(** The write whose item is already visible to the handler, or being made so. *)
Definition bt_pending (pc : bpc) : list Z :=
  match pc with BIncMid v _ => [v] | BWrap v => [v] | BWrapMid v => [v] | _ => [] end.
(** The byte a Read has taken and not returned yet. *)
Definition br_pending (pc : cpc) : list Z :=
  match pc with CIncMid v _ => [v] | CWrap v => [v] | CWrapMid v => [v] | _ => [] end.

(** The values of the Write calls that were begun, and those of the finished calls and the call in progress. *)
Fixpoint bt_calls (lf sf : bool) (B Size : Z) (s : btx) (evs : list btev) : list Z :=
  match evs with
  | [] => []
  | e :: r => (match e, bt_pc s with BtStart v, BIdle => [v] | _, _ => [] end) ++
              match bt_step lf sf B Size s e with Some s' => bt_calls lf sf B Size s' r | None => [] end
  end.
Definition bt_offered (s : btx) : list Z :=
  map fst (bt_done s) ++
  match bt_pc s with
  | BLoad v | BCheck v _ | BStore v | BInc v | BIncMid v _ | BWrap v | BWrapMid v => [v]
  | _ => []
  end.

(** What the finished Reads delivered: their results that are not -1. *)
Definition delivered (got : list Z) : list Z := filter (fun v => 0 <=? v) got.

(** [n] copies of an event list. *)
Fixpoint times {A} (n : nat) (l : list A) : list A :=
  match n with O => [] | S k => l ++ times k l end.

(** An undisturbed Write of [v] (nine steps also cover the wrap), an undisturbed Read. *)
Definition bt_write (v : Z) : list btev := BtStart v :: repeat BtStep 9.
Definition br_read : list brev := BrStart :: repeat BrStep 10.

(** Schedules for the findings: buffers filled so that the cursor stands before an address whose low
    byte is 0. *)
Definition tx_fill (lf : bool) : list btev :=
  if lf then times 255 (bt_write 7) else times 256 (bt_write 7) ++ repeat BtIsr 256 ++ times 256 (bt_write 7).
Definition tx_tail : list btev := [BtStart 9; BtStep; BtIsr; BtStep].
Definition rx_fill (lf : bool) : list brev :=
  br_read ++ repeat (BrIsr 7 true) 255 ++
  (if lf then times 255 br_read ++ repeat (BrIsr 7 true) 256 else []).
Definition rx_tail : list brev := [BrStart; BrStep; BrStep; BrStep; BrIsr 9 true; BrStep; BrStep].
Definition rx_fill2 (sf : bool) : list brev :=
  br_read ++
  (if sf then repeat (BrIsr 7 true) 256 ++ times 256 br_read ++ repeat (BrIsr 7 true) 256
   else repeat (BrIsr 7 true) 255) ++
  BrStart :: repeat BrStep 6.
