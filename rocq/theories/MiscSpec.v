(** Specification for identifiable objects and debug messages. *)
Require Import ZArith List Bool.
Import ListNotations.
From Verif Require Import Base TimeModel TimeSpec MiscModel.
Open Scope Z_scope.

(** The address a call is about. *)
Definition address_of (o : dl_op) : list Z :=
  match o with DUpdate _ => [] | DWait a _ | DAbort a | DClear a | DIsWaiting a => [a] end.
Definition addresses (ops : list dl_op) : list Z := flat_map address_of ops.
(** Times and deltas are uint32_t values. *)
Definition times_ok (o : dl_op) : Prop :=
  match o with DUpdate d => 0 <= d < 4294967296 | DWait _ t => 0 <= t < 4294967296 | _ => True end.
(** Objects: address and size.  They lie in the [2^bits] bytes of memory, not at 0, and apart. *)
Definition object : Type := Z * Z.
Definition in_memory (bits : Z) (x : object) : Prop := 0 < fst x /\ 0 < snd x /\ fst x + snd x <= 2 ^ bits.
Definition apart (x y : object) : Prop := fst x + snd x <= fst y \/ fst y + snd y <= fst x.
(** The calls of numbered objects, object [k] lying at [layout k]. *)
Definition placed (layout : Z -> object) (o : dl_op) : dl_op := rename (fun k => fst (layout k)) o.
