(** IdentifiableObject.h and Debug.h: translated code. *)
Require Import ZArith List Bool.
Import ListNotations.
From Verif Require Import Base TimeModel.
Open Scope Z_scope.

(** ** IdentifiableObject.h 37-40 [getId]: the address of the object as a uint16_t. *)
Definition get_id (address : Z) : Z := u16 address.
(** A call of Delays by an object that passes its getId(), as PushButton.h 128-130, 195, 220, 225 and
    TimeoutTask.h 56 do: the call says the address, Delays gets the id. *)
Definition rename (f : Z -> Z) (o : dl_op) : dl_op :=
  match o with
  | DUpdate d => DUpdate d
  | DWait a t => DWait (f a) t
  | DAbort a => DAbort (f a)
  | DClear a => DClear (f a)
  | DIsWaiting a => DIsWaiting (f a)
  end.
Definition by_object (o : dl_op) : dl_op := rename get_id o.

(** ** Debug.h.  [dbg]: is DEBUG or _DEBUG defined?  AtlDebugWrite and AtlDebugLevel are weak: the program
    may leave them out.  Levels are 0 (Off) to 5 (Verbose). *)
Section Debug.
Variable dbg : bool.
Variable write : bool.                      (* AtlDebugWrite is there *)
Variable level : option (Z -> Z -> bool).   (* AtlDebugLevel *)
(** 99-103, 133 [CanLog]. *)
Definition can_log (component lvl : Z) : bool :=
  if dbg then match level with None => true | Some f => f component lvl end else false.
(** 86-91, 125 [Log]: the messages passed to AtlDebugWrite. *)
Definition log (component lvl : Z) (message : list Z) : list (list Z) :=
  if dbg then
    if negb write then []
    else if negb (can_log component lvl) then []
    else [message]
  else [].
Fixpoint log_all (l : list (Z * Z * list Z)) : list (list Z) :=
  match l with [] => [] | (c, v, m) :: r => log c v m ++ log_all r end.
End Debug.
