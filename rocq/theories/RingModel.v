(** RingBuffer.h, BufferedInputStream.h: translated code.
    The two cursors [_writePtr] and [_readPtr] (RingBuffer.h 113-114) are modelled by their
    offset from [_buffer]; offset [Size] is the legal one-past-the-end pointer.
    Dereferencing outside [0, Size) is undefined behaviour ([None]). *)
Require Import ZArith List Bool.
Import ListNotations.
From Verif Require Import Base.
Open Scope Z_scope.

(** RingBuffer.h 111-114: the data members. *)
Record ring (T : Type) := mkRing { rb_mem : Z -> T; rb_wr : Z; rb_rd : Z }.
Arguments mkRing {T}.
Arguments rb_mem {T}.
Arguments rb_wr {T}.
Arguments rb_rd {T}.

Section Ring.
Context {T : Type}.
Variable Size : Z.

(** RingBuffer.h 50-54 [Clear]; also the constructor, 42-45. *)
Definition ring_clear (r : ring T) : ring T := mkRing (rb_mem r) 0 0.

(** RingBuffer.h 61-79 [Write]. *)
Definition ring_write (r : ring T) (value : T) : option (ring T * bool) :=
  (* 64-68: overrun check *)
  if (if rb_wr r + 1 >=? Size then 0 =? rb_rd r else rb_wr r + 1 =? rb_rd r)
  then Some (r, false)
  else
    (* 70: *_writePtr = value *)
    if inb (rb_wr r) Size then
      let mem := upd (rb_mem r) (rb_wr r) value in
      (* 71: _writePtr++ *)
      let w := rb_wr r + 1 in
      (* 73-76: wrap *)
      let w := if w >=? Size then 0 else w in
      Some (mkRing mem w (rb_rd r), true)
    else None.

(** RingBuffer.h 85-96 [Read]; no underrun protection. *)
Definition ring_read (r : ring T) : option (ring T * T) :=
  if inb (rb_rd r) Size then
    let result := rb_mem r (rb_rd r) in
    let rd := rb_rd r + 1 in
    let rd := if rd >=? Size then 0 else rd in
    Some (mkRing (rb_mem r) (rb_wr r) rd, result)
  else None.

(** RingBuffer.h 101-109 [getLength]; the result converts to uint16_t. *)
Definition ring_length (r : ring T) : Z :=
  if rb_wr r >=? rb_rd r then u16 (rb_wr r - rb_rd r)
  else u16 (Size - (rb_rd r - rb_wr r)).

(** One public call of RingBuffer. *)
Inductive ring_op := RWrite (v : T) | RRead | RClear.
(** What the caller sees of a call. *)
Inductive ring_res := ResWrite (ok : bool) | ResRead (v : T) | ResUnit.

Definition ring_call (r : ring T) (o : ring_op) : option (ring T * ring_res) :=
  match o with
  | RWrite v => match ring_write r v with Some (r', b) => Some (r', ResWrite b) | None => None end
  | RRead => match ring_read r with Some (r', v) => Some (r', ResRead v) | None => None end
  | RClear => Some (ring_clear r, ResUnit)
  end.

(** A history of calls; after each call the caller also looks at [getLength]. *)
Fixpoint ring_run (r : ring T) (ops : list ring_op) : option (ring T * list (ring_res * Z)) :=
  match ops with
  | [] => Some (r, [])
  | o :: rest =>
      match ring_call r o with
      | None => None
      | Some (r', x) =>
          match ring_run r' rest with
          | None => None
          | Some (r'', xs) => Some (r'', (x, ring_length r') :: xs)
          end
      end
  end.

(** BufferedInputStream.h 41-49 [Read], over any ring buffer; [toZ] is the integer value of
    an item before the conversion to int16_t on line 48. *)
Definition bis_read (toZ : T -> Z) (r : ring T) : option (ring T * Z) :=
  if ring_length r =? 0 then Some (r, -1)
  else match ring_read r with
       | Some (r', v) => Some (r', s16 (toZ v))
       | None => None
       end.

Definition bis_call (toZ : T -> Z) (r : ring T) (o : ring_op) : option (ring T * (ring_res + Z)) :=
  match o with
  | RRead => match bis_read toZ r with Some (r', v) => Some (r', inr v) | None => None end
  | _ => match ring_call r o with Some (r', x) => Some (r', inl x) | None => None end
  end.

Fixpoint bis_run (toZ : T -> Z) (r : ring T) (ops : list ring_op)
  : option (ring T * list (ring_res + Z)) :=
  match ops with
  | [] => Some (r, [])
  | o :: rest =>
      match bis_call toZ r o with
      | None => None
      | Some (r', x) =>
          match bis_run toZ r' rest with
          | None => None
          | Some (r'', xs) => Some (r'', x :: xs)
          end
      end
  end.
End Ring.
Arguments ring_op : clear implicits.
Arguments ring_res : clear implicits.
