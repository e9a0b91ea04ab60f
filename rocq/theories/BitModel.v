(** Bit.h, BitFlag.h, BitArray.h: translated code.
    [iw] is the width of [int] (16 on AVR), [w] the width of the operand type T.
    Values are integers; bitwise operators act on their two's complement representation, so the
    usual arithmetic conversions only matter where a result is compared or stored.
    [None]: undefined behaviour (shift count not below the width of the promoted operand, or a
    left shift of a promoted signed value that does not fit the unsigned type of that width). *)
Require Import ZArith List Bool.
Import ListNotations.
Open Scope Z_scope.

(** Conversion to an unsigned / signed type of [n] bits. *)
Definition un (n x : Z) : Z := x mod 2 ^ n.
Definition sn (n x : Z) : Z := let y := x mod 2 ^ n in if y <? 2 ^ (n - 1) then y else y - 2 ^ n.
(** Conversion to T: [sg] tells whether T is signed. *)
Definition cv (sg : bool) (w x : Z) : Z := if sg then sn w x else un w x.

(** The expression [1 << i] evaluated in [int]. *)
Definition one_shl (iw i : Z) : option Z :=
  if (0 <=? i) && (i <? iw) then Some (sn iw (2 ^ i)) else None.

(** ** Bit.h *)
Section B.
Variables (iw : Z) (sg : bool) (w : Z).
(** 115-120 [getMask]: the int value is converted to T. *)
Definition bit_mask (i : Z) : option Z :=
  match one_shl iw i with Some m => Some (cv sg w m) | None => None end.
(** 43-47 [Set]. *)
Definition bit_set (t i : Z) : option Z :=
  match bit_mask i with Some m => Some (cv sg w (Z.lor t m)) | None => None end.
(** 73-78 [Reset]. *)
Definition bit_reset (t i : Z) : option Z :=
  match bit_mask i with Some m => Some (cv sg w (Z.land t (Z.lnot m))) | None => None end.
(** 54-67 [Set(value)]. *)
Definition bit_put (t i : Z) (v : bool) : option Z :=
  match bit_mask i with
  | Some m => let t1 := cv sg w (Z.land t (Z.lnot m)) in
              Some (if v then cv sg w (Z.lor t1 m) else t1)
  | None => None
  end.
(** 84-88 [Toggle]. *)
Definition bit_toggle (t i : Z) : option Z :=
  match bit_mask i with Some m => Some (cv sg w (Z.lxor t m)) | None => None end.
(** 94-98 [IsTrue]. *)
Definition bit_true (t i : Z) : option bool :=
  match bit_mask i with Some m => Some (Z.land t m >? 0) | None => None end.
(** 104-108 [IsFalse]. *)
Definition bit_false (t i : Z) : option bool :=
  match bit_mask i with Some m => Some (Z.land t m =? 0) | None => None end.

(** ** BitFlag.h: the same masks (149-153) behind the guard [bitIndex > getMaxBits()]
    (47-53, 61-76, 83-90, 97-103, 111-117, 125-131, 137-141). *)
Definition flag_set (t i : Z) : option Z := if i >? w then Some t else bit_set t i.
Definition flag_put (t i : Z) (v : bool) : option Z := if i >? w then Some t else bit_put t i v.
Definition flag_reset (t i : Z) : option Z := if i >? w then Some t else bit_reset t i.
Definition flag_toggle (t i : Z) : option Z := if i >? w then Some t else bit_toggle t i.
Definition flag_true (t i : Z) : option bool := if i >? w then Some false else bit_true t i.
Definition flag_false (t i : Z) : option bool := if i >? w then Some false else bit_false t i.
End B.

(** ** BitArray.h, T unsigned of [w] bits *)
Section A.
Variables (iw w : Z).

(** [x << k] for [x] of type T, after integral promotion, and converted back to T. *)
Definition t_shl (x k : Z) : option Z :=
  if w <? iw
  then if (0 <=? k) && (k <? iw) && (x * 2 ^ k <? 2 ^ iw) then Some (un w (x * 2 ^ k)) else None
  else if (0 <=? k) && (k <? w) then Some (un w (x * 2 ^ k)) else None.
(** [x >> k]. *)
Definition t_shr (x k : Z) : option Z :=
  if (0 <=? k) && (k <? Z.max w iw) then Some (x / 2 ^ k) else None.

(** 266-269 [isValidIndex]; getMaxBits is [w] (211-214). *)
Definition ba_valid (i c : Z) : bool := i + c <=? w.

(** 253-264 [CreateMask]. *)
Fixpoint ba_mask_loop (m : Z) (n : nat) : option Z :=
  match n with
  | O => Some m
  | S k => match t_shl m 1 with
           | Some m' => ba_mask_loop (Z.lor m' 1) k
           | None => None
           end
  end.
Definition ba_mask (c : Z) : option Z := ba_mask_loop 0 (Z.to_nat c).

(** 64-82 [Set(bitIndex, value, bitCount)]. *)
Definition ba_set_field (b i v c : Z) : option (Z * bool) :=
  if negb (ba_valid i c) then Some (b, false) else
  match ba_mask c with
  | None => None
  | Some mask =>
      match t_shl mask i, t_shl (Z.land v mask) i with
      | Some m2, Some v2 => Some (un w (Z.lor (un w (Z.land b (Z.lnot m2))) v2), true)
      | _, _ => None
      end
  end.
(** 90-104 [Get(bitIndex, bitCount)]. *)
Definition ba_get_field (b i c : Z) : option Z :=
  if negb (ba_valid i c) then Some 0 else
  match ba_mask c with
  | None => None
  | Some mask =>
      match t_shl mask i with
      | Some m2 => t_shr (Z.land b m2) i
      | None => None
      end
  end.

(** 111-126 [Set(bitIndex, value)]. *)
Definition ba_put (b i : Z) (v : bool) : option (Z * bool) :=
  if negb (ba_valid i 1) then Some (b, false) else
  match one_shl iw i with
  | None => None
  | Some s => let m := un w s in
              let b1 := un w (Z.land b (Z.lnot m)) in
              Some (if v then un w (Z.lor b1 m) else b1, true)
  end.
(** 132-140 [Set(bitIndex)]. *)
Definition ba_set (b i : Z) : option (Z * bool) :=
  if negb (ba_valid i 1) then Some (b, false) else
  match one_shl iw i with Some s => Some (un w (Z.lor b s), true) | None => None end.
(** 155-163 [Reset(bitIndex)]. *)
Definition ba_reset (b i : Z) : option (Z * bool) :=
  if negb (ba_valid i 1) then Some (b, false) else
  match one_shl iw i with Some s => Some (un w (Z.land b (Z.lnot s)), true) | None => None end.
(** 176-181 [IsTrue]; Get(bitIndex) 146-149 and operator[] 220-223 are the same. *)
Definition ba_true (b i : Z) : option bool :=
  if negb (ba_valid i 1) then Some false else
  match one_shl iw i with Some s => Some (Z.land b s >? 0) | None => None end.
(** 187-192 [IsFalse]. *)
Definition ba_false (b i : Z) : option bool :=
  if negb (ba_valid i 1) then Some false else
  match one_shl iw i with Some s => Some (Z.land b s =? 0) | None => None end.

(** 197-206 [Reverse], generic version. [rv << 1] never leaves the promoted type. *)
Fixpoint ba_rev_loop (rv b : Z) (n : nat) : Z :=
  match n with
  | O => rv
  | S k => ba_rev_loop (un w (Z.lor (2 * rv) (Z.land b 1))) (b / 2) k
  end.
Definition ba_reverse (b : Z) : Z := ba_rev_loop 0 b (Z.to_nat w).

(** 236-248 [ShiftUp], [ShiftDown]. *)
Definition ba_shift_up (b k : Z) : option Z := t_shl b k.
Definition ba_shift_down (b k : Z) : option Z := t_shr b k.
End A.

(** 275-281: BitArray<uint8_t>::Reverse. *)
Definition ba_reverse8 (b : Z) : Z :=
  let b := un 8 (Z.lor (Z.shiftr (Z.land b 240) 4) (Z.shiftl (Z.land b 15) 4)) in
  let b := un 8 (Z.lor (Z.shiftr (Z.land b 204) 2) (Z.shiftl (Z.land b 51) 2)) in
  un 8 (Z.lor (Z.shiftr (Z.land b 170) 1) (Z.shiftl (Z.land b 85) 1)).

(** 283-290: BitArray<uint16_t>::Reverse. *)
Definition ba_reverse16 (b : Z) : Z :=
  let b := un 16 (Z.lor (Z.shiftr (Z.land b 65280) 8) (Z.shiftl (Z.land b 255) 8)) in
  let b := un 16 (Z.lor (Z.shiftr (Z.land b 61680) 4) (Z.shiftl (Z.land b 3855) 4)) in
  let b := un 16 (Z.lor (Z.shiftr (Z.land b 52428) 2) (Z.shiftl (Z.land b 13107) 2)) in
  un 16 (Z.lor (Z.shiftr (Z.land b 43690) 1) (Z.shiftl (Z.land b 21845) 1)).

(** Histories of single-bit operations, with what each call returns. *)
Inductive ba_op :=
| BPut (i : Z) (v : bool) | BSet (i : Z) | BReset (i : Z) | BIsTrue (i : Z) | BIsFalse (i : Z)
| BSetAll (x : Z) | BResetAll.
Section R.
Variables (iw w : Z).
Definition ba_step (b : Z) (o : ba_op) : option (Z * bool) :=
  match o with
  | BPut i v => ba_put iw w b i v
  | BSet i => ba_set iw w b i
  | BReset i => ba_reset iw w b i
  | BIsTrue i => match ba_true iw w b i with Some r => Some (b, r) | None => None end
  | BIsFalse i => match ba_false iw w b i with Some r => Some (b, r) | None => None end
  | BSetAll x => Some (x, true)      (* 52-55 *)
  | BResetAll => Some (0, true)      (* 167-170 *)
  end.
Fixpoint ba_run (b : Z) (ops : list ba_op) : option (Z * list bool) :=
  match ops with
  | [] => Some (b, [])
  | o :: rest =>
      match ba_step b o with
      | None => None
      | Some (b1, r) => match ba_run b1 rest with
                        | None => None
                        | Some (b2, rs) => Some (b2, r :: rs)
                        end
      end
  end.
End R.
