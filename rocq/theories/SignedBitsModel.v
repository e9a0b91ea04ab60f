(** BitArray.h for a signed type T of [w] bits (int8_t, int, long ...); BitModel.v has the unsigned types.
    Shifts of negative values are those of gcc, which keeps the low bits on the left shift and repeats the sign bit on
    the right one.  [None]: shift by the width of the promoted type or more. *)
Require Import ZArith List Bool.
Import ListNotations.
From Verif Require Import BitModel.
Open Scope Z_scope.

Section S.
Variables (iw w : Z).
(** [x <<= k] and [x >>= k] for [x] of type T. *)
Definition sb_shl (x k : Z) : option Z := if (0 <=? k) && (k <? Z.max w iw) then Some (sn w (x * 2 ^ k)) else None.
Definition sb_shr (x k : Z) : option Z := if (0 <=? k) && (k <? Z.max w iw) then Some (x / 2 ^ k) else None.

(** 253-264 [CreateMask]. *)
Fixpoint sb_mask_loop (m : Z) (n : nat) : option Z :=
  match n with
  | O => Some m
  | S k => match sb_shl m 1 with Some m' => sb_mask_loop (sn w (Z.lor m' 1)) k | None => None end
  end.
Definition sb_mask (c : Z) : option Z := sb_mask_loop 0 (Z.to_nat c).

(** 64-82 [Set(bitIndex, value, bitCount)]. *)
Definition sb_set_field (b i v c : Z) : option (Z * bool) :=
  if negb (ba_valid w i c) then Some (b, false) else
  match sb_mask c with
  | None => None
  | Some mask =>
      match sb_shl mask i, sb_shl (sn w (Z.land v mask)) i with
      | Some m2, Some v2 => Some (sn w (Z.lor (sn w (Z.land b (Z.lnot m2))) v2), true)
      | _, _ => None
      end
  end.
(** 90-104 [Get(bitIndex, bitCount)]. *)
Definition sb_get_field (b i c : Z) : option Z :=
  if negb (ba_valid w i c) then Some 0 else
  match sb_mask c with
  | None => None
  | Some mask => match sb_shl mask i with Some m2 => sb_shr (sn w (Z.land b m2)) i | None => None end
  end.

(** 111-126 [Set(bitIndex, value)]. *)
Definition sb_put (b i : Z) (v : bool) : option (Z * bool) :=
  if negb (ba_valid w i 1) then Some (b, false) else
  match one_shl iw i with
  | None => None
  | Some s => let m := sn w s in
              let b1 := sn w (Z.land b (Z.lnot m)) in
              Some (if v then sn w (Z.lor b1 m) else b1, true)
  end.
(** 132-140 [Set(bitIndex)]. *)
Definition sb_set (b i : Z) : option (Z * bool) :=
  if negb (ba_valid w i 1) then Some (b, false) else
  match one_shl iw i with Some s => Some (sn w (Z.lor b s), true) | None => None end.
(** 155-163 [Reset(bitIndex)]. *)
Definition sb_reset (b i : Z) : option (Z * bool) :=
  if negb (ba_valid w i 1) then Some (b, false) else
  match one_shl iw i with Some s => Some (sn w (Z.land b (Z.lnot s)), true) | None => None end.
(** 176-181 [IsTrue]; Get(bitIndex) 146-149 and operator[] 220-223 are the same. *)
Definition sb_true (b i : Z) : option bool :=
  if negb (ba_valid w i 1) then Some false else
  match one_shl iw i with Some s => Some (Z.land b s >? 0) | None => None end.
(** 187-192 [IsFalse]. *)
Definition sb_false (b i : Z) : option bool :=
  if negb (ba_valid w i 1) then Some false else
  match one_shl iw i with Some s => Some (Z.land b s =? 0) | None => None end.

(** 197-206 [Reverse]: the specialisations 275-290 are for unsigned types only. *)
Fixpoint sb_rev_loop (rv b : Z) (n : nat) : Z :=
  match n with
  | O => rv
  | S k => sb_rev_loop (sn w (Z.lor (2 * rv) (Z.land b 1))) (b / 2) k
  end.
Definition sb_reverse (b : Z) : Z := sb_rev_loop 0 b (Z.to_nat w).
(** 236-248 [ShiftUp], [ShiftDown]. *)
Definition sb_shift_up (b k : Z) : option Z := sb_shl b k.
Definition sb_shift_down (b k : Z) : option Z := sb_shr b k.

Definition sb_step (b : Z) (o : ba_op) : option (Z * bool) :=
  match o with
  | BPut i v => sb_put b i v
  | BSet i => sb_set b i
  | BReset i => sb_reset b i
  | BIsTrue i => match sb_true b i with Some r => Some (b, r) | None => None end
  | BIsFalse i => match sb_false b i with Some r => Some (b, r) | None => None end
  | BSetAll x => Some (x, true)      (* 52-55 *)
  | BResetAll => Some (0, true)      (* 167-170 *)
  end.
Fixpoint sb_run (b : Z) (ops : list ba_op) : option (Z * list bool) :=
  match ops with
  | [] => Some (b, [])
  | o :: rest =>
      match sb_step b o with
      | None => None
      | Some (b1, r) => match sb_run b1 rest with
                        | None => None
                        | Some (b2, rs) => Some (b2, r :: rs)
                        end
      end
  end.
End S.
