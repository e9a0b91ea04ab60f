(** Values and strings as the linker puts them into program memory. *)
Require Import ZArith List Bool.
Import ListNotations.
From Verif Require Import Base FlashModel.
Open Scope Z_scope.

(** The values of a type. *)
Definition in_type (t : ity) (v : Z) : Prop :=
  match t with
  | U8 => 0 <= v < 2 ^ 8 | S8 => - 2 ^ 7 <= v < 2 ^ 7
  | U16 => 0 <= v < 2 ^ 16 | S16 => - 2 ^ 15 <= v < 2 ^ 15
  | U32 | Float => 0 <= v < 2 ^ 32 | S32 => - 2 ^ 31 <= v < 2 ^ 31
  end.
(** A type of so many bytes has 256 to that power values. *)
Definition width (t : ity) : Z := match t with U8 | S8 => 1 | U16 | S16 => 2 | U32 | S32 | Float => 4 end.
(** Its bytes in memory: two's complement, little endian. *)
Definition stored (flash : Z -> Z) (a : Z) (t : ity) (v : Z) : Prop :=
  forall k, 0 <= k < width t -> flash (a + k) = v / 2 ^ (8 * k) mod 256.
(** An array of items, one after the other. *)
Definition laid_out (flash : Z -> Z) (a : Z) (t : ity) (items : list Z) : Prop :=
  forall i v, nth_error items i = Some v -> stored flash (a + Z.of_nat i * width t) t v.

(** The value of the bit pattern of a finite binary32 number, in units of 2^-149. *)
Definition value_of_bits (b : Z) : Z :=
  let e := b / 2 ^ 23 mod 2 ^ 8 in
  let m := b mod 2 ^ 23 in
  let v := if e =? 0 then m else (2 ^ 23 + m) * 2 ^ (e - 1) in
  if b / 2 ^ 31 mod 2 =? 0 then v else - v.

(** A string of bytes other than zero, with a zero after it. *)
Definition c_string (flash : Z -> Z) (a : Z) (s : list Z) : Prop :=
  Forall (fun c => 1 <= c < 256) s /\ cells flash a (length s) = s /\ flash (a + Z.of_nat (length s)) = 0.

(** The C string at the start of a memory, looking at [n] bytes: what comes before the first zero, if there is one. *)
Fixpoint text_of (bytes : list Z) : option (list Z) :=
  match bytes with
  | [] => None
  | c :: rest => if c =? 0 then Some [] else option_map (cons c) (text_of rest)
  end.
