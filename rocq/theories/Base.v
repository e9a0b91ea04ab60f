(** Shared definitions: fixed width integers and updatable memory.
    Nothing here is taken from the code; it is the vocabulary used by the models. *)
Require Import ZArith List Bool Lia.
Import ListNotations.
Open Scope Z_scope.

(** Unsigned conversions: reduction modulo 2^8, 2^16, 2^32 (C++ [conv.integral]). *)
Definition u8 (x : Z) : Z := x mod 256.
Definition u16 (x : Z) : Z := x mod 65536.
Definition u32 (x : Z) : Z := x mod 4294967296.

(** Conversions to signed types: two's complement, as avr-gcc defines them. *)
Definition s8 (x : Z) : Z := let y := x mod 256 in if y <? 128 then y else y - 256.
Definition s16 (x : Z) : Z := let y := x mod 65536 in if y <? 32768 then y else y - 65536.
Definition s32 (x : Z) : Z :=
  let y := x mod 4294967296 in if y <? 2147483648 then y else y - 4294967296.

(** Memory as a total map from an index to a cell; [upd] writes one cell. *)
Definition upd {A : Type} (m : Z -> A) (i : Z) (v : A) : Z -> A :=
  fun j => if j =? i then v else m j.

(** Index range check [0 <= i < n]. *)
Definition inb (i n : Z) : bool := (0 <=? i) && (i <? n).

(** The first [n] cells of a memory as a list, from index [i] on. *)
Fixpoint cells {A : Type} (m : Z -> A) (i : Z) (n : nat) : list A :=
  match n with
  | O => []
  | S k => m i :: cells m (i + 1) k
  end.
