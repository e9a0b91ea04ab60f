(** Properties of Bit, BitFlag and BitArray. *)
Require Import ZArith List Bool.
Import ListNotations.
From Verif Require Import BitModel BitSpec BitProofs.
Open Scope Z_scope.

(** C14.  Field write then read, frame, and independence of disjoint fields. *)
Theorem bitarray_field_roundtrip : forall iw w b i v c,
  1 <= iw -> 2 <= Z.max w iw -> 0 <= b < 2 ^ w -> 0 <= v < 2 ^ w ->
  0 <= i -> 0 <= c -> i + c <= w -> i < Z.max w iw ->
  exists b', ba_set_field iw w b i v c = Some (b', true) /\ 0 <= b' < 2 ^ w /\
    ba_get_field iw w b' i c = Some (v mod 2 ^ c) /\
    (forall j, 0 <= j -> ~ (i <= j < i + c) -> Z.testbit b' j = Z.testbit b j) /\
    (forall i2 c2, 0 <= i2 -> 0 <= c2 -> i2 + c2 <= w -> i2 < Z.max w iw ->
       i2 + c2 <= i \/ i + c <= i2 -> ba_get_field iw w b' i2 c2 = ba_get_field iw w b i2 c2).
Proof. exact ba_set_get_l. Qed.
Print Assumptions bitarray_field_roundtrip.

(** C14.  What Get returns. *)
Theorem bitarray_field_value : forall iw w b i c,
  1 <= iw -> 2 <= Z.max w iw -> 0 <= b < 2 ^ w ->
  0 <= i -> 0 <= c -> i + c <= w -> i < Z.max w iw ->
  ba_get_field iw w b i c = Some ((b / 2 ^ i) mod 2 ^ c).
Proof. exact ba_get_l. Qed.
Print Assumptions bitarray_field_value.

(** C14.  A field that does not fit is rejected. *)
Theorem bitarray_field_rejected : forall iw w b i v c, w < i + c ->
  ba_set_field iw w b i v c = Some (b, false) /\ ba_get_field iw w b i c = Some 0.
Proof. exact ba_invalid_l. Qed.
Print Assumptions bitarray_field_rejected.

(** C14, finding: an empty field at index MaxBits passes the check and then shifts by the full
    width of T, which is undefined for T at least as wide as int. *)
Theorem bitarray_empty_field_refuted : ba_valid 16 16 0 = true /\
  ba_set_field 16 16 0 16 0 0 = None /\ ba_get_field 16 16 0 16 0 = None.
Proof. vm_compute. auto. Qed.
Print Assumptions bitarray_empty_field_refuted.

(** C15.  Any history of single-bit calls on a type no wider than int behaves as a vector of bits:
    contents and every returned value. *)
Theorem bitarray_history : forall iw w ops b f,
  1 <= w <= iw -> 0 <= b < 2 ^ w -> same_bits w b f -> Forall (ba_op_ok w) ops ->
  exists b' rs, ba_run iw w b ops = Some (b', rs) /\ 0 <= b' < 2 ^ w /\
    same_bits w b' (fst (bv_run w f ops)) /\ rs = snd (bv_run w f ops).
Proof. exact ba_history_l. Qed.
Print Assumptions bitarray_history.

(** C15, finding: BitArray<uint32_t> with a 16-bit int: Set(15) also sets bits 16..31 and any
    higher index is an undefined shift. *)
Theorem bitarray_uint32_refuted :
  ba_set 16 32 0 15 = Some (4294934528, true) /\ ba_set 16 32 0 16 = None.
Proof. vm_compute. auto. Qed.
Print Assumptions bitarray_uint32_refuted.

(** C16.  Reverse mirrors the bits, for every width. *)
Theorem bitarray_reverse : forall w b, 0 <= w ->
  0 <= ba_reverse w b < 2 ^ w /\
  forall j, 0 <= j < w -> Z.testbit (ba_reverse w b) j = Z.testbit b (w - 1 - j).
Proof. exact ba_reverse_l. Qed.
Print Assumptions bitarray_reverse.

Theorem bitarray_reverse_twice : forall w b, 1 <= w -> 0 <= b < 2 ^ w ->
  ba_reverse w (ba_reverse w b) = b.
Proof. exact ba_reverse_twice_l. Qed.
Print Assumptions bitarray_reverse_twice.

Theorem bitarray_reverse8 : forall b, 0 <= b < 256 -> ba_reverse8 b = ba_reverse 8 b.
Proof. exact ba_reverse8_l. Qed.
Print Assumptions bitarray_reverse8.

Theorem bitarray_reverse16 : forall b, 0 <= b < 65536 -> ba_reverse16 b = ba_reverse 16 b.
Proof. exact ba_reverse16_l. Qed.
Print Assumptions bitarray_reverse16.

(** C17.  Writes through Bit<i> change bit [i] only; signed and unsigned operands. *)
Theorem bit_writes : forall iw sg w t i, mask_ok iw w i ->
  (exists r, bit_set iw sg w t i = Some r /\ in_type sg w r /\
     forall j, 0 <= j < w -> Z.testbit r j = if j =? i then true else Z.testbit t j) /\
  (exists r, bit_reset iw sg w t i = Some r /\ in_type sg w r /\
     forall j, 0 <= j < w -> Z.testbit r j = if j =? i then false else Z.testbit t j) /\
  (forall v, exists r, bit_put iw sg w t i v = Some r /\ in_type sg w r /\
     forall j, 0 <= j < w -> Z.testbit r j = if j =? i then v else Z.testbit t j) /\
  (exists r, bit_toggle iw sg w t i = Some r /\ in_type sg w r /\
     forall j, 0 <= j < w -> Z.testbit r j = if j =? i then negb (Z.testbit t j) else Z.testbit t j).
Proof. exact bit_writes_l. Qed.
Print Assumptions bit_writes.

(** C17.  IsFalse always reads bit [i]; IsTrue does too, except that it is constantly false for
    the sign bit of a signed operand. *)
Theorem bit_reads : forall iw sg w t i, mask_ok iw w i -> in_type sg w t ->
  bit_false iw sg w t i = Some (negb (Z.testbit t i)) /\
  bit_true iw sg w t i = Some (Z.testbit t i && negb (sg && (i =? w - 1))).
Proof. exact bit_reads_l. Qed.
Print Assumptions bit_reads.

Theorem bit_toggle_twice : forall iw sg w t i, mask_ok iw w i -> in_type sg w t ->
  exists r, bit_toggle iw sg w t i = Some r /\ bit_toggle iw sg w r i = Some t.
Proof. exact bit_toggle_twice_l. Qed.
Print Assumptions bit_toggle_twice.

(** C17, finding: after Bit<7>::Set on an int8_t both IsTrue and IsFalse answer false. *)
Theorem bit_signed_refuted :
  bit_set 16 true 8 0 7 = Some (-128) /\
  bit_true 16 true 8 (-128) 7 = Some false /\ bit_false 16 true 8 (-128) 7 = Some false.
Proof. vm_compute. auto. Qed.
Print Assumptions bit_signed_refuted.

(** C17, finding: on a 16-bit int, Bit<15>::Set on a uint32_t sets bits 15..31, and bits 16..31
    cannot be addressed at all. *)
Theorem bit_uint32_int16 : forall t, 0 <= t < 2 ^ 32 ->
  exists r, bit_set 16 false 32 t 15 = Some r /\
    (forall j, 15 <= j < 32 -> Z.testbit r j = true) /\
    (forall i, 16 <= i -> bit_set 16 false 32 t i = None).
Proof. exact bit32_l. Qed.
Print Assumptions bit_uint32_int16.

(** C18.  BitFlag: same as Bit for an existing bit ... *)
Theorem bitflag_in_range : forall iw sg w t i v, mask_ok iw w i ->
  flag_set iw sg w t i = bit_set iw sg w t i /\ flag_reset iw sg w t i = bit_reset iw sg w t i /\
  flag_put iw sg w t i v = bit_put iw sg w t i v /\ flag_toggle iw sg w t i = bit_toggle iw sg w t i /\
  flag_true iw sg w t i = bit_true iw sg w t i /\ flag_false iw sg w t i = bit_false iw sg w t i.
Proof. exact flag_same. Qed.
Print Assumptions bitflag_in_range.

(** ... nothing happens above the width ... *)
Theorem bitflag_out_of_range : forall iw sg w t i v, w < i ->
  flag_set iw sg w t i = Some t /\ flag_reset iw sg w t i = Some t /\
  flag_put iw sg w t i v = Some t /\ flag_toggle iw sg w t i = Some t /\
  flag_true iw sg w t i = Some false /\ flag_false iw sg w t i = Some false.
Proof. exact flag_beyond_l. Qed.
Print Assumptions bitflag_out_of_range.

(** ... and index = width slips through the guard: IsFalse answers true for operands narrower
    than int, and the shift is undefined for all others. *)
Theorem bitflag_edge : forall iw sg w t v, 1 <= w -> in_type sg w t ->
  (w < iw ->
    flag_set iw sg w t w = Some t /\ flag_reset iw sg w t w = Some t /\
    flag_put iw sg w t w v = Some t /\ flag_toggle iw sg w t w = Some t /\
    flag_true iw sg w t w = Some false /\ flag_false iw sg w t w = Some true) /\
  (iw <= w ->
    flag_set iw sg w t w = None /\ flag_reset iw sg w t w = None /\
    flag_put iw sg w t w v = None /\ flag_toggle iw sg w t w = None /\
    flag_true iw sg w t w = None /\ flag_false iw sg w t w = None).
Proof. exact flag_edge_l. Qed.
Print Assumptions bitflag_edge.

(** C56.  ShiftUp and ShiftDown move bits, drop those that leave the word and shift in zeroes. *)
Theorem bitarray_shift : forall iw w b k, 1 <= w -> 0 <= b < 2 ^ w -> 0 <= k ->
  (k < w -> 2 * w <= iw \/ iw <= w ->
     exists r, ba_shift_up iw w b k = Some r /\ 0 <= r < 2 ^ w /\
       forall j, 0 <= j < w -> Z.testbit r j = (k <=? j) && Z.testbit b (j - k)) /\
  (k < Z.max w iw ->
     exists r, ba_shift_down iw w b k = Some r /\ 0 <= r < 2 ^ w /\
       forall j, 0 <= j < w -> Z.testbit r j = (j + k <? w) && Z.testbit b (j + k)) /\
  (Z.max w iw <= k -> ba_shift_up iw w b k = None /\ ba_shift_down iw w b k = None).
Proof. exact ba_shift_l. Qed.
Print Assumptions bitarray_shift.

(** Non-vacuity. *)
Example field_example :
  ba_set_field 16 16 65535 4 37 5 = Some (65119, true) /\ ba_get_field 16 16 65119 4 5 = Some 5 /\
  ba_set_field 16 8 0 6 3 3 = Some (0, false).
Proof. vm_compute. auto. Qed.
Example history_example :
  let ops := [BSet 3; BPut 7 true; BReset 0; BIsTrue 7; BIsFalse 7; BSet 8; BIsFalse 8; BSetAll 200; BIsTrue 3] in
  ba_run 16 8 1 ops = Some (200, [true; true; true; true; false; false; false; true; true]) /\
  Forall (ba_op_ok 8) ops.
Proof.
  split; [vm_compute; reflexivity|].
  repeat (apply Forall_cons; [cbv; split; discriminate || (intros; discriminate) || reflexivity|]); apply Forall_nil.
Qed.
Example reverse_example : ba_reverse 32 5 = 2684354560 /\ ba_reverse8 5 = 160 /\ ba_reverse16 5 = 40960.
Proof. vm_compute. auto. Qed.
Example mask_ok_example : mask_ok 16 16 15 /\ mask_ok 16 8 7 /\ mask_ok 32 32 31 /\ mask_ok 16 32 14 /\ ~ mask_ok 16 32 15.
Proof.
  unfold mask_ok. repeat split; try discriminate; try reflexivity; auto; try (right; discriminate);
    try (left; reflexivity).
  intros [_ [_ [H|H]]]; [discriminate H|now apply H].
Qed.
Example shift_example :
  ba_shift_up 16 8 129 1 = Some 2 /\ ba_shift_down 16 8 129 7 = Some 1 /\ ba_shift_up 16 16 1 16 = None.
Proof. vm_compute. auto. Qed.
