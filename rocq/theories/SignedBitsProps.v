(** Properties of BitArray<T> for a signed T. *)
Require Import ZArith List Bool Lia.
Import ListNotations.
From Verif Require Import BitModel BitSpec SignedBitsModel SignedBitsSpec SignedBitsProofs.
Open Scope Z_scope.

(** C89.  A field written reads back: its low bits as an unsigned number, or as a signed number if the field
    ends at the sign bit.  Every field beside it keeps its value. *)
Theorem sbits_field_roundtrip : forall iw w b i v c, 1 <= w -> 2 <= Z.max w iw ->
  0 <= i -> 0 <= c -> i + c <= w -> i < Z.max w iw ->
  exists b', sb_set_field iw w b i v c = Some (b', true) /\ in_type true w b' /\
    sb_get_field iw w b' i c = Some (if (i + c =? w) && (0 <? c) then sn c v else v mod 2 ^ c) /\
    (forall i2 c2, 0 <= i2 -> 0 <= c2 -> i2 + c2 <= w -> i2 < Z.max w iw -> i2 + c2 <= i \/ i + c <= i2 ->
       sb_get_field iw w b' i2 c2 = sb_get_field iw w b i2 c2).
Proof. exact sb_set_get_l. Qed.
Print Assumptions sbits_field_roundtrip.

(** C89.  The value of any field, and the bits a write leaves. *)
Theorem sbits_field_value : forall iw w b i v c, 1 <= w -> 2 <= Z.max w iw ->
  0 <= i -> 0 <= c -> i + c <= w -> i < Z.max w iw ->
  sb_get_field iw w b i c = Some (field_value w b i c) /\
  exists b', sb_set_field iw w b i v c = Some (b', true) /\
    forall j, 0 <= j < w -> Z.testbit b' j = if (i <=? j) && (j <? i + c) then Z.testbit v (j - i) else Z.testbit b j.
Proof.
  intros iw w b i v c Hw Hm Hi Hc H Hx. split; [now apply sb_get_l|].
  destruct (sb_set_l iw w b i v c Hw Hm Hi Hc H Hx) as [b' [E [_ B]]]. now exists b'.
Qed.
Print Assumptions sbits_field_value.

(** C89.  A field that does not fit is refused. *)
Theorem sbits_field_rejected : forall iw w b i v c, w < i + c ->
  sb_set_field iw w b i v c = Some (b, false) /\ sb_get_field iw w b i c = Some 0.
Proof. exact sb_invalid_l. Qed.
Print Assumptions sbits_field_rejected.

(** C89, finding: 9 written to the upper half of an int8_t reads back as -7, in every surrounding. *)
Theorem sbits_field_refuted : forall iw b, 1 <= iw -> exists b',
  sb_set_field iw 8 b 4 9 4 = Some (b', true) /\ sb_get_field iw 8 b' 4 4 = Some (-7).
Proof.
  intros iw b H. destruct (sb_set_get_l iw 8 b 4 9 4 ltac:(lia) ltac:(lia) ltac:(lia) ltac:(lia) ltac:(lia) ltac:(lia))
    as [b' [E [_ [G _]]]]. exists b'. split; [exact E|exact G].
Qed.
Print Assumptions sbits_field_refuted.

(** C89.  Any history of single bit operations, for types up to int: a vector of bits, except that IsTrue
    denies the sign bit of a type as wide as int. *)
Theorem sbits_history : forall iw w ops b f, 1 <= w <= iw -> in_type true w b -> same_bits w b f ->
  Forall (sb_op_ok w) ops ->
  exists b' rs, sb_run iw w b ops = Some (b', rs) /\ in_type true w b' /\
    same_bits w b' (fst (sv_run iw w f ops)) /\ rs = snd (sv_run iw w f ops).
Proof. exact sb_history_l. Qed.
Print Assumptions sbits_history.

(** C89, finding: bit 15 of a BitArray<int> on AVR is neither true nor false once it is set. *)
Theorem sbits_sign_refuted : forall b, in_type true 16 b -> exists b',
  sb_run 16 16 b [BSet 15; BIsTrue 15; BIsFalse 15] = Some (b', [true; false; false]).
Proof.
  intros b Hb. destruct (sb_history_l 16 16 [BSet 15; BIsTrue 15; BIsFalse 15] b (Z.testbit b) ltac:(lia) Hb) as [b' [rs [E [_ [_ R]]]]].
  - intros j Hj. reflexivity.
  - repeat constructor; cbn [sb_op_ok]; lia.
  - exists b'. rewrite E, R. reflexivity.
Qed.
Print Assumptions sbits_sign_refuted.

(** C89.  Reverse mirrors the bits. *)
Theorem sbits_reverse : forall w b, 1 <= w ->
  in_type true w (sb_reverse w b) /\
  (forall j, 0 <= j < w -> Z.testbit (sb_reverse w b) j = Z.testbit b (w - 1 - j)) /\
  (in_type true w b -> sb_reverse w (sb_reverse w b) = b).
Proof.
  intros w b Hw. destruct (sb_reverse_l w b Hw) as [T B]. split; [exact T|]. split; [exact B|]. now apply sb_reverse_twice_l.
Qed.
Print Assumptions sbits_reverse.

(** C89.  ShiftUp fills with false; ShiftDown repeats the sign bit. *)
Theorem sbits_shift : forall iw w b k, 1 <= w -> in_type true w b -> 0 <= k < Z.max w iw ->
  (exists r, sb_shift_up iw w b k = Some r /\ in_type true w r /\
     forall j, 0 <= j < w -> Z.testbit r j = (k <=? j) && Z.testbit b (j - k)) /\
  (exists r, sb_shift_down iw w b k = Some r /\ in_type true w r /\
     forall j, 0 <= j < w -> Z.testbit r j = Z.testbit b (Z.min (j + k) (w - 1))).
Proof. exact sb_shift_l. Qed.
Print Assumptions sbits_shift.

(** C89, finding: "setting false for the most significant bits" (line 243) does not hold. *)
Theorem sbits_shift_refuted : exists r, sb_shift_down 16 8 (-128) 1 = Some r /\ Z.testbit r 7 = true.
Proof. eexists. split; lazy; reflexivity. Qed.
Print Assumptions sbits_shift_refuted.

Example sbits_demo :
  sb_set_field 16 8 0 2 5 3 = Some (20, true) /\ sb_get_field 16 8 20 2 3 = Some 5 /\
  sb_set_field 16 8 20 5 7 3 = Some (-12, true) /\ sb_get_field 16 8 (-12) 5 3 = Some (-1) /\
  sb_get_field 16 8 (-12) 2 3 = Some 5 /\
  sb_run 16 8 0 [BSet 7; BIsTrue 7; BPut 7 false; BIsTrue 7; BSet 8] = Some (0, [true; true; true; false; false]) /\
  sb_reverse 8 (-12) = 47 /\ sb_shift_up 16 8 (-12) 2 = Some (-48).
Proof. repeat split; lazy; reflexivity. Qed.
