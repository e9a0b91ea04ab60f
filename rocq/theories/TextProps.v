(** Properties of TextWriter. *)
Require Import ZArith List Bool Lia.
Import ListNotations.
From Verif Require Import Base TextModel TextSpec TextProofs.
Open Scope Z_scope.

(** C35.  There is only one numeral of a value. *)
Theorem text_numeral_unique : forall b s s' v, 2 <= b <= 36 -> numeral b v s -> numeral b v s' -> s = s'.
Proof. exact numeral_unique. Qed.
Print Assumptions text_numeral_unique.

(** C35.  Unsigned values: exactly the numeral, as long as it fits the digit buffer. *)
Theorem text_write_unsigned : forall iw b v s, iw = 16 \/ iw = 32 -> b <= 36 ->
  (0 <= v < 65536 -> v < eff_base b ^ 10 -> (tw_uint16 iw b v = Some s <-> numeral (eff_base b) v s)) /\
  (0 <= v < 256 -> v < eff_base b ^ 10 -> (tw_uint8 iw b v = Some s <-> numeral (eff_base b) v s)) /\
  (0 <= v < 4294967296 -> v < eff_base b ^ 20 -> (tw_uint32 b v = Some s <-> numeral (eff_base b) v s)).
Proof. exact text_uint_l. Qed.
Print Assumptions text_write_unsigned.
Example text_write_hex : tw_uint16 16 16 48879 = Some [66; 69; 69; 70] /\ tw_uint32 0 0 = Some [48].
Proof. split; reflexivity. Qed.

(** C35.  Signed values in decimal. *)
Theorem text_write_int16 : forall iw neg v s, iw = 16 \/ iw = 32 -> -32768 <= v < 32768 -> (iw = 16 -> v <> -32768) ->
  (tw_int16 iw 10 neg v = Some s <-> signed_numeral neg v s).
Proof. exact text_int16_l. Qed.
Print Assumptions text_write_int16.
Theorem text_write_int32 : forall iw neg v s, iw = 16 \/ iw = 32 -> -2147483648 < v < 2147483648 ->
  (tw_int32 iw 10 neg v = Some s <-> signed_numeral neg v s).
Proof. exact text_int32_l. Qed.
Print Assumptions text_write_int32.
Example text_write_negative : tw_int16 16 10 45 (-12) = Some [45; 49; 50] /\ tw_int16 32 10 45 (-32768) = Some [45; 51; 50; 55; 54; 56].
Proof. split; reflexivity. Qed.

(** C35.  In other bases a negative value is written as its two's complement bit pattern. *)
Theorem text_write_signed_other_base : forall iw b neg v s, iw = 16 \/ iw = 32 -> b <= 36 -> b <> 10 ->
  (-32768 <= v < 32768 -> v mod 65536 < eff_base b ^ 10 ->
     (tw_int16 iw b neg v = Some s <-> numeral (eff_base b) (v mod 65536) s)) /\
  (-2147483648 <= v < 2147483648 -> v mod 4294967296 < eff_base b ^ 20 ->
     (tw_int32 iw b neg v = Some s <-> numeral (eff_base b) (v mod 4294967296) s)).
Proof. exact text_int_other_l. Qed.
Print Assumptions text_write_signed_other_base.

(** C35, finding: the most negative value is negated in its own type, which overflows: int16_t
    where int has 16 bits, int32_t everywhere. *)
Theorem text_write_most_negative_refuted : forall iw neg, iw = 16 \/ iw = 32 ->
  tw_int16 16 10 neg (-32768) = None /\ tw_int32 iw 10 neg (-2147483648) = None.
Proof. intros iw neg [-> | ->]; split; reflexivity. Qed.
Print Assumptions text_write_most_negative_refuted.

(** C36.  The digit buffer is overrun exactly for these bases and values. *)
Theorem text_buffer_overrun : forall iw b v, iw = 16 \/ iw = 32 -> 2 <= b <= 36 ->
  (0 <= v < 65536 -> (tw_uint16 iw b v = None <-> (b = 2 /\ 1024 <= v) \/ (b = 3 /\ 59049 <= v))) /\
  (0 <= v < 4294967296 -> (tw_uint32 b v = None <-> (b = 2 /\ 1048576 <= v) \/ (b = 3 /\ 3486784401 <= v))).
Proof. exact text_overrun_l. Qed.
Print Assumptions text_buffer_overrun.

(** C36.  In general, for any buffer size: exactly the values with more digits than it has room for. *)
Theorem text_buffer_overrun_any : forall w size v b, 8 <= w -> 2 <= size -> b <= 36 -> 0 <= v ->
  (write_internal w size v b = None <-> eff_base b ^ (size - 1) <= v).
Proof. exact write_internal_none. Qed.
Print Assumptions text_buffer_overrun_any.

(** C37.  Strings are written character by character up to the terminating zero. *)
Theorem text_write_string : forall mem pos s n, cells mem pos (length s) = s -> Forall (fun c => c <> 0) s ->
  mem (pos + Z.of_nat (length s)) = 0 -> (length s < n)%nat -> tw_str n mem pos = Some s.
Proof. exact text_str_l. Qed.
Print Assumptions text_write_string.

(** C37, finding: a character is documented to be written as is, but its code is written in decimal;
    there is no ASCII character for which the output is the character. *)
Theorem text_write_char : forall iw neg c s, iw = 16 \/ iw = 32 -> -128 <= c < 128 ->
  (tw_char iw 10 neg c = Some s <-> signed_numeral neg c s).
Proof. exact text_char_l. Qed.
Print Assumptions text_write_char.
Theorem text_write_char_refuted : forall iw c, iw = 16 \/ iw = 32 -> 0 <= c < 128 -> tw_char iw 10 45 c <> Some [c].
Proof. exact text_char_never_l. Qed.
Print Assumptions text_write_char_refuted.
Example text_write_char_example : tw_char 16 10 45 65 = Some [54; 53].
Proof. reflexivity. Qed.

(** C37.  WriteLine adds the two new-line characters, in the order line feed, carriage return. *)
Theorem text_write_line : forall o l, o = Some l -> write_line o = Some (l ++ [10; 13]).
Proof. intros o l ->. reflexivity. Qed.
Print Assumptions text_write_line.

(** C59.  Floating point numbers, for exact arithmetic: the decimal numeral rounded to nearest. *)
Theorem text_write_real_exact : forall iw neg sep k n d s, iw = 16 \/ iw = 32 -> 0 <= k < 256 -> 0 < d ->
  (2 * Z.abs n * 10 ^ k + d) / (2 * d) < 4294967296 * 10 ^ k ->
  (write_real iw neg sep (n, d) k = Some s <-> decimal_numeral neg sep k n d s).
Proof. exact write_real_l. Qed.
Print Assumptions text_write_real_exact.
Example text_write_real_example :
  write_real 16 45 46 (-3142, 1000) 2 = Some [45; 51; 46; 49; 52] /\        (* -3.142 gives -3.14 *)
  write_real 16 45 46 (1999, 1000) 2 = Some [50; 46; 48; 48].               (* 1.999 gives 2.00 *)
Proof. split; vm_compute; reflexivity. Qed.
(** C59, findings: a small negative number is written as -0.00; 2^32 and above are undefined. *)
Theorem text_write_real_refuted :
  write_real 16 45 46 (-1, 1000) 2 = Some [45; 48; 46; 48; 48] /\
  write_real 16 45 46 (4294967296, 1) 2 = None.
Proof. split; vm_compute; reflexivity. Qed.
Print Assumptions text_write_real_refuted.
