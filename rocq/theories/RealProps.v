(** C59: TextWriter::WriteReal in binary floating point. *)
Require Import ZArith List Bool Lia.
From Coq Require Import Floats.SpecFloat.
Import ListNotations.
From Verif Require Import Base TextSpec RealModel RealSpec RealProofs.
Open Scope Z_scope.

(** A number of magnitude below 2^32 is written as its sign, the integral part and k decimals, and
    the decimal number written is at most half a unit of the last decimal plus
    (|x| + 2) * 2^-p away. *)
Theorem text_write_real_float : forall p s, 24 <= p -> p + 5 <= s ->
  forall iw neg sep k x, iw = 16 \/ iw = 32 -> 0 <= k < 256 -> is_float p x ->
  Z.abs x <= 4294967040 * 2 ^ s ->
  exists v t, fl_write_real p s iw neg sep x k = Some t /\ decimal_form neg sep k (x <? 0) v t /\ close p s k x v.
Proof. exact write_real_fl_l. Qed.
Print Assumptions text_write_real_float.
(** The decimal number is the nearest one when the number is not within (|x| + 2) * 10^k * 2^-p
    units of the midpoint of two decimal numbers. *)
Theorem text_write_real_nearest : forall p s, 24 <= p -> p + 5 <= s ->
  forall iw neg sep k x v, iw = 16 \/ iw = 32 -> 0 <= k < 256 -> is_float p x ->
  Z.abs x <= 4294967040 * 2 ^ s ->
  2 ^ (p + 1) * Z.abs (v * 2 ^ s - Z.abs x * 10 ^ k) + 2 * 10 ^ k * (Z.abs x + 2 * 2 ^ s) < 2 ^ p * 2 ^ s ->
  exists t, fl_write_real p s iw neg sep x k = Some t /\ decimal_form neg sep k (x <? 0) v t.
Proof.
  intros p s Hp Hs iw neg sep k x v Hi Hk Hf Hx Hv.
  destruct (write_real_fl_l p s Hp Hs iw neg sep k x Hi Hk Hf Hx) as (w & t & E & D & C).
  rewrite (close_nearest_l p s Hp Hs k x w v (proj1 Hk) C Hv) in D. exists t. split; assumption.
Qed.
Print Assumptions text_write_real_nearest.
(** A whole number n with 2 * (n + 2) * 10^k < 2^p is written exactly. *)
Theorem text_write_real_whole : forall p s, 24 <= p -> p + 5 <= s ->
  forall iw neg sep k n, iw = 16 \/ iw = 32 -> 0 <= k < 256 -> 0 <= n -> 2 * (n + 2) * 10 ^ k < 2 ^ p ->
  n <= 4294967040 ->
  exists t, fl_write_real p s iw neg sep (n * 2 ^ s) k = Some t /\ decimal_form neg sep k false (n * 10 ^ k) t.
Proof. exact write_real_whole_l. Qed.
Print Assumptions text_write_real_whole.
(** For any number at all there is such a decimal number: it is written if it is below 2^32, and otherwise the
    conversion is undefined.  With 33 bits or more it is below 2^32 for every number up to 4294967295. *)
Theorem text_write_real_total : forall p s, 24 <= p -> p + 5 <= s ->
  forall iw neg sep k x, iw = 16 \/ iw = 32 -> 0 <= k < 256 ->
  exists v, close p s k x v /\
    (33 <= p -> Z.abs x <= 4294967295 * 2 ^ s -> v < 4294967296 * 10 ^ k) /\
    if v <? 4294967296 * 10 ^ k
    then exists t, fl_write_real p s iw neg sep x k = Some t /\ decimal_form neg sep k (x <? 0) v t
    else fl_write_real p s iw neg sep x k = None.
Proof.
  intros p s Hp Hs iw neg sep k x Hi Hk. destruct (write_real_any_l p s Hp Hs iw neg sep k x Hi Hk) as (v & C & B & W).
  exists v. split; [exact C|]. split; [|exact W]. intros H33 Hx. apply B. exact (sum_below_33 p s Hp Hs (Z.to_nat k) x H33 Hx).
Qed.
Print Assumptions text_write_real_total.
(** From 2^32 on the conversion is undefined. *)
Theorem text_write_real_large : forall p s, 24 <= p -> p + 5 <= s ->
  forall iw neg sep k x, 0 <= k < 256 -> 4294967296 * 2 ^ s <= Z.abs x ->
  fl_write_real p s iw neg sep x k = None.
Proof. exact write_real_large_l. Qed.
Print Assumptions text_write_real_large.

(** 2.5f with one decimal, 1234.5f with two, 0.1f with nine, and -0.001f with two. *)
Example text_write_real_float_example :
  fl_write_real 24 149 16 45 46 (5 * 2 ^ 148) 1 = Some [50; 46; 53] /\
  fl_write_real 24 149 16 45 46 (2469 * 2 ^ 148) 2 = Some [49; 50; 51; 52; 46; 53; 48] /\
  fl_write_real 24 149 16 45 46 (fl 24 (2 ^ 149) 10) 9 = Some [48; 46; 49; 48; 48; 48; 48; 48; 48; 48; 48] /\
  fl_write_real 24 149 16 45 46 (- fl 24 (2 ^ 149) 1000) 2 = Some [45; 48; 46; 48; 48].
Proof. repeat split; vm_compute; reflexivity. Qed.
(** 4294967295.5 in binary64: undefined with no decimals, written with one. *)
Example text_write_real_total_example :
  fl_write_real 53 1074 32 45 46 (8589934591 * 2 ^ 1073) 0 = None /\
  fl_write_real 53 1074 32 45 46 (8589934591 * 2 ^ 1073) 1 = Some [52; 50; 57; 52; 57; 54; 55; 50; 57; 53; 46; 53].
Proof. split; vm_compute; reflexivity. Qed.
(** [fl] agrees with the division of the standard library on 0.5f / 10 and 1.0f / 3. *)
Example fl_example :
  SFdiv 24 128 (S754_finite false 8388608 (-24)) (S754_finite false 10485760 (-20)) = S754_finite false 13421773 (-28) /\
  fl 24 (2 ^ 148) 10 = 13421773 * 2 ^ (149 - 28) /\
  SFdiv 24 128 (S754_finite false 8388608 (-23)) (S754_finite false 12582912 (-22)) = S754_finite false 11184811 (-25) /\
  fl 24 (2 ^ 149) 3 = 11184811 * 2 ^ (149 - 25).
Proof. repeat split; vm_compute; reflexivity. Qed.

(** Findings: the whole number 8388609 is written as 8388610, and 2.675f, which is nearer to 2.67
    than to 2.68, as 2.68. *)
Theorem text_write_real_float_refuted :
  (is_float 24 (8388609 * 2 ^ 149) /\
   fl_write_real 24 149 16 45 46 (8388609 * 2 ^ 149) 0 = Some [56; 51; 56; 56; 54; 49; 48]) /\
  (let x := fl 24 (2675 * 2 ^ 149) 1000 in
   1000 * x < 2675 * 2 ^ 149 /\ fl_write_real 24 149 16 45 46 x 2 = Some [50; 46; 54; 56]).
Proof.
  split; [split|].
  - exists 8388609, 149. split; [lia|]. split; [|reflexivity]. vm_compute. reflexivity.
  - vm_compute. reflexivity.
  - lazy zeta. split; vm_compute; reflexivity.
Qed.
Print Assumptions text_write_real_float_refuted.
