(** C68.  Constants in program memory. *)
Require Import ZArith List Bool Lia.
Import ListNotations.
From Verif Require Import Base ArrayModel RealModel FlashModel FlashSpec FlashProofs.
Open Scope Z_scope.

(** GetAt over an array the linker placed in the first 64 KB: the item for every valid index, the
    default value for every other, for every item type. *)
Theorem flash_array_reads : forall flash t dflt a items i, 0 <= a -> a + Z.of_nat (length items) * width t <= 65536 ->
  Forall (in_type t) items -> laid_out flash a t items ->
  fl_get flash t dflt (Z.of_nat (length items)) a i =
    (if (0 <=? i) && (i <? Z.of_nat (length items)) then nth (Z.to_nat i) items dflt else dflt).
Proof. exact fl_get_l. Qed.
Print Assumptions flash_array_reads.

(** IndexOf finds the first match or answers -1, up to 127 items. *)
Theorem flash_index_of : forall flash t dflt a items item fuel, 0 <= a -> a + Z.of_nat (length items) * width t <= 65536 ->
  t <> Float -> Forall (in_type t) items -> laid_out flash a t items -> (length items <= 127)%nat -> (length items < fuel)%nat ->
  exists r, fl_index_of flash t dflt (Z.of_nat (length items)) a item fuel = Some r /\
    ((r = -1 /\ ~ In item items) \/
     (0 <= r < Z.of_nat (length items) /\ nth_error items (Z.to_nat r) = Some item /\ ~ In item (firstn (Z.to_nat r) items))).
Proof. exact fl_index_l. Qed.
Print Assumptions flash_index_of.

(** Finding: an array beyond 64 KB reads as something else. *)
Theorem flash_far_refuted : exists flash a items, 65536 <= a /\ Forall (in_type U8) items /\ laid_out flash a U8 items /\
  fl_get flash U8 0 (Z.of_nat (length items)) (u16 a) 0 <> nth 0 items 0.
Proof. exact far_l. Qed.
Print Assumptions flash_far_refuted.

(** Finding: an array of double is read through the accessor for integers of 4 bytes, so 1.0 comes back
    as 1065353216.0, and no negative item comes back at all. *)
Theorem flash_double_refuted :
  (forall flash a, (forall k, 0 <= flash k < 256) -> 0 <= pm_read_double flash a) /\
  (exists flash, stored flash 100 Float 1065353216 /\ value_of_bits 1065353216 = 2 ^ 149 /\
     pm_read_double flash 100 = 1065353216 * 2 ^ 149).
Proof.
  split; [exact double_l|].
  exists (fun a => if a =? 102 then 128 else if a =? 103 then 63 else 0). split; [|split; reflexivity].
  intros k K. cbn [width] in K. assert (C : k = 0 \/ k = 1 \/ k = 2 \/ k = 3) by lia.
  destruct C as [-> | [-> | [-> | ->]]]; reflexivity.
Qed.
Print Assumptions flash_double_refuted.

(** StaticString::Read writes exactly the first [targetLen] bytes of the target: the characters, then
    zeros.  The target holds the string exactly when that is shorter than [targetLen]. *)
Theorem static_string_read : forall flash cap target str n s, 0 <= n <= cap -> 0 <= str -> str + Z.of_nat (length s) < 65536 ->
  c_string flash str s ->
  exists m, string_read flash cap target str n = Some m /\
    cells m 0 (Z.to_nat n) = firstn (Z.to_nat n) s ++ repeat 0 (Z.to_nat n - length s) /\
    (forall j, ~ (0 <= j < n) -> m j = target j) /\
    text_of (cells m 0 (Z.to_nat n)) = if Z.of_nat (length s) <? n then Some s else None.
Proof. exact string_read_l. Qed.
Print Assumptions static_string_read.

(** Finding: a string as long as the buffer is left without terminator, although Read is said to read
    the entire string. *)
Theorem static_string_refuted : exists flash m, c_string flash 0 [65; 66] /\
  string_read flash 2 (fun _ => 0) 0 2 = Some m /\ text_of (cells m 0 2) = None.
Proof.
  exists (fun a => if a =? 0 then 65 else if a =? 1 then 66 else 0). eexists.
  split; [split; [repeat constructor; lia|split; reflexivity]|]. split; reflexivity.
Qed.
Print Assumptions static_string_refuted.

(** -2 as int16_t at address 100. *)
Example flash_example :
  let flash a := if a =? 100 then 254 else 255 in
  laid_out flash 100 S16 [-2; -1] /\ fl_get flash S16 0 2 100 0 = -2 /\ fl_get flash S16 0 2 100 1 = -1 /\ fl_get flash S16 0 2 100 2 = 0.
Proof.
  split; [|split; [|split]; reflexivity].
  intros [|[|[|i]]] v E; try discriminate; injection E as <-; intros k K; cbn [width] in K;
    assert (C : k = 0 \/ k = 1) by lia; destruct C as [-> | ->]; reflexivity.
Qed.
