(** Properties of arrays, strings, collections and iterators. *)
Require Import ZArith List Bool.
Import ListNotations.
From Verif Require Import Base ArrayModel ArraySpec ArrayProofs IteratorModel IteratorProofs ArrayFinal.
Open Scope Z_scope.

(** C05.  Up to 32767 items: reading is total, validity is the index range, and IndexOf finds
    the first equal item. *)
Theorem array_reads_total : forall (T : Type) (teq : T -> T -> bool) (dflt : T) n m,
  0 <= n <= 32767 ->
  let l := cells m 0 (Z.to_nat n) in
  (forall i, arr_get dflt n m i = Some (lookup dflt l i) /\
             (arr_valid n i = true <-> 0 <= i < n)) /\
  (forall x, exists p, arr_index_of teq n m x = Some p /\
     ((0 <= p < n /\ teq (m p) x = true /\ forall q, 0 <= q < p -> teq (m q) x = false) \/
      (p = -1 /\ forall q, 0 <= q < n -> teq (m q) x = false))).
Proof. exact array_total_l. Qed.
Print Assumptions array_reads_total.

(** C05, finding: with 32768 or more items no index is valid and nothing is ever found. *)
Theorem array_large_unusable : forall (T : Type) (teq : T -> T -> bool) (dflt : T) n m i x,
  32768 <= n <= 65535 ->
  arr_valid n i = false /\ arr_get dflt n m i = Some dflt /\ arr_index_of teq n m x = Some (-1).
Proof. exact array_large_l. Qed.
Print Assumptions array_large_unusable.

(** C06.  After any history of writes, through SetAt or operator[], to any number of arrays, every
    element of every array holds the last value written to it at a valid index, and GetAt and
    operator[] read it; operator[] at an invalid index reads the last value assigned there. *)
Theorem fixed_array_last_write : forall (T : Type) n ops (s : arrays T),
  0 <= n <= 32767 ->
  exists s', arr_steps n s ops = Some s' /\
    forall a i, a_mem s' a i = last_write n a i ops (a_mem s a i) /\
      (0 <= i < n -> forall dflt, arr_get dflt n (a_mem s' a) i = Some (a_mem s' a i)) /\
      arr_index_read n s' a i = Some (if inb i n then a_mem s' a i else last_out n ops (a_dummy s)).
Proof. exact fixed_array_last_write_l. Qed.
Print Assumptions fixed_array_last_write.

(** C06, finding: reading through operator[] at an invalid index is not the default value; it
    returns whatever was last assigned out of range through any array of that type. *)
Theorem operator_index_default_refuted :
  exists s s', arr_steps 3 s [OpIndexAssign 0%nat 7 42] = Some s' /\
    arr_index_read 3 s' 1%nat (-1) = Some 42.
Proof. exact operator_index_l. Qed.
Print Assumptions operator_index_default_refuted.

(** C07.  Clear on elements of [s] bytes each (element [k] occupies bytes k*s .. k*s+s-1). *)
Theorem fixed_array_clear : forall n s k b, 0 <= n -> 1 <= s -> 0 <= k < n ->
  let elem m := cells m (k * s) (Z.to_nat s) in
  ((k + 1) * s <= n -> elem (fix_clear n b) = repeat 0 (Z.to_nat s)) /\
  (n <= k * s -> elem (fix_clear n b) = elem b) /\
  (forall j, n <= j -> fix_clear n b j = b j).
Proof. exact clear_elements_l. Qed.
Print Assumptions fixed_array_clear.

(** C07.  For one byte elements Clear zeroes every element. *)
Theorem fixed_array_clear_bytes : forall n b i, 0 <= i < n -> fix_clear n b i = 0.
Proof. exact clear_bytes_l. Qed.
Print Assumptions fixed_array_clear_bytes.

(** C07, finding: for wider elements Clear leaves elements untouched. *)
Theorem fixed_array_clear_all_refuted :
  exists n s k b, 0 <= k < n /\ 1 < s /\
    cells (fix_clear n b) (k * s) (Z.to_nat s) <> repeat 0 (Z.to_nat s).
Proof. exact clear_all_refuted_l. Qed.
Print Assumptions fixed_array_clear_all_refuted.

(** C08.  Any history that does not overwrite the terminator cell with a non-NUL character keeps
    the string terminated, touches nothing outside the MaxChars+1 bytes, and CopyFrom stores the
    first MaxChars characters of its argument and clears the rest. *)
Theorem fixed_string_terminated : forall n b ops, 0 <= n <= 32766 ->
  Forall (fun o => match o with FsSet i c => i <> n \/ c = 0 | _ => True end) ops ->
  exists b', fs_run n (fs_new n b) ops = Some b' /\
    (exists s, c_string b' 0 (S (Z.to_nat n)) = Some s) /\
    (forall j, (j < 0 \/ n < j) -> b' j = b j) /\
    (forall src, Forall (fun c => c <> 0) src ->
       exists b'', fs_step n b' (FsCopy src) = Some b'' /\
         c_string b'' 0 (S (Z.to_nat n)) = Some (firstn (Z.to_nat n) src) /\
         forall j, Z.of_nat (length src) <= j <= n -> b'' j = 0).
Proof. exact fixed_string_l. Qed.
Print Assumptions fixed_string_terminated.

(** C08, every byte after any history of CopyFrom, Clear and SetAt. *)
Theorem fixed_string_bytes : forall n b ops, 0 <= n <= 32766 ->
  exists b', fs_run n (fs_new n b) ops = Some b' /\
    forall j, b' j = fs_byte n j ops (if (0 <=? j) && (j <=? n) then 0 else b j).
Proof. exact fs_bytes_l. Qed.
Print Assumptions fixed_string_bytes.

(** C08, finding: index MaxChars passes the bounds check, so one SetAt can remove the terminator;
    and a capacity above 255 is misreported. *)
Theorem fixed_string_setat_refuted :
  exists b', fs_run 3 (fs_new 3 (fun _ => 7)) [FsCopy [65; 66; 67]; FsSet 3 68] = Some b' /\
    c_string b' 0 4 = None.
Proof. exact fixed_string_setat_l. Qed.
Print Assumptions fixed_string_setat_refuted.

Theorem fixed_string_capacity : forall n, 0 <= n <= 65535 -> fs_capacity n = n mod 256 /\ (fs_capacity n = n <-> n <= 255).
Proof. exact fs_cap_l. Qed.
Print Assumptions fixed_string_capacity.

(** C09.  A collection over at most 32767 items behaves as a bounded list for every history. *)
Theorem collection_is_list : forall (T : Type) (dflt : T) n m ops, 0 <= n <= 32767 ->
  let l := list_run n [] ops in
  exists c, coll_run n (mkColl m 0) ops = Some c /\
    c_count c = Z.of_nat (length l) /\ Z.of_nat (length l) <= n /\
    forall i, coll_get dflt n c i = Some (lookup dflt l i).
Proof. exact collection_list_l. Qed.
Print Assumptions collection_is_list.

(** C10.  IndexOf on the collection reached by any history: the first position, reduced to a
    signed char; exact when that position is below 128. *)
Theorem collection_index_of : forall (T : Type) (teq : T -> T -> bool) (dflt : T) n m ops x,
  0 <= n <= 32767 ->
  exists c, coll_run n (mkColl m 0) ops = Some c /\
    coll_index_of teq dflt n c x =
      Some (match first_pos teq (list_run n [] ops) x with Some p => s8 p | None => -1 end) /\
    (forall p, first_pos teq (list_run n [] ops) x = Some p -> p < 128 ->
       coll_index_of teq dflt n c x = Some p) /\
    (forall p, first_pos teq (list_run n [] ops) x = Some p -> 128 <= p < 256 ->
       exists r, coll_index_of teq dflt n c x = Some r /\ r < 0).
Proof. exact collection_index_l. Qed.
Print Assumptions collection_index_of.

(** What [first_pos] denotes, for reading the theorems above and below. *)
Theorem first_pos_meaning : forall (T : Type) (teq : T -> T -> bool) (dflt : T) l x,
  match first_pos teq l x with
  | Some p => 0 <= p < Z.of_nat (length l) /\ teq (lookup dflt l p) x = true /\
              forall q, 0 <= q < p -> teq (lookup dflt l q) x = false
  | None => forall y, In y l -> teq y x = false
  end.
Proof. exact (@first_pos_spec). Qed.
Print Assumptions first_pos_meaning.

(** C10, finding: an item stored at index 255 is reported as absent. *)
Theorem collection_index_of_refuted :
  exists c : coll Z, coll_run 300 (mkColl (fun _ => 0) 0) (map CAdd (map Z.of_nat (seq 0 300))) = Some c /\
    coll_get 0 300 c 255 = Some 255 /\ coll_index_of Z.eqb 0 300 c 255 = Some (-1).
Proof. exact collection_index_refuted_l. Qed.
Print Assumptions collection_index_of_refuted.

(** C11.  The usual loops visit every item once, in order or in reverse order, and stop. *)
Theorem iterate_forward : forall (T : Type) (dflt : T) get n, 0 <= n <= 32767 ->
  it_visit n (it_next n) dflt get it_reset (S (Z.to_nat n)) = Some (cells get 0 (Z.to_nat n)).
Proof. exact iterate_forward_l. Qed.
Print Assumptions iterate_forward.

Theorem iterate_backward : forall (T : Type) (dflt : T) get n, 0 <= n <= 32767 ->
  it_visit n (it_back n) dflt get (it_reset_end n) (S (Z.to_nat n)) = Some (rev (cells get 0 (Z.to_nat n))).
Proof. exact iterate_backward_l. Qed.
Print Assumptions iterate_backward.

(** C11.  Any mix of moves: the position stays between -1 and n, getCurrent is the item or the
    default, a successful move steps by one onto an item, a failed move changes nothing. *)
Theorem iterator_moves : forall (T : Type) (dflt : T) get n ops, 0 <= n <= 32766 ->
  exists i, it_run n it_reset ops = Some i /\ -1 <= i <= n /\
    (it_current n dflt get i = if inb i n then get i else dflt) /\
    (exists j b, it_next n i = Some (j, b) /\
       (b = true -> j = i + 1 /\ 0 <= j < n) /\ (b = false -> j = i /\ n <= i + 1)) /\
    (exists j b, it_back n i = Some (j, b) /\
       (b = true -> j = i - 1 /\ 0 <= j < n) /\ (b = false -> j = i /\ i <= 0)).
Proof. exact iterator_moves_l. Qed.
Print Assumptions iterator_moves.

(** C11.  After any moves Reset starts the loop over, and ResetToEnd the loop backwards. *)
Theorem iterate_again : forall (T : Type) (dflt : T) get n ops, 0 <= n <= 32766 ->
  exists i j, it_run n it_reset (ops ++ [IReset]) = Some i /\ it_run n it_reset (ops ++ [IResetEnd]) = Some j /\
    it_visit n (it_next n) dflt get i (S (Z.to_nat n)) = Some (cells get 0 (Z.to_nat n)) /\
    it_visit n (it_back n) dflt get j (S (Z.to_nat n)) = Some (rev (cells get 0 (Z.to_nat n))).
Proof. exact iterate_again_l. Qed.
Print Assumptions iterate_again.

(** C11.  MoveTo goes to the first item that is equal and otherwise stays. *)
Theorem iterator_move_to : forall (T : Type) (teq : T -> T -> bool) (dflt : T) n m x i, 0 <= n <= 32767 ->
  exists p, arr_index_of teq n m x = Some p /\
    ((exists j, it_move_to p i = (j, true) /\ 0 <= j < n /\ teq (m j) x = true /\ forall q, 0 <= q < j -> teq (m q) x = false) \/
     (it_move_to p i = (i, false) /\ forall q, 0 <= q < n -> teq (m q) x = false)).
Proof. exact move_to_l. Qed.
Print Assumptions iterator_move_to.

(** C12.  n forward moves from any position come back to it, having visited the items after it,
    then those up to and including it: each once. *)
Theorem wrap_around_cycle : forall (T : Type) (dflt : T) get n i, 1 <= n <= 32767 -> 0 <= i < n ->
  exists vs, it_moves n (wrap_next n) dflt get i (Z.to_nat n) = Some (i, vs) /\
    vs = cells get (i + 1) (Z.to_nat (n - 1 - i)) ++ cells get 0 (Z.to_nat (i + 1)).
Proof. exact wrap_cycle_l. Qed.
Print Assumptions wrap_around_cycle.

Theorem wrap_around_inverse : forall n i, 1 <= n <= 32767 -> 0 <= i < n ->
  exists j k, 0 <= j < n /\ 0 <= k < n /\
    wrap_next n i = Some (j, true) /\ wrap_back n j = Some (i, true) /\
    wrap_back n i = Some (k, true) /\ wrap_next n k = Some (i, true).
Proof. exact wrap_inverse_l. Qed.
Print Assumptions wrap_around_inverse.

Theorem wrap_around_start : forall n, 1 <= n <= 32767 ->
  wrap_next n it_reset = Some (0, true) /\ wrap_back n it_reset = Some (n - 1, true).
Proof. exact wrap_start_l. Qed.
Print Assumptions wrap_around_start.

(** C12, finding: on an empty container both moves answer true without a current item. *)
Theorem wrap_around_empty : forall i, -1 <= i <= 0 ->
  exists j k, wrap_next 0 i = Some (j, true) /\ wrap_back 0 i = Some (k, true) /\
    it_valid 0 j = false /\ it_valid 0 k = false.
Proof. exact wrap_empty_l. Qed.
Print Assumptions wrap_around_empty.

(** C13.  StaticArray::IndexOf. *)
Theorem static_index_of : forall (T : Type) (teq : T -> T -> bool) (dflt : T) n m x fuel,
  0 <= n <= 255 -> (Z.to_nat n < fuel)%nat ->
  st_index_of teq dflt n m x fuel =
    Some (match first_pos teq (cells m 0 (Z.to_nat n)) x with
          | Some p => if p <? 128 then p else p - 256
          | None => -1 end).
Proof. exact static_index_l. Qed.
Print Assumptions static_index_of.

(** StaticArray::GetAt and IsValidIndex answer for every int, reading only the array. *)
Theorem static_array_reads : forall (T : Type) (dflt : T) n m i,
  (0 <= i < n -> st_valid n i = true /\ st_get dflt n m i = m i) /\
  (i < 0 \/ n <= i -> st_valid n i = false /\ st_get dflt n m i = dflt).
Proof. exact static_reads_l. Qed.
Print Assumptions static_array_reads.

Theorem static_index_of_diverges : forall (T : Type) (teq : T -> T -> bool) (dflt : T) n m x,
  256 <= n -> (forall j, 0 <= j < 256 -> teq (m j) x = false) ->
  forall fuel, st_index_of teq dflt n m x fuel = None.
Proof. exact static_diverges_l. Qed.
Print Assumptions static_index_of_diverges.

Example static_array_example :
  st_get 7 3 (fun i => 10 * i) 2 = 20 /\ st_get 7 3 (fun i => 10 * i) 3 = 7 /\ st_get 7 3 (fun i => 10 * i) (-1) = 7.
Proof. vm_compute. repeat split. Qed.

(** Non-vacuity. *)
Example array_example :
  arr_get 0 3 (fun i => 10 * i) 2 = Some 20 /\ arr_get 0 3 (fun i => 10 * i) 3 = Some 0 /\
  arr_get 0 3 (fun i => 10 * i) (-1) = Some 0 /\ arr_index_of Z.eqb 3 (fun i => 10 * i) 20 = Some 2 /\
  arr_index_of Z.eqb 3 (fun i => 10 * i) 5 = Some (-1) /\
  arr_get 0 40000 (fun i => 10 * i) 2 = Some 0.
Proof. vm_compute. repeat split. Qed.

Example clear_uint16_example : (* FixedArray<uint16_t,4>: items 2 and 3 survive Clear *)
  cells (fix_clear 4 (fun _ => 17)) 0 8 = [0; 0; 0; 0; 17; 17; 17; 17].
Proof. vm_compute. reflexivity. Qed.

Example fixed_string_example :
  let ops := [FsCopy [72; 101; 108; 108; 111]; FsSet 1 97; FsSet 9 1; FsCopy [79; 75]] in
  Forall (fun o => match o with FsSet i c => i <> 4 \/ c = 0 | _ => True end) ops /\
  match fs_run 4 (fs_new 4 (fun _ => 7)) ops with
  | Some b => c_string b 0 5 = Some [79; 75] /\ cells b 0 6 = [79; 75; 0; 0; 0; 7]
  | None => False
  end.
Proof. split; [repeat (apply Forall_cons; [try exact I; try (left; discriminate)|]); apply Forall_nil|vm_compute; auto]. Qed.

Example collection_example :
  let ops := [CAdd 5; CAdd 6; CSet 0 7; CSet 2 9; CAdd 8; CAdd 1; CClear; CAdd 3; CSet 1 4] in
  list_run 3 [] ops = [3] /\
  list_run 3 [] (firstn 6 ops) = [7; 6; 8].
Proof. vm_compute. auto. Qed.

Example iterate_example :
  it_visit 3 (it_next 3) 0 (fun i => 10 + i) it_reset 4 = Some [10; 11; 12] /\
  it_visit 3 (it_back 3) 0 (fun i => 10 + i) (it_reset_end 3) 4 = Some [12; 11; 10] /\
  it_moves 3 (wrap_next 3) 0 (fun i => 10 + i) 1 3 = Some (1, [12; 10; 11]).
Proof. vm_compute. auto. Qed.

Example static_example :
  st_index_of Z.eqb 0 200 (fun i => i) 150 300 = Some (-106) /\
  st_index_of Z.eqb 0 300 (fun i => i) 280 1000 = None.
Proof. vm_compute. auto. Qed.
