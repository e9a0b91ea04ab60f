(** Array.h, ArrayRef.h, FixedArray.h, FixedArrayRef.h, FixedString.h, StaticArray.h,
    Collection.h, CollectionRef.h: translated code.
    An element store is a memory [Z -> T]; reading or writing outside [0, MaxItems) is
    undefined behaviour ([None]). *)
Require Import ZArith List Bool.
Import ListNotations.
From Verif Require Import Base.
Open Scope Z_scope.

Section Arr.
Context {T : Type}.
Variable teq : T -> T -> bool.     (* operator== of the item type *)
Variable dflt : T.                 (* Default<T>::DefaultOfT *)
Variable MaxItems : Z.             (* uint16_t template parameter *)

(** Array.h 73-76, ArrayRef.h 82-85 [IsValidIndex]; note the conversion of MaxItems. *)
Definition arr_valid (index : Z) : bool := (index >=? 0) && (index <? s16 MaxItems).

(** Array.h 62-67, ArrayRef.h 71-76 [GetAt]; operator[] const (99-102, 108-111) is the same. *)
Definition arr_get (m : Z -> T) (index : Z) : option T :=
  if negb (arr_valid index) then Some dflt
  else if inb index MaxItems then Some (m index) else None.

(** Array.h 83-92, ArrayRef.h 92-101 [IndexOf]; [n] is the number of iterations left. *)
Fixpoint arr_index_loop (m : Z -> T) (item : T) (i : Z) (n : nat) : option Z :=
  match n with
  | O => Some (-1)
  | S k => if inb i MaxItems
           then if teq (m i) item then Some i else arr_index_loop m item (i + 1) k
           else None
  end.
Definition arr_index_of (m : Z -> T) (item : T) : option Z :=
  arr_index_loop m item 0 (Z.to_nat (s16 MaxItems)).

(** FixedArray.h 50-55, FixedArrayRef.h 57-62 [SetAt]. *)
Definition fix_set (m : Z -> T) (index : Z) (item : T) : option (Z -> T) :=
  if negb (arr_valid index) then Some m
  else if inb index MaxItems then Some (upd m index item) else None.
End Arr.

(** ** Several FixedArray<T,MaxItems> objects and the shared DummyOfT *)

(** FixedArray.h 77-83: all arrays of one type share a single static dummy element. *)
Record arrays (T : Type) := mkArrays { a_mem : nat -> Z -> T; a_dummy : T }.
Arguments mkArrays {T}.
Arguments a_mem {T}.
Arguments a_dummy {T}.

Inductive arr_op (T : Type) :=
| OpSetAt (a : nat) (index : Z) (v : T)      (* a.SetAt(index, v) *)
| OpIndexAssign (a : nat) (index : Z) (v : T) (* a[index] = v *).
Arguments OpSetAt {T}.
Arguments OpIndexAssign {T}.

Definition upd_arr {T} (f : nat -> Z -> T) (a : nat) (m : Z -> T) : nat -> Z -> T :=
  fun b => if Nat.eqb b a then m else f b.

Section Arrs.
Context {T : Type}.
Variable MaxItems : Z.

(** FixedArray.h 50-55 and 62-67 (assignment through the returned reference). *)
Definition arr_step (s : arrays T) (o : arr_op T) : option (arrays T) :=
  match o with
  | OpSetAt a i v =>
      match fix_set MaxItems (a_mem s a) i v with
      | Some m => Some (mkArrays (upd_arr (a_mem s) a m) (a_dummy s))
      | None => None
      end
  | OpIndexAssign a i v =>
      if negb (arr_valid MaxItems i) then Some (mkArrays (a_mem s) v)
      else if inb i MaxItems
           then Some (mkArrays (upd_arr (a_mem s) a (upd (a_mem s a) i v)) (a_dummy s))
           else None
  end.

(** FixedArray.h 62-67: reading through the non-const operator[]. *)
Definition arr_index_read (s : arrays T) (a : nat) (i : Z) : option T :=
  if negb (arr_valid MaxItems i) then Some (a_dummy s)
  else if inb i MaxItems then Some (a_mem s a i) else None.

Fixpoint arr_steps (s : arrays T) (ops : list (arr_op T)) : option (arrays T) :=
  match ops with
  | [] => Some s
  | o :: rest => match arr_step s o with Some s' => arr_steps s' rest | None => None end
  end.
End Arrs.

(** ** Clear, at byte level *)

(** memset(p, 0, n) on byte storage. *)
Fixpoint memset0 (b : Z -> Z) (i : Z) (n : nat) : Z -> Z :=
  match n with
  | O => b
  | S k => memset0 (upd b i 0) (i + 1) k
  end.
(** FixedArray.h 72-75, FixedArrayRef.h 67-70 [Clear]: MaxItems bytes, whatever sizeof(T). *)
Definition fix_clear (MaxItems : Z) (bytes : Z -> Z) : Z -> Z :=
  memset0 bytes 0 (Z.to_nat MaxItems).

(** ** FixedString *)

(** strncpy(dst, src, n) on a source string given by its characters before the NUL. *)
Fixpoint strncpy (b : Z -> Z) (i : Z) (src : list Z) (n : nat) : Z -> Z :=
  match n with
  | O => b
  | S k => match src with
           | c :: rest => strncpy (upd b i c) (i + 1) rest k
           | [] => strncpy (upd b i 0) (i + 1) [] k
           end
  end.

Inductive fs_op := FsCopy (src : list Z) | FsClear | FsSet (index : Z) (c : Z).

Section Fs.
Variable MaxChars : Z.
(** FixedString.h 33-34: the base is FixedArray<char, MaxChars + 1>. *)
Definition fs_step (b : Z -> Z) (o : fs_op) : option (Z -> Z) :=
  match o with
  | FsCopy src => Some (strncpy b 0 src (Z.to_nat MaxChars))   (* FixedString.h 79-82 *)
  | FsClear => Some (fix_clear (MaxChars + 1) b)               (* FixedArray.h 72-75 *)
  | FsSet i c => fix_set (MaxChars + 1) b i c                  (* FixedArray.h 50-55 *)
  end.
(** FixedString.h 45-48 constructor. *)
Definition fs_new (b : Z -> Z) : Z -> Z := fix_clear (MaxChars + 1) b.
(** FixedString.h 62-65, 70-73: the result type is uint8_t. *)
Definition fs_capacity : Z := u8 MaxChars.

Fixpoint fs_run (b : Z -> Z) (ops : list fs_op) : option (Z -> Z) :=
  match ops with
  | [] => Some b
  | o :: rest => match fs_step b o with Some b' => fs_run b' rest | None => None end
  end.
End Fs.

(** ** StaticArray *)

Section Static.
Context {T : Type}.
Variable teq : T -> T -> bool.
Variable dflt : T.
Variable MaxItems : Z.

(** StaticArray.h 83-86 [IsValidIndex]: comparison with the unconverted uint16_t. *)
Definition st_valid (index : Z) : bool := (index >=? 0) && (index <? MaxItems).
(** StaticArray.h 72-77 [GetAt]; PROGMEM is plain memory. *)
Definition st_get (m : Z -> T) (index : Z) : T := if st_valid index then m index else dflt.
(** StaticArray.h 93-102 [IndexOf]: the counter is uint8_t, the result int8_t.
    [None]: still looping after [fuel] iterations. *)
Fixpoint st_index_loop (m : Z -> T) (item : T) (i : Z) (fuel : nat) : option Z :=
  match fuel with
  | O => None
  | S k => if i <? MaxItems
           then if teq (st_get m i) item then Some (s8 i)
                else st_index_loop m item (u8 (i + 1)) k
           else Some (-1)
  end.
Definition st_index_of (m : Z -> T) (item : T) (fuel : nat) : option Z :=
  st_index_loop m item 0 fuel.
End Static.

(** ** Collection over a FixedArray *)

(** Collection.h 158-160. *)
Record coll (T : Type) := mkColl { c_mem : Z -> T; c_count : Z }.
Arguments mkColl {T}.
Arguments c_mem {T}.
Arguments c_count {T}.

Inductive coll_op (T : Type) := CAdd (v : T) | CSet (index : Z) (v : T) | CClear.
Arguments CAdd {T}.
Arguments CSet {T}.
Arguments CClear {T}.

Section Coll.
Context {T : Type}.
Variable teq : T -> T -> bool.
Variable dflt : T.
Variable MaxItems : Z.

(** Collection.h 73-76, CollectionRef.h 68-71 [IsValidIndex]. *)
Definition coll_valid (c : coll T) (index : Z) : bool := (index >=? 0) && (index <? c_count c).

(** Collection.h 99-104, CollectionRef.h 78-83 [GetAt]. *)
Definition coll_get (c : coll T) (index : Z) : option T :=
  if negb (coll_valid c index) then Some dflt
  else arr_get dflt MaxItems (c_mem c) index.

(** Collection.h 121-148, CollectionRef.h 115-142 [Add], [SetAt], [Clear]. *)
Definition coll_step (c : coll T) (o : coll_op T) : option (coll T) :=
  match o with
  | CAdd v =>
      if c_count c <? MaxItems then
        match fix_set MaxItems (c_mem c) (s16 (c_count c)) v with
        | Some m => Some (mkColl m (u16 (c_count c + 1)))
        | None => None
        end
      else Some c
  | CSet i v =>
      if negb (coll_valid c i) then Some c
      else match fix_set MaxItems (c_mem c) i v with
           | Some m => Some (mkColl m (c_count c))
           | None => None
           end
  | CClear => Some (mkColl (c_mem c) 0)
  end.

Fixpoint coll_run (c : coll T) (ops : list (coll_op T)) : option (coll T) :=
  match ops with
  | [] => Some c
  | o :: rest => match coll_step c o with Some c' => coll_run c' rest | None => None end
  end.

(** Collection.h 83-92, CollectionRef.h 100-109 [IndexOf]: the result type is char (signed). *)
Fixpoint coll_index_loop (c : coll T) (item : T) (i : Z) (n : nat) : option Z :=
  match n with
  | O => Some (-1)
  | S k => match arr_get dflt MaxItems (c_mem c) i with
           | None => None
           | Some v => if teq v item then Some (s8 i) else coll_index_loop c item (i + 1) k
           end
  end.
Definition coll_index_of (c : coll T) (item : T) : option Z :=
  coll_index_loop c item 0 (Z.to_nat (c_count c)).
End Coll.
