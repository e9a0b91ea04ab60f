(** ProgMemAccessor.h, StaticArray.h and StaticString.h over the program memory of an AVR.
    Program memory is bytes by address; it can be larger than 64 KB.  A pointer has 16 bits, and so
    have the addresses of the pgm_read functions (lpm with Z).  strncpy_P is the function of avr-libc. *)
Require Import ZArith List Bool.
Import ListNotations.
From Verif Require Import Base ArrayModel RealModel.
Open Scope Z_scope.

(** The item types with a ProgMemAccessor. *)
Inductive ity := U8 | S8 | U16 | S16 | U32 | S32 | Float.
Definition size_of (t : ity) : Z := match t with U8 | S8 => 1 | U16 | S16 => 2 | _ => 4 end.
(** The conversion (T); a float is given by its bit pattern. *)
Definition conv (t : ity) (x : Z) : Z :=
  match t with U8 => u8 x | S8 => s8 x | U16 => u16 x | S16 => s16 x | U32 | Float => u32 x | S32 => s32 x end.

Section Flash.
Variable flash : Z -> Z.
(** pgm_read_byte_near, pgm_read_word_near, pgm_read_dword_near: low byte first. *)
Definition pgm_byte (a : Z) : Z := flash (u16 a).
Definition pgm_word (a : Z) : Z := pgm_byte a + 256 * pgm_byte (a + 1).
Definition pgm_dword (a : Z) : Z := pgm_word a + 65536 * pgm_word (a + 2).
(** ProgMemAccessor.h 40-47, 50-57, 60-67, 70-77: Read by the size of the type. *)
Definition pm_read (t : ity) (a : Z) : Z :=
  conv t (match t with
          | U8 | S8 => pgm_byte a
          | U16 | S16 => pgm_word a
          | U32 | S32 | Float => pgm_dword a
          end).
(** A double of AVR has 4 bytes too, but is another type than float: it is read by 60-67, which
    converts the dword, as a number, to a double.  The value, in the unit of RealModel.v. *)
Definition pm_read_double (a : Z) : Z := fl_int 24 149 (pgm_dword a).

(** StaticArray.h 72-77 [GetAt], 109-112 operator[]; [_arr] points to [arr]. *)
Definition fl_get (t : ity) (dflt n arr index : Z) : Z :=
  if st_valid n index then pm_read t (u16 (arr + index * size_of t)) else dflt.
(** StaticArray.h 93-102 [IndexOf]. *)
Definition fl_index_of (t : ity) (dflt n arr item : Z) (fuel : nat) : option Z :=
  st_index_of Z.eqb dflt n (fun i => fl_get t dflt n arr i) item fuel.

(** StaticString.h 47-50 [Read]: strncpy_P(target, _str, targetLen).
    Copies until the terminator, then fills up with zeros.  [cap]: the bytes the target really has;
    a write beyond is undefined. *)
Fixpoint strncpy_loop (cap : Z) (target : Z -> Z) (str : Z) (i : Z) (ended : bool) (n : nat) : option (Z -> Z) :=
  match n with
  | O => Some target
  | S k =>
      let c := if ended then 0 else pgm_byte (str + i) in
      if inb i cap then strncpy_loop cap (upd target i c) str (i + 1) (c =? 0) k else None
  end.
Definition string_read (cap : Z) (target : Z -> Z) (str targetLen : Z) : option (Z -> Z) :=
  strncpy_loop cap target str 0 false (Z.to_nat targetLen).
End Flash.
