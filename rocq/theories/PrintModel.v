(** TextWriter.h over Arduino/StreamOutputStream.h: text on a serial port, with any TextFormatInfo.
    The numbers and strings are TextModel.v and RealModel.v, the ports ArduinoModel.v.
    Sketches: Arduino Libraries/ATL_IO/examples/TextWriter and TextFormatInfo. *)
Require Import ZArith List Bool.
Import ListNotations.
From Verif Require Import Base TextModel RealModel ArduinoModel.
Open Scope Z_scope.

(** FormatInfoT: the static members of TextFormatInfo.h 52-60. *)
Record format := mkFormat { f_newline : list Z; f_digits : Z; f_neg : Z; f_sep : Z; f_base : Z }.
(** TextFormatInfo.h 63-67. *)
Definition default_format : format := mkFormat [10; 13] 2 45 46 10.
(** MyTextFormatInfo.h 20-24. *)
Definition my_format : format := mkFormat [10] 4 45 44 16.

(** The argument of Write, by its type.  A real x stands for x * 2^-s, see RealModel.v. *)
Inductive item := TChar (c : Z) | TU8 (v : Z) | TStr (t : list Z) | TI16 (v : Z) | TU16 (v : Z) | TI32 (v : Z)
| TU32 (v : Z) | TReal (x : Z).

(** A string in memory: its characters and the terminating zero. *)
Definition string_at (t : list Z) : Z -> Z := fun i => nth (Z.to_nat i) t 0.
Definition tw_string (t : list Z) : option (list Z) := tw_str (S (length t)) (string_at t) 0.

Section Print.
Variables (iw p s : Z) (f : format).
(** 40-146: the characters given to BaseT::Write. *)
Definition tw_item (i : item) : option (list Z) :=
  match i with
  | TChar c => tw_char iw (f_base f) (f_neg f) c
  | TU8 v => tw_uint8 iw (f_base f) v
  | TStr t => tw_string t
  | TI16 v => tw_int16 iw (f_base f) (f_neg f) v
  | TU16 v => tw_uint16 iw (f_base f) v
  | TI32 v => tw_int32 iw (f_base f) (f_neg f) v
  | TU32 v => tw_uint32 (f_base f) v
  | TReal x => fl_write_real p s iw (f_neg f) (f_sep f) x (f_digits f)
  end.

(** A call of the program: Write, WriteLine with an argument, WriteLine without, or a call of the adapters
    and what arrives meanwhile. *)
Inductive pcall := PText (i : item) | PLine (i : item) | PEnd | PIo (o : aop).
Definition both (a b : option (list Z)) : option (list Z) :=
  match a, b with Some x, Some y => Some (x ++ y) | _, _ => None end.
(** 150-226. *)
Definition call_text (c : pcall) : option (list Z) :=
  match c with
  | PText i => tw_item i
  | PLine i => both (tw_item i) (tw_string (f_newline f))
  | PEnd => tw_string (f_newline f)
  | PIo _ => Some []
  end.
Definition call_io (c : pcall) : option (list aop) :=
  match c with
  | PIo o => Some [o]
  | _ => match call_text c with Some t => Some (map AWrite t) | None => None end
  end.
Fixpoint print_run (cap : nat) (a : adapters) (cs : list pcall) : option adapters :=
  match cs with
  | [] => Some a
  | c :: rest => match call_io c with
                 | Some os => match a_run cap a os with Some (a', _) => print_run cap a' rest | None => None end
                 | None => None
                 end
  end.
End Print.

(** setup of both sketches: attach Serial (port 0), then three WriteLine.  In the second the real is
    written with the decimals of the format. *)
Definition hello : list Z := [72; 101; 108; 108; 111; 32; 87; 111; 114; 108; 100; 33].
Definition pi_f : Z := fl 24 (3141592 * 2 ^ 149) 1000000.   (* 3.141592f *)
Definition text_setup : list pcall := [PIo (AOut (Some 0%nat)); PLine (TStr hello); PLine (TI16 42); PLine (TReal pi_f)].
