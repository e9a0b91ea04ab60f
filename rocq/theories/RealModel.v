(** TextWriter.h 268-309 [WriteReal] in binary floating point.
    A format has [p] bits of precision and 2^-s as its smallest positive number (binary32, the
    double of AVR: p = 24, s = 149; binary64: p = 53, s = 1074).  The finite numbers are multiples
    of 2^-s, so a number is modelled by the integer x that stands for x * 2^-s.  Each operation
    gives the exact result rounded to nearest, ties to even.  Converting a number that the integer
    type cannot hold (also an infinity or a NaN) is undefined: [None]. *)
Require Import ZArith List Bool.
Import ListNotations.
From Verif Require Import Base TextModel.
Open Scope Z_scope.

Section Fl.
Variables p s : Z.
(** n/d as an integer, to nearest, ties to even. *)
Definition rne (n d : Z) : Z :=
  let k := n / d in
  let r := n mod d in
  if 2 * r <? d then k else if d <? 2 * r then k + 1 else if Z.even k then k else k + 1.
(** The spacing of the numbers around q is 2 to this power. *)
Definition spacing (q : Z) : Z := Z.max 0 (Z.log2 q + 1 - p).
(** The number of the format nearest to n/d, for 0 <= n and 0 < d. *)
Definition fl (n d : Z) : Z := let e := spacing (n / d) in rne n (d * 2 ^ e) * 2 ^ e.
Definition fl_sub (a b : Z) : Z := if a <? b then - fl (b - a) 1 else fl (a - b) 1.
(** Conversion of an unsigned integer. *)
Definition fl_int (i : Z) : Z := fl (i * 2 ^ s) 1.

Fixpoint fl_rounding (k : nat) (x : Z) : Z :=                  (* 276-284 *)
  match k with O => x | S j => fl_rounding j (fl x 10) end.
Fixpoint fl_decimals (k : nat) (iw remainder : Z) : option (list Z) :=   (* 299-307 *)
  match k with
  | O => Some []
  | S j =>
      let remainder := fl (remainder * 10) 1 in
      let i := remainder / 2 ^ s in
      if 2 ^ iw <=? i then None
      else
        let number := u16 i in
        match write_int iw number 10 with
        | Some l => match fl_decimals j iw (fl_sub remainder (fl_int number)) with
                    | Some r => Some (l ++ r)
                    | None => None
                    end
        | None => None
        end
  end.
Definition fl_write_real (iw neg sep : Z) (real : Z) (digits : Z) : option (list Z) :=
  let sign := if real <? 0 then [neg] else [] in               (* 270-274 *)
  let real := if real <? 0 then - real else real in
  let real := fl (real + fl_rounding (Z.to_nat digits) (2 ^ s / 2)) 1 in   (* 276-286 *)
  let integer := real / 2 ^ s in                               (* 289 *)
  if 4294967296 <=? integer then None
  else
    let remainder := fl_sub real (fl_int integer) in           (* 290 *)
    match write_long integer 10 with
    | None => None
    | Some ip =>
        if digits >? 0 then
          match fl_decimals (Z.to_nat digits) iw remainder with
          | Some fp => Some (sign ++ ip ++ sep :: fp)
          | None => None
          end
        else Some (sign ++ ip)
    end.
End Fl.
