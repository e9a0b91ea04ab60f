(** TextWriter.h: translated code (integers, characters and strings).
    [iw] is the width of int (16 on AVR).  Characters are their codes.  [None] is undefined
    behaviour.  The result is the sequence of characters given to BaseT::Write. *)
Require Import ZArith List Bool.
Import ListNotations.
From Verif Require Import Base.
Open Scope Z_scope.

(** 255-263: the digit loop of WriteInternal for a T of [w] bits.  Each round writes one character
    below the position; writing below the buffer is undefined.  [fuel] is the buffer size, which
    the position cannot outlast. *)
Fixpoint wi_loop (fuel : nat) (w base : Z) (buf : Z -> Z) (pos v : Z) : option ((Z -> Z) * Z) :=
  match fuel with
  | O => None
  | S k =>
      let remainder := v in
      let v := v / base in
      let c := s8 ((remainder - base * v) mod 2 ^ w) in
      let pos := pos - 1 in
      if pos <? 0 then None
      else let buf := upd buf pos (s8 (if c <? 10 then c + 48 else c + 65 - 10)) in
           if v =? 0 then Some (buf, pos) else wi_loop k w base buf pos v
  end.

(** 57-66 [Write(const char str[])] on a buffer of [n] more characters. *)
Fixpoint str_out (n : nat) (buf : Z -> Z) (pos : Z) : option (list Z) :=
  match n with
  | O => None
  | S k => if buf pos =? 0 then Some []
           else match str_out k buf (pos + 1) with Some l => Some (buf pos :: l) | None => None end
  end.

(** 241-266. *)
Definition write_internal (w size v base : Z) : option (list Z) :=
  let buf := upd (fun _ => 0) (size - 1) 0 in
  let base := if base <? 2 then 10 else base in
  match wi_loop (Z.to_nat size) w base buf (size - 1) v with
  | Some (buf, pos) => str_out (Z.to_nat (size - pos)) buf pos
  | None => None
  end.
(** 229-239. *)
Definition write_int (iw v base : Z) : option (list Z) := write_internal iw 11 v base.
Definition write_long (v base : Z) : option (list Z) := write_internal 32 21 v base.

Definition cons_opt (c : Z) (o : option (list Z)) : option (list Z) :=
  match o with Some l => Some (c :: l) | None => None end.
(** Negation of a [w]-bit signed value computed in an int of [iw] bits. *)
Definition negate (iw w v : Z) : option Z :=
  if v =? - 2 ^ (Z.max iw w - 1) then None else Some (- v).

(** 71-90; [base] is FormatInfoT::DefaultBase, [neg] is NegativeSign. *)
Definition tw_int16 (iw base neg v : Z) : option (list Z) :=
  if base =? 10 then
    if v <? 0 then match negate iw 16 v with Some n => cons_opt neg (write_int iw (u16 n) base) | None => None end
    else write_int iw (u16 v) base
  else write_int iw (u16 v) base.
(** 40-43, 48-51, 95-98. *)
Definition tw_char (iw base neg c : Z) : option (list Z) := tw_int16 iw base neg (s8 c).
Definition tw_uint8 (iw base v : Z) : option (list Z) := write_int iw (u16 v) base.
Definition tw_uint16 (iw base v : Z) : option (list Z) := write_int iw (u16 v) base.
(** 103-122, 127-130. *)
Definition tw_int32 (iw base neg v : Z) : option (list Z) :=
  if base =? 10 then
    if v <? 0 then match negate iw 32 v with Some n => cons_opt neg (write_long (u32 n) base) | None => None end
    else write_long (u32 v) base
  else write_long (u32 v) base.
Definition tw_uint32 (base v : Z) : option (list Z) := write_long (u32 v) base.
(** 57-66 on a string in memory: [mem] holds it from [pos], at most [n] characters are looked at. *)
Definition tw_str (n : nat) (mem : Z -> Z) (pos : Z) : option (list Z) := str_out n mem pos.

(** 150-226: WriteLine appends FormatInfoT::NewLine. *)
Definition new_line : list Z := [10; 13].
Definition write_line (o : option (list Z)) : option (list Z) :=
  match o with Some l => Some (l ++ new_line) | None => None end.

(** 268-309 [WriteReal], with exact arithmetic in place of floating point: a number is a fraction
    (numerator, positive denominator).  Converting a number of 2^32 or more to uint32_t is
    undefined. *)
Fixpoint rounding (k : nat) (x : Z * Z) : Z * Z :=            (* 276-284 *)
  match k with O => x | S j => rounding j (fst x, snd x * 10) end.
Definition fr_add (a b : Z * Z) : Z * Z := (fst a * snd b + fst b * snd a, snd a * snd b).
Fixpoint decimals (k : nat) (iw : Z) (remainder : Z * Z) : option (list Z) :=   (* 299-307 *)
  match k with
  | O => Some []
  | S j =>
      let remainder := (fst remainder * 10, snd remainder) in
      let number := u16 (fst remainder / snd remainder) in
      match write_int iw number 10 with
      | Some l => match decimals j iw (fst remainder - number * snd remainder, snd remainder) with
                  | Some r => Some (l ++ r)
                  | None => None
                  end
      | None => None
      end
  end.
Definition write_real (iw neg sep : Z) (real : Z * Z) (digits : Z) : option (list Z) :=
  let sign := if fst real <? 0 then [neg] else [] in
  let real := if fst real <? 0 then (- fst real, snd real) else real in
  let real := fr_add real (rounding (Z.to_nat digits) (1, 2)) in
  let integer := fst real / snd real in
  if integer >=? 4294967296 then None
  else
    let remainder := (fst real - integer * snd real, snd real) in
    match write_long integer 10 with
    | None => None
    | Some ip =>
        if digits >? 0 then
          match decimals (Z.to_nat digits) iw remainder with
          | Some fp => Some (sign ++ ip ++ sep :: fp)
          | None => None
          end
        else Some (sign ++ ip)
    end.
