(** What arrives at the other end of the serial line, and how it is read. *)
Require Import ZArith List Bool.
Import ListNotations.
From Verif Require Import Base TextSpec RealSpec ArduinoModel ArduinoSpec PrintModel.
Open Scope Z_scope.

(** A byte on the line; neither zero nor beyond. *)
Definition is_char (c : Z) : Prop := 0 < c < 256.

(** The items that can be written: of their type, with a numeral that fits the digit buffer, and not the most
    negative number of a type (C35, C36, C59). *)
Definition item_ok (iw p s : Z) (f : format) (i : item) : Prop :=
  let b := eff_base (f_base f) in
  match i with
  | TChar c => -128 <= c < 128 /\ (f_base f <> 10 -> c mod 65536 < b ^ 10)
  | TU8 v => 0 <= v < 256 /\ v < b ^ 10
  | TStr t => Forall is_char t
  | TI16 v => -32768 <= v < 32768 /\ (if f_base f =? 10 then iw = 16 -> v <> -32768 else v mod 65536 < b ^ 10)
  | TU16 v => 0 <= v < 65536 /\ v < b ^ 10
  | TI32 v => -2147483648 <= v < 2147483648 /\ (if f_base f =? 10 then v <> -2147483648 else v mod 4294967296 < b ^ 20)
  | TU32 v => 0 <= v < 4294967296 /\ v < b ^ 20
  | TReal x => is_float p x /\ Z.abs x <= 4294967040 * 2 ^ s
  end.
Definition format_ok (f : format) : Prop :=
  0 <= f_base f <= 36 /\ 0 <= f_digits f < 256 /\ is_char (f_neg f) /\ is_char (f_sep f) /\ Forall is_char (f_newline f).

(** The text of an item. *)
Definition item_text (p s : Z) (f : format) (i : item) (t : list Z) : Prop :=
  let signed w v := if f_base f =? 10 then signed_numeral (f_neg f) v t
                    else numeral (eff_base (f_base f)) (v mod 2 ^ w) t in
  let unsigned v := numeral (eff_base (f_base f)) v t in
  match i with
  | TChar c => signed 16 c
  | TU8 v | TU16 v | TU32 v => unsigned v
  | TStr u => t = u
  | TI16 v => signed 16 v
  | TI32 v => signed 32 v
  | TReal x => exists v, decimal_form (f_neg f) (f_sep f) (f_digits f) (x <? 0) v t /\ close p s (f_digits f) x v
  end.
(** The text of a program while port [k] is attached; [c]: the port attached now, [ts]: the texts of its calls. *)
Fixpoint texts_to (k : nat) (c : option nat) (cs : list pcall) (ts : list (list Z)) : list Z :=
  match cs, ts with
  | PIo (AOut c) :: rest, _ :: ts => texts_to k c rest ts
  | PIo (AWrite b) :: rest, _ :: ts => (if at_port c k then [b mod 256] else []) ++ texts_to k c rest ts
  | PIo _ :: rest, _ :: ts => texts_to k c rest ts
  | _ :: rest, t :: ts => (if at_port c k then t else []) ++ texts_to k c rest ts
  | _, _ => []
  end.
Definition call_shows (p s : Z) (f : format) (c : pcall) (t : list Z) : Prop :=
  match c with
  | PText i => item_text p s f i t
  | PLine i => exists u, item_text p s f i u /\ t = u ++ f_newline f
  | PEnd => t = f_newline f
  | PIo _ => t = []
  end.
Definition call_ok (iw p s : Z) (f : format) (c : pcall) : Prop :=
  match c with
  | PText i | PLine i => item_ok iw p s f i
  | PEnd => True
  | PIo o => aop_ok o
  end.

(** ** The reader: splits at the new-line, drops an unfinished line. *)
Fixpoint starts (nl bs : list Z) : bool :=
  match nl, bs with
  | [], _ => true
  | c :: nl, b :: bs => (c =? b) && starts nl bs
  | _, _ => false
  end.
(** [skip]: characters of a new-line still to pass; [cur]: the line so far. *)
Fixpoint lines_of (nl : list Z) (skip : nat) (cur bs : list Z) : list (list Z) :=
  match bs with
  | [] => []
  | b :: rest =>
      match skip with
      | S k => lines_of nl k cur rest
      | O => if starts nl bs then cur :: lines_of nl (length nl - 1) [] rest
             else lines_of nl 0 (cur ++ [b]) rest
      end
  end.
(** Reading a line as the value of an item of the same type as [i].  Numbers in other bases than ten are bit
    patterns.  A real is read as its sign and its digits as one number. *)
Inductive reading := RStr (t : list Z) | RNum (v : Z) | RReal (minus : bool) (v : Z).
Definition read_signed (neg : Z) (t : list Z) : Z :=
  match t with
  | c :: r => if c =? neg then - value 10 r else value 10 t
  | [] => 0
  end.
Definition as_signed (w v : Z) : Z := if v <? 2 ^ (w - 1) then v else v - 2 ^ w.
Definition read_as (f : format) (i : item) (t : list Z) : reading :=
  let signed w := if f_base f =? 10 then read_signed (f_neg f) t
                  else as_signed w (value (eff_base (f_base f)) t) in
  match i with
  | TStr _ => RStr t
  | TChar _ | TI16 _ => RNum (signed 16)
  | TI32 _ => RNum (signed 32)
  | TU8 _ | TU16 _ | TU32 _ => RNum (value (eff_base (f_base f)) t)
  | TReal _ =>
      let minus := match t with c :: _ => c =? f_neg f | [] => false end in
      let t := if minus then tl t else t in
      RReal minus (value 10 (filter (fun c => negb (c =? f_sep f)) t))
  end.
(** Is that what was written?  A real to half a unit of the last decimal and the rounding errors. *)
Definition same_item (p s : Z) (f : format) (i : item) (r : reading) : Prop :=
  match i, r with
  | TStr t, RStr u => u = t
  | TChar v, RNum w | TU8 v, RNum w | TI16 v, RNum w | TU16 v, RNum w | TI32 v, RNum w | TU32 v, RNum w => w = v
  | TReal x, RReal m v => m = (x <? 0) /\ close p s (f_digits f) x v
  | _, _ => False
  end.
(** The sign and the separator are no digits; the first character of the new-line is none of them, and not in
    any string written. *)
Definition readable (f : format) : Prop :=
  ~ is_digit 10 (f_neg f) /\ ~ is_digit 10 (f_sep f) /\
  match f_newline f with
  | [] => False
  | c :: _ => ~ is_digit 36 c /\ c <> f_neg f /\ c <> f_sep f
  end.
Definition one_line (f : format) (i : item) : Prop :=
  match i, f_newline f with TStr t, c :: _ => ~ In c t | _, _ => True end.
(** The items of the lines, when nothing else writes to or changes the port. *)
Definition line_call (c : pcall) : Prop :=
  match c with PLine _ => True | PIo (AOut _) | PIo (AWrite _) | PText _ | PEnd => False | PIo _ => True end.
Definition line_items (cs : list pcall) : list item := flat_map (fun c => match c with PLine i => [i] | _ => [] end) cs.

(** "Hello World!" in ASCII. *)
Definition greeting : list Z := [72; 101; 108; 108; 111; 32; 87; 111; 114; 108; 100; 33].
