(** URM37 frames: four bytes, the last one the sum of the others modulo 256. *)
Require Import ZArith List Bool.
Import ListNotations.
From Verif Require Import UrmModel.
Open Scope Z_scope.

Definition byte (b : Z) : Prop := 0 <= b < 256.
Definition good_frame (c d1 d2 s : Z) : Prop := s = (c + d1 + d2) mod 256.
(** A byte stream cut into frames of four; a rest shorter than four stays. *)
Fixpoint frames (bytes : list Z) : list (Z * Z * Z * Z) :=
  match bytes with
  | c :: d1 :: d2 :: s :: rest => (c, d1, d2, s) :: frames rest
  | _ => []
  end.
Definition frame_result (f : Z * Z * Z * Z) : result * option (Z * Z * Z) :=
  let '(c, d1, d2, s) := f in
  (if s =? (c + d1 + d2) mod 256 then RSuccess else RChecksum, Some (c, d1, d2)).
(** The answers that took a frame from the stream. *)
Definition answered (r : result * option (Z * Z * Z)) : bool :=
  match fst r with RSuccess | RChecksum => true | _ => false end.
(** The first well-formed frame. *)
Fixpoint first_good (fs : list (Z * Z * Z * Z)) : option (Z * Z * Z) :=
  match fs with
  | [] => None
  | (c, d1, d2, s) :: rest => if s =? (c + d1 + d2) mod 256 then Some (c, d1, d2) else first_good rest
  end.
(** Two frames differing in exactly one byte. *)
Definition one_byte_off (f g : Z * Z * Z * Z) : Prop :=
  let '(c, d1, d2, s) := f in let '(c', d1', d2', s') := g in
  (c <> c' /\ d1 = d1' /\ d2 = d2' /\ s = s') \/ (c = c' /\ d1 <> d1' /\ d2 = d2' /\ s = s') \/
  (c = c' /\ d1 = d1' /\ d2 <> d2' /\ s = s') \/ (c = c' /\ d1 = d1' /\ d2 = d2' /\ s <> s').
(** The sensor's reply to a distance command: command, high byte, low byte, sum. *)
Definition reply (d : Z * Z) : list Z := [34; fst d; snd d; (34 + fst d + snd d) mod 256].
(** The readings of a working sensor are below 34 * 256 cm. *)
Definition reading (d : Z * Z) : Prop := 0 <= fst d < 34 /\ byte (snd d).
(** A sensor that answers a well-formed temperature or distance command with its measurement. *)
Definition sensor (temperature distance : Z * Z) (frame : list Z) : list Z :=
  match frame with
  | [c; d1; d2; s] =>
      if negb (s =? (c + d1 + d2) mod 256) then []
      else if c =? 17 then [17; fst temperature; snd temperature; (17 + fst temperature + snd temperature) mod 256]
      else if c =? 34 then reply distance
      else []
  | _ => []
  end.
(** A frame with its sum. *)
Definition frame_of (c a b : Z) : list Z := [c; a; b; (c + a + b) mod 256].
(** The sensor's EEPROM: a well-formed write command sets a cell, and is echoed. *)
Definition store (mem : Z -> Z) (f : Z * Z * Z * Z) : Z -> Z :=
  let '(c, d1, d2, s) := f in
  if (c =? 68) && (s =? (c + d1 + d2) mod 256) then fun a => if a =? d1 then d2 else mem a else mem.
Definition eeprom_after (mem : Z -> Z) (bytes : list Z) : Z -> Z := fold_left store (frames bytes) mem.
(** Cells 0 and 1 are the threshold, cell 2 the mode. *)
Definition threshold_of (mem : Z -> Z) : Z := 256 * mem 1 + mem 0.
(** A reply (command and two bytes) as a frame, and whether it is the echo of a command. *)
Definition answer (r : Z * Z * Z) : list Z := let '(c, a, b) := r in frame_of c a b.
Definition bytes3 (r : Z * Z * Z) : Prop := let '(c, a, b) := r in byte c /\ byte a /\ byte b.
Definition echoes (cmd r : Z * Z * Z) : bool :=
  let '(c, a, b) := cmd in let '(c', a', b') := r in (c =? c') && (a =? a') && (b =? b').
