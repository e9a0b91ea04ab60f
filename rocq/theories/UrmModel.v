(** URM37V32_Driver.h and URM37V32_Controller.h: translated code.
    The input stream is the list of bytes that have arrived and were not read. *)
Require Import ZArith List Bool.
Import ListNotations.
From Verif Require Import Base.
Open Scope Z_scope.

(** ** Driver *)
(** 42-52. *)
Inductive result := RNone | RPending | RChecksum | RSuccess.
(** 96-103: uint16_t sum, truncated to uint8_t. *)
Definition checksum (c d1 d2 : Z) : Z := u8 (u16 (u16 (u16 c + d1) + d2)).
(** 59-65: the bytes written. *)
Definition send_command (c d1 d2 : Z) : list Z := [c; d1; d2; checksum c d1 d2].
(** 75-88.  The out parameters are assigned only when four bytes are there: [None] leaves them
    uninitialised. *)
Definition receive (q : list Z) : list Z * result * option (Z * Z * Z) :=
  match q with
  | c :: d1 :: d2 :: s :: rest =>
      (rest, if checksum c d1 d2 =? s then RSuccess else RChecksum, Some (c, d1, d2))
  | [] => ([], RNone, None)
  | _ => (q, RPending, None)
  end.

(** ** Controller *)
(** 91-103; map (193-196) in long arithmetic. *)
Definition begin_distance : list Z := send_command 34 0 0.
Definition map_long (x in_min in_max out_min out_max : Z) : Z :=
  Z.quot ((x - in_min) * (out_max - out_min)) (in_max - in_min) + out_min.
Definition begin_distance_deg (degrees : Z) : list Z := send_command 34 (u8 (map_long degrees 0 270 0 46)) 0.
(** 109-131: the remaining input, the result and the value given to outDistance if any. *)
Definition end_distance (q : list Z) : list Z * result * option Z :=
  let '(q, res, data) := receive q in
  match res, data with
  | RSuccess, Some (c, d1, d2) =>
      if (c =? 34) && negb (d1 =? 255) && negb (d2 =? 255)
      then (q, RSuccess, Some (u16 (Z.lor (Z.shiftl d1 8) d2)))
      else (q, RNone, None)
  | _, _ => (q, res, None)
  end.
(** 136-139, 145-173.  The code calls BaseT::ReceiveRespone, a name the driver does not have, so it
    does not compile when used; modelled as if the name were right. *)
Definition begin_temperature : list Z := send_command 17 0 0.
Definition end_temperature (q : list Z) : list Z * result * option Z :=
  let '(q, res, data) := receive q in
  match res, data with
  | RSuccess, Some (c, d1, d2) =>
      if c =? 17
      then let t := Z.lor (Z.shiftl (Z.land d1 15) 8) d2 in
           (q, RSuccess, Some (if negb (Z.land d1 240 =? 0) then - t else t))
      else (q, RNone, None)
  | _, _ => (q, res, None)
  end.

(** 176-189 [WriteEEPROM]: [arrivals] are the bytes that arrive before each poll; [None] when the
    loop is still waiting after the last of them. *)
Fixpoint eeprom_wait (q : list Z) (arrivals : list (list Z)) (d1 d2 : Z) : option (list Z * list (list Z) * bool) :=
  match arrivals with
  | [] => None
  | a :: rest =>
      let '(q, res, data) := receive (q ++ a) in
      match res, data with
      | RSuccess, Some (c, e1, e2) => Some (q, rest, (c =? 68) && (e1 =? d1) && (e2 =? d2))
      | _, _ => eeprom_wait q rest d1 d2
      end
  end.
Definition write_eeprom (q : list Z) (arrivals : list (list Z)) (d1 d2 : Z)
  : list Z * option (list Z * list (list Z) * bool) :=
  (send_command 68 d1 d2, eeprom_wait q arrivals d1 d2).
(** 69-75 [SetAutonomousTriggerMode]: bytes sent and the answer. *)
Definition set_autonomous (q : list Z) (arrivals : list (list Z)) (threshold : Z) : list Z * option bool :=
  let (o1, r1) := write_eeprom q arrivals 2 170 in
  match r1 with
  | None => (o1, None)
  | Some (_, _, false) => (o1, Some false)
  | Some (q, arrivals, true) =>
      let (o2, r2) := write_eeprom q arrivals 0 (u8 threshold) in
      match r2 with
      | None => (o1 ++ o2, None)
      | Some (_, _, false) => (o1 ++ o2, Some false)
      | Some (q, arrivals, true) =>
          let (o3, r3) := write_eeprom q arrivals 1 (u8 (Z.shiftr threshold 8)) in
          (o1 ++ o2 ++ o3, match r3 with Some (_, _, b) => Some b | None => None end)
      end
  end.

(** 83-86 [SetPassiveControlMode]. *)
Definition set_passive (q : list Z) (arrivals : list (list Z)) : list Z * option bool :=
  let (o, r) := write_eeprom q arrivals 2 187 in (o, match r with Some (_, _, b) => Some b | None => None end).

(** Polling: at each step some bytes arrive and the program calls ReceiveResponse once. *)
Fixpoint poll (q : list Z) (arrivals : list (list Z)) : list Z * list (result * option (Z * Z * Z)) :=
  match arrivals with
  | [] => (q, [])
  | a :: rest => let '(q, res, data) := receive (q ++ a) in
                 let (q, out) := poll q rest in (q, (res, data) :: out)
  end.
(** Repeated EndDistance calls on bytes that have all arrived. *)
Fixpoint poll_distance (n : nat) (q : list Z) : list (result * option Z) :=
  match n with
  | O => []
  | S n => let '(q, res, d) := end_distance q in (res, d) :: poll_distance n q
  end.
