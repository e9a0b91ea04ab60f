(** URM37V32_Controller.h over URM37V32_Driver.h over Arduino/StreamInputStream.h and StreamOutputStream.h: the
    program, two serial ports, and a sensor at the other end of the lines.
    The controller and the driver are UrmModel.v, the ports ArduinoModel.v. *)
Require Import ZArith List Bool.
Import ListNotations.
From Verif Require Import Base ArduinoModel UrmModel UrmSpec.
Open Scope Z_scope.

(** Read of StreamInputStream.h 85-90, assigned to a uint8_t. *)
Definition port_read (s : serial) : serial * Z := let (s', v) := read s in (s', u8 (s16 v)).
(** URM37V32_Driver.h 75-88 over the port. *)
Definition port_receive (s : serial) : serial * result * option (Z * Z * Z) :=
  if u16 (available s) >? 3 then
    let (s, c) := port_read s in
    let (s, d1) := port_read s in
    let (s, d2) := port_read s in
    let (s, sum) := port_read s in
    (s, if checksum c d1 d2 =? sum then RSuccess else RChecksum, Some (c, d1, d2))
  else (s, if u16 (available s) >? 0 then RPending else RNone, None).
(** URM37V32_Controller.h 109-131. *)
Definition port_end_distance (s : serial) : serial * result * option Z :=
  let '(s, res, data) := port_receive s in
  match res, data with
  | RSuccess, Some (c, d1, d2) =>
      if (c =? 34) && negb (d1 =? 255) && negb (d2 =? 255)
      then (s, RSuccess, Some (u16 (Z.lor (Z.shiftl d1 8) d2)))
      else (s, RNone, None)
  | _, _ => (s, res, None)
  end.

(** [u_out]: what the program has sent; [u_taken]: how many frames of it the sensor has taken; [u_line]: what the
    sensor has sent and has not arrived yet; [u_rx]: the receiving port; [u_reports]: the answers of EndDistance. *)
Record urm_sys := mkUrm { u_out : list Z; u_taken : nat; u_line : list Z; u_rx : serial; u_reports : list (result * option Z) }.
Inductive uop :=
| UBegin                (* BeginDistance() *)
| UBeginDeg (deg : Z)   (* BeginDistance(degrees) *)
| USense                (* the sensor takes a frame that has come completely and answers it *)
| UArrive               (* a byte of the answer arrives *)
| UEnd.                 (* EndDistance *)

Section Link.
Variables (cap : nat) (temperature : Z * Z).
(** The measurement for each command. *)
Variable m : nat -> Z * Z.
Definition u_step (s : urm_sys) (o : uop) : urm_sys :=
  match o with
  | UBegin => mkUrm (u_out s ++ map u8 begin_distance) (u_taken s) (u_line s) (u_rx s) (u_reports s)
  | UBeginDeg deg => mkUrm (u_out s ++ map u8 (begin_distance_deg deg)) (u_taken s) (u_line s) (u_rx s) (u_reports s)
  | USense =>
      if (4 * S (u_taken s) <=? length (u_out s))%nat
      then mkUrm (u_out s) (S (u_taken s))
             (u_line s ++ sensor temperature (m (u_taken s)) (firstn 4 (skipn (4 * u_taken s) (u_out s)))) (u_rx s) (u_reports s)
      else s
  | UArrive =>
      match u_line s with
      | [] => s
      | b :: rest => mkUrm (u_out s) (u_taken s) rest (ArduinoModel.receive cap (u_rx s) b) (u_reports s)
      end
  | UEnd =>
      let '(rx, res, d) := port_end_distance (u_rx s) in
      mkUrm (u_out s) (u_taken s) (u_line s) rx (u_reports s ++ [(res, d)])
  end.
Definition u_start : urm_sys := mkUrm [] 0 [] (mkSerial [] [] []) [].
Definition u_run (ops : list uop) : urm_sys := fold_left u_step ops u_start.
End Link.
