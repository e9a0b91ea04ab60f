(** Arduino/StreamInputStream.h, Arduino/StreamOutputStream.h, Arduino/SerialI2COutput.h,
    Arduino/DigitalOutputPin.h, Arduino/DigitalInputPin.h, Arduino/AnalogOutputPin.h: translated code,
    over the functions of the Arduino core for AVR that they call. *)
Require Import ZArith List Bool.
Import ListNotations.
From Verif Require Import Base MidiModel HdModel.
Open Scope Z_scope.

(** ** Streams
    A serial port of Arduino: the bytes received and not read yet, at most [cap]; the bytes written;
    the bytes that arrived and did not fit. *)
Record serial := mkSerial { s_in : list Z; s_out : list Z; s_lost : list Z }.
Section Streams.
Variable cap : nat.
Definition receive (s : serial) (b : Z) : serial :=
  if (length (s_in s) <? cap)%nat then mkSerial (s_in s ++ [b]) (s_out s) (s_lost s)
  else mkSerial (s_in s) (s_out s) (s_lost s ++ [b]).
(** read() of HardwareSerial. *)
Definition read (s : serial) : serial * Z :=
  match s_in s with [] => (s, -1) | b :: q => (mkSerial q (s_out s) (s_lost s), b) end.
Definition available (s : serial) : Z := Z.of_nat (length (s_in s)).
(** StreamInputStream.h 74-79 [Clear]: while(read() != -1).  [arrive i]: what arrives right after the
    i-th read.  [None]: still looping after [fuel] reads. *)
Fixpoint clear_loop (fuel : nat) (arrive : nat -> list Z) (i : nat) (s : serial) : option serial :=
  match fuel with
  | O => None
  | S k => let (s', v) := read s in
           if v =? -1 then Some s' else clear_loop k arrive (S i) (fold_left receive (arrive i) s')
  end.

(** The two adapters over a number of serial ports; [None] is NULL. *)
Record adapters := mkAdapters { a_in : option nat; a_out : option nat; a_port : nat -> serial }.
Inductive aop :=
| AIn (k : option nat)   (* AttachInputStream *)
| AOut (k : option nat)  (* AttachOutputStream *)
| ALength | ARead | AClear   (* of the input stream; nothing arrives during Clear *)
| AWrite (b : Z) | AFlush | AOutLength   (* of the output stream *)
| AReceive (k : nat) (b : Z).  (* a byte arrives at port k *)
Definition set_port (a : adapters) (k : nat) (s : serial) : adapters :=
  mkAdapters (a_in a) (a_out a) (fun j => if Nat.eqb j k then s else a_port a j).
Definition nothing (i : nat) : list Z := [].
(** The answer is 0 for functions without result. *)
Definition a_step (a : adapters) (o : aop) : option (adapters * Z) :=
  match o with
  | AIn k => Some (mkAdapters k (a_out a) (a_port a), 0)                (* StreamInputStream.h 56-59 *)
  | AOut k => Some (mkAdapters (a_in a) k (a_port a), 0)                (* StreamOutputStream.h 55-58 *)
  | ALength =>                                                          (* StreamInputStream.h 64-69 *)
      match a_in a with None => Some (a, 0) | Some k => Some (a, u16 (available (a_port a k))) end
  | ARead =>                                                            (* 85-90 *)
      match a_in a with
      | None => Some (a, -1)
      | Some k => let (s, v) := read (a_port a k) in Some (set_port a k s, s16 v)
      end
  | AClear =>
      match a_in a with
      | None => Some (a, 0)
      | Some k => match clear_loop (S (length (s_in (a_port a k)))) nothing 0 (a_port a k) with
                  | Some s => Some (set_port a k s, 0)
                  | None => None
                  end
      end
  | AWrite b =>                                                         (* StreamOutputStream.h 80-85 *)
      match a_out a with
      | None => Some (a, 0)
      | Some k => let s := a_port a k in Some (set_port a k (mkSerial (s_in s) (s_out s ++ [u8 b]) (s_lost s)), 0)
      end
  | AFlush => Some (a, 0)   (* 70-75: flush() of Arduino waits until all is sent *)
  | AOutLength => Some (a, 0)                                           (* 63-66 *)
  | AReceive k b => Some (set_port a k (receive (a_port a k) b), 0)
  end.
Fixpoint a_run (a : adapters) (ops : list aop) : option (adapters * list Z) :=
  match ops with
  | [] => Some (a, [])
  | o :: rest => match a_step a o with
                 | Some (a', v) => match a_run a' rest with Some (a'', vs) => Some (a'', v :: vs) | None => None end
                 | None => None
                 end
  end.

(** ** MIDI over the adapters: MidiWriter over one port, MidiReader over another, a line between.
    [k_arrived]: how many of the bytes written have arrived. *)
Record midi_ports := mkPorts { k_run : Z; k_tx : serial; k_arrived : nat; k_rx : serial; k_reader : reader; k_notes : list note }.
Inductive kop := KWrite (o : w_op) | KArrive | KRead.
Definition k_step (p : midi_ports) (o : kop) : midi_ports :=
  match o with
  | KWrite o =>                                                         (* MidiWriter.h 48-96 *)
      let (run, out) := match o with WMessage m => write_msg (k_run p) m | WType t => (k_run p, write_type t) end in
      let s := k_tx p in
      mkPorts run (mkSerial (s_in s) (s_out s ++ map u8 out) (s_lost s)) (k_arrived p) (k_rx p) (k_reader p) (k_notes p)
  | KArrive =>
      match nth_error (s_out (k_tx p)) (k_arrived p) with
      | Some b => mkPorts (k_run p) (k_tx p) (S (k_arrived p)) (receive (k_rx p) b) (k_reader p) (k_notes p)
      | None => p
      end
  | KRead =>                                                            (* MidiReader.h 53-68 *)
      if u16 (available (k_rx p)) >? 0 then
        let (s, v) := read (k_rx p) in
        let v := s16 v in
        if v =? -1 then mkPorts (k_run p) (k_tx p) (k_arrived p) s (k_reader p) (k_notes p)
        else let '(rd, ns, _) := dispatch (k_reader p) (u8 v) in
             mkPorts (k_run p) (k_tx p) (k_arrived p) s rd (k_notes p ++ ns)
      else p
  end.
Definition k_start : midi_ports := mkPorts 0 (mkSerial [] [] []) 0 (mkSerial [] [] []) r_init [].
Definition k_ops (ops : list kop) : midi_ports := fold_left k_step ops k_start.
End Streams.

(** ** I2C
    The Wire library: a buffer of 32 bytes, further bytes are dropped; endTransmission sends address and
    buffer and answers 0 if all was acknowledged, 2 for the address, 3 for data.  [acks]: how many bytes,
    the address included, the device would acknowledge.  Result: the data acknowledged, the answer. *)
Definition wire_buffer : nat := 32.
Definition transmission (data : list Z) (acks : nat) : list Z * Z :=
  let sent := firstn wire_buffer data in
  match acks with
  | O => ([], 2)
  | S n => if (n <? length sent)%nat then (firstn n sent, 3) else (sent, 0)
  end.
(** SerialI2COutput.h 33-38. *)
Definition i2c_write (data : Z) (acks : nat) : list Z * bool :=
  let (got, r) := transmission [data] acks in (got, r =? 0).
(** 40-45; reading beyond the array is undefined. *)
Definition i2c_write_array (data : list Z) (len : Z) (acks : nat) : option (list Z * bool) :=
  if (Z.to_nat len <=? length data)%nat
  then let (got, r) := transmission (firstn (Z.to_nat len) data) acks in Some (got, r =? 0) else None.
(** HD44780_DriverI2C.h 133-136, whose callers ignore the answer: the bytes the device has got after a number of
    writes. *)
Fixpoint i2c_got (bytes : list Z) (acks : nat -> nat) (i : nat) : list Z :=
  match bytes with [] => [] | b :: rest => fst (i2c_write b (acks i)) ++ i2c_got rest acks (S i) end.

(** ** Pins
    Per pin: the direction bit, the output latch, and the compare output of its timer if it is on. *)
Record pin := mkPin { p_ddr : bool; p_latch : bool; p_pwm : option Z }.
Definition board := Z -> pin.
Definition set_pin (b : board) (n : Z) (p : pin) : board := fun m => if m =? n then p else b m.
Section Pins.
(** Is the pin on a timer (~)? *)
Variable timer : Z -> bool.
(** What the input of a pin that is not driven reads, given whether the pull-up is on. *)
Variable outside : Z -> bool -> bool.
(** pinMode: INPUT also clears the latch. *)
Definition pin_mode (b : board) (n : Z) (output : bool) : board :=
  let p := b n in
  set_pin b n (if output then mkPin true (p_latch p) (p_pwm p) else mkPin false false (p_pwm p)).
Definition pwm_off (b : board) (n : Z) : board :=
  let p := b n in if timer n then set_pin b n (mkPin (p_ddr p) (p_latch p) None) else b.
Definition digital_write (b : board) (n : Z) (v : bool) : board :=
  let b := pwm_off b n in let p := b n in set_pin b n (mkPin (p_ddr p) v (p_pwm p)).
Definition digital_read (b : board) (n : Z) : board * bool :=
  let b := pwm_off b n in let p := b n in (b, if p_ddr p then p_latch p else outside n (p_latch p)).
Definition analog_write (b : board) (n : Z) (v : Z) : board :=
  let b := pin_mode b n true in
  if v =? 0 then digital_write b n false
  else if v =? 255 then digital_write b n true
  else if timer n then let p := b n in set_pin b n (mkPin (p_ddr p) (p_latch p) (Some v))
  else digital_write b n (negb (v <? 128)).

Inductive pop :=
| POut (n : Z)               (* DigitalOutputPin.h 38-41; also the constructor of AnalogOutputPin *)
| POutInit (n : Z) (v : bool)  (* 46-50 *)
| PWrite (n : Z) (v : bool)  (* 55-58 *)
| PValue (n : Z)             (* 64-67 *)
| PToggle (n : Z)            (* 71-74 *)
| PAnalog (n : Z) (v : Z)    (* AnalogOutputPin.h 41-44 *)
| PIn (n : Z)                (* DigitalInputPin.h 38-41 *)
| PRead (n : Z)              (* 46-49 *)
| PPullup (n : Z) (v : bool). (* 54-57 *)
(** DigitalOutputPin.h 46-50: the board between the two calls, and after. *)
Definition out_init (b : board) (n : Z) (v : bool) : board * board :=
  let b := pin_mode b n true in (b, digital_write b n v).
(** The answer is false for functions without result. *)
Definition p_step (b : board) (o : pop) : board * bool :=
  match o with
  | POut n => (pin_mode b n true, false)
  | POutInit n v => (snd (out_init b n v), false)
  | PWrite n v => (digital_write b n v, false)
  | PValue n => digital_read b n
  | PToggle n => let (b, v) := digital_read b n in (digital_write b n (negb v), false)
  | PAnalog n v => (analog_write b n (u8 v), false)
  | PIn n => (pin_mode b n false, false)
  | PRead n => digital_read b n
  | PPullup n v => (digital_write b n v, false)
  end.
Fixpoint p_run (b : board) (ops : list pop) : board * list bool :=
  match ops with
  | [] => (b, [])
  | o :: rest => let (b, v) := p_step b o in let (b, vs) := p_run b rest in (b, v :: vs)
  end.

(** HD44780_Driver.h over six pins: 49-51 the constructor, 95-103 and 126-131 [Write4], 85-89, 65-79. *)
Record lcd_pins := mkLcd { n_rs : Z; n_en : Z; n_d4 : Z; n_d5 : Z; n_d6 : Z; n_d7 : Z }.
Definition lcd_new (x : lcd_pins) : list pop :=
  [POut (n_rs x); POutInit (n_en x) true; POut (n_d4 x); POut (n_d5 x); POut (n_d6 x); POut (n_d7 x)].
Definition lcd_write4 (x : lcd_pins) (data : Z) : list pop :=
  [PWrite (n_d4 x) (nz (Z.land data 1)); PWrite (n_d5 x) (nz (Z.land data 2)); PWrite (n_d6 x) (nz (Z.land data 4));
   PWrite (n_d7 x) (nz (Z.land data 8)); PWrite (n_en x) false; PWrite (n_en x) true].
Definition lcd_write8 (x : lcd_pins) (data : Z) : list pop := lcd_write4 x (Z.shiftr data 4) ++ lcd_write4 x data.
Definition lcd_op (x : lcd_pins) (o : dop) : list pop :=
  match o with
  | DCmd b => PWrite (n_rs x) false :: lcd_write8 x b
  | DData b => PWrite (n_rs x) true :: lcd_write8 x b
  | DNib n => lcd_write4 x n
  end.
(** The boards after each call. *)
Fixpoint p_trace (b : board) (ops : list pop) : list board :=
  match ops with [] => [] | o :: rest => let b := fst (p_step b o) in b :: p_trace b rest end.
End Pins.
