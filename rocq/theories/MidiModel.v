(** Midi.h, MidiMessage.h, MidiReader.h, MidiWriter.h: translated code. *)
Require Import ZArith List Bool.
Import ListNotations.
From Verif Require Import Base.
Open Scope Z_scope.

(** ** Midi.h *)
(** 112-115. *)
Definition is_status (b : Z) : bool := Z.land b 128 >? 0.
(** 121-137; 0 is InvalidType. *)
Definition msg_type (b : Z) : Z :=
  if is_status b then let st := Z.land b 240 in if st =? 240 then b else st else 0.
(** 144-181. *)
Definition msg_length (b : Z) : Z :=
  let t := msg_type b in
  if (t =? 250) || (t =? 251) || (t =? 252) || (t =? 248) || (t =? 254) || (t =? 255) || (t =? 246) then 1
  else if (t =? 192) || (t =? 208) || (t =? 241) || (t =? 243) then 2
  else if (t =? 144) || (t =? 128) || (t =? 176) || (t =? 224) || (t =? 160) || (t =? 242) then 3
  else if t =? 240 then -1
  else 0.
(** 187-190, 196-199, 205-208, 214-217. *)
Definition is_channel (b : Z) : bool := (b >=? 128) && (b <=? 224).
Definition is_realtime (b : Z) : bool := (b >=? 248) && (b <=? 255).
Definition is_system_common (b : Z) : bool := (b >=? 240) && (b <=? 247).
Definition is_system (b : Z) : bool := (b >=? 240) && (b <=? 255).

(** ** MidiMessage.h
    65-108.  Byte layout of the union on AVR (no padding, int is 16 bit, little endian):
    byte 0 is Channel, SongNumber, Data and the low byte of Beats; byte 1 is Note, Number, the low
    byte of Bend and the high byte of Beats; byte 2 is Velocity, Value, Pressure and the high byte
    of Bend. *)
Record message := mkMsg { m_type : Z; m_b0 : Z; m_b1 : Z; m_b2 : Z }.
Definition m_new : message := mkMsg 0 0 0 0.     (* 59-62 *)
Definition m_channel (m : message) : Z := m_b0 m.
Definition m_note (m : message) : Z := m_b1 m.          (* also Number *)
Definition m_velocity (m : message) : Z := m_b2 m.      (* also Value, Pressure *)
Definition m_song (m : message) : Z := m_b0 m.          (* also Data *)
Definition m_bend (m : message) : Z := s16 (m_b1 m + 256 * m_b2 m).
Definition m_beats (m : message) : Z := m_b0 m + 256 * m_b1 m.
Definition set_bend (m : message) (v : Z) : message :=
  mkMsg (m_type m) (m_b0 m) (u16 v mod 256) (u16 v / 256).
Definition set_beats (m : message) (v : Z) : message :=
  mkMsg (m_type m) (u16 v mod 256) (u16 v / 256) (m_b2 m).

(** 116-124. *)
Definition get_status (m : message) : Z :=
  if is_system (m_type m) then u8 (m_type m) else u8 (Z.lor (m_type m) (m_channel m)).
(** 129-141. *)
Definition set_status (m : message) (st : Z) : message :=
  let m := mkMsg (msg_type st) (m_b0 m) (m_b1 m) (m_b2 m) in
  let m := set_bend m 0 in
  let m := set_beats m 0 in
  if negb (is_system (m_type m)) then mkMsg (m_type m) (Z.land st 15) (m_b1 m) (m_b2 m) else m.
(** 146-185. *)
Definition get_data1 (m : message) : Z :=
  let t := m_type m in
  if (t =? 144) || (t =? 128) || (t =? 160) || (t =? 176) || (t =? 192) then Z.land (m_b1 m) 127
  else if t =? 208 then m_b2 m
  else if (t =? 243) || (t =? 241) then Z.land (m_b0 m) 127
  else if t =? 224 then Z.land (u8 (Z.land (m_bend m) 127)) 127
  else if t =? 242 then Z.land (u8 (Z.land (m_beats m) 127)) 127
  else 0.
(** 190-225. *)
Definition set_data1 (m : message) (d : Z) : message :=
  let t := m_type m in
  if (t =? 144) || (t =? 128) || (t =? 160) || (t =? 176) || (t =? 192) then mkMsg t (m_b0 m) d (m_b2 m)
  else if t =? 208 then mkMsg t (m_b0 m) (m_b1 m) d
  else if (t =? 243) || (t =? 241) then mkMsg t d (m_b1 m) (m_b2 m)
  else if t =? 224 then set_bend m d
  else if t =? 242 then set_beats m d
  else m.
(** 230-258. *)
Definition get_data2 (m : message) : Z :=
  let t := m_type m in
  if (t =? 144) || (t =? 128) || (t =? 160) || (t =? 176) then Z.land (m_b2 m) 127
  else if t =? 224 then Z.land (u8 (Z.shiftr (Z.land (m_bend m) 16256) 7)) 127
  else if t =? 242 then Z.land (u8 (Z.shiftr (Z.land (m_beats m) 16256) 7)) 127
  else 0.
(** 263-287. *)
Definition set_data2 (m : message) (d : Z) : message :=
  let t := m_type m in
  if (t =? 144) || (t =? 128) || (t =? 160) || (t =? 176) then mkMsg t (m_b0 m) (m_b1 m) d
  else if t =? 224 then set_bend m (Z.lor (m_bend m) (Z.shiftl d 7))
  else if t =? 242 then set_beats m (Z.lor (m_beats m) (Z.shiftl d 7))
  else m.

(** ** MidiReader.h
    73-96. *)
Inductive pstate := NotSet | StatusByte | DataByte1 | DataByte2 | SOX | EOX.
Definition peq (a b : pstate) : bool :=
  match a, b with
  | NotSet, NotSet | StatusByte, StatusByte | DataByte1, DataByte1 | DataByte2, DataByte2 | SOX, SOX | EOX, EOX => true
  | _, _ => false
  end.
Record reader := mkReader { r_run : Z; r_parse : pstate; r_end : pstate; r_msg : message }.
Definition r_init : reader := mkReader 0 StatusByte NotSet m_new.   (* 42-44 *)

(** The notifications, with the message as the callback sees it. *)
Inductive note := NMessage (m : message) | NRealtime (b : Z) | NSysEx.

(** 114-118. *)
Definition reset_state (r : reader) : reader := mkReader (r_run r) StatusByte NotSet (r_msg r).
(** 211-252. *)
Definition process_status (r : reader) (st : Z) : reader * list note * bool :=
  let n := msg_length st in
  if n =? 1 then (r, [NRealtime st], true)
  else if n =? 2 then (mkReader (r_run r) DataByte1 DataByte1 (set_status (r_msg r) st), [], true)
  else if n =? 3 then (mkReader (r_run r) DataByte1 DataByte2 (set_status (r_msg r) st), [], true)
  else if n =? -1 then (mkReader 0 SOX EOX (r_msg r), [NSysEx], true)
  else (reset_state (mkReader 0 (r_parse r) (r_end r) (r_msg r)), [], false).
(** 255-277. *)
Definition process_data (r : reader) (b : Z) : reader * bool :=
  match r_parse r with
  | DataByte1 => (mkReader (r_run r) (if negb (peq DataByte1 (r_end r)) then DataByte2 else NotSet) (r_end r)
                           (set_data1 (r_msg r) b), true)
  | DataByte2 => (mkReader (r_run r) NotSet (r_end r) (set_data2 (r_msg r) b), true)
  | _ => (r, false)
  end.
(** 134-208. *)
Definition dispatch (r : reader) (b : Z) : reader * list note * bool :=
  let status := msg_type b in
  let '(r, notes, success) :=
    match r_parse r with
    | StatusByte =>
        if (status =? 0) && negb (r_run r =? 0) then
          let '(r1, n1, s1) := process_status r (r_run r) in
          if s1 then let (r2, s2) := process_data r1 b in (r2, n1, s2) else (r1, n1, s1)
        else if status >? 0 then process_status r b
        else (r, [], false)
    | SOX => (r, [], false)
    | _ =>
        if status >? 0 then
          if is_realtime status then process_status r b else (r, [], false)
        else let (r1, s1) := process_data r b in (r1, [], s1)
    end in
  if success && peq (r_parse r) NotSet then
    let run := if is_channel (m_type (r_msg r)) then u8 (Z.lor (m_type (r_msg r)) (m_channel (r_msg r))) else 0 in
    let notes := if negb (peq (r_end r) EOX) then notes ++ [NMessage (r_msg r)] else notes in
    (reset_state (mkReader run (r_parse r) (r_end r) (r_msg r)), notes, success)
  else (r, notes, success).

(** Notifications per byte read; Read (53-68) feeds the bytes of the stream to Dispatch one by one. *)
Fixpoint read_all (r : reader) (bytes : list Z) : reader * list (list note) :=
  match bytes with
  | [] => (r, [])
  | b :: rest => let '(r1, n, _) := dispatch r b in
                 let (r2, ns) := read_all r1 rest in (r2, n :: ns)
  end.
(** 53-68: one call of Read on a port with the bytes [q] waiting; the answer, the notifications and
    the bytes left.  [read_calls] calls it once for each byte. *)
Definition read_once (r : reader) (q : list Z) : reader * list Z * list note * bool :=
  match q with
  | [] => (r, [], [], false)
  | b :: q' => let '(r1, n, ok) := dispatch r b in (r1, q', n, ok)
  end.
Fixpoint read_calls (k : nat) (r : reader) (q : list Z) : list (list note * bool) :=
  match k with
  | O => []
  | S k' => let '(r1, q1, n, ok) := read_once r q in (n, ok) :: read_calls k' r1 q1
  end.

(** ** MidiWriter.h
    48-88 [Write(MidiMessage* )]: new running status and the bytes written. *)
Definition write_msg (run : Z) (m : message) : Z * list Z :=
  let len := msg_length (m_type m) in
  let st := get_status m in
  let '(run, out) :=
    if is_channel (m_type m) then (if negb (run =? st) then (st, [st]) else (run, []))
    else (if is_system_common (m_type m) then 0 else run, [st]) in
  (run, out ++ (if len >? 1 then [get_data1 m] else []) ++ (if len >? 2 then [get_data2 m] else [])).
(** 93-96 [Write(MessageTypes)]. *)
Definition write_type (t : Z) : list Z := [u8 t].

Inductive w_op := WMessage (m : message) | WType (t : Z).
Fixpoint write_all (run : Z) (ops : list w_op) : list Z :=
  match ops with
  | [] => []
  | WMessage m :: rest => let (run', out) := write_msg run m in out ++ write_all run' rest
  | WType t :: rest => write_type t ++ write_all run rest
  end.
