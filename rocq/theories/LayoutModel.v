(** MidiMessage.h once more, over the bytes of the object, for any layout of the struct a board's compiler may
    choose; MidiReader.h and MidiWriter.h over such objects. *)
Require Import ZArith List Bool.
Import ListNotations.
From Verif Require Import Base BitModel MidiModel.
Open Scope Z_scope.

(** The struct MidiMessage, 52-108: where its parts are.  On AVR the enum and int have two bytes and nothing is
    padded; on a 32-bit board both have four bytes and the inner union, which holds an int, is aligned to four. *)
Record layout := mkLayout {
  l_enum : Z;      (* bytes of MessageType, at offset 0 *)
  l_un : Z;        (* offset of the outer union: Channel, Beats, SongNumber, Data *)
  l_in : Z;        (* offset of the inner union (Note and Velocity, Bend) after Channel *)
  l_int : Z;       (* bytes of an int *)
  l_be : bool;     (* most significant byte first *)
  l_size : Z }.    (* sizeof(MidiMessage) *)
Definition lay_avr : layout := mkLayout 2 2 1 2 false 5.
Definition lay_arm : layout := mkLayout 4 4 4 4 false 12.

(** ** Numbers of [n] bytes at offset [a] *)
Section Mem.
Variable be : bool.
(** The place value of the byte at [x]. *)
Definition lsig (a n x : Z) : Z := if be then n - 1 - (x - a) else x - a.
Definition lstore (f : Z -> Z) (a n v : Z) : Z -> Z :=
  fun x => if (a <=? x) && (x <? a + n) then v / 256 ^ lsig a n x mod 256 else f x.
(** The bytes with place values 0 to k-1. *)
Fixpoint lsum (f : Z -> Z) (a n : Z) (k : nat) : Z :=
  match k with
  | O => 0
  | S j => lsum f a n j + f (if be then a + (n - 1 - Z.of_nat j) else a + Z.of_nat j) * 256 ^ Z.of_nat j
  end.
Definition lload (f : Z -> Z) (a n : Z) : Z := lsum f a n (Z.to_nat n).
End Mem.

Section Lay.
Variable L : layout.
Definition mem := Z -> Z.

(** ** MidiMessage.h: the members *)
Definition ld_type (f : mem) : Z := lload (l_be L) f 0 (l_enum L).
Definition ld_channel (f : mem) : Z := lload (l_be L) f (l_un L) 1.
Definition ld_note (f : mem) : Z := lload (l_be L) f (l_un L + l_in L) 1.             (* also Number *)
Definition ld_velocity (f : mem) : Z := lload (l_be L) f (l_un L + l_in L + 1) 1.     (* also Value, Pressure *)
Definition ld_bend (f : mem) : Z := sn (8 * l_int L) (lload (l_be L) f (l_un L + l_in L) (l_int L)).
Definition ld_beats (f : mem) : Z := lload (l_be L) f (l_un L) 2.
Definition ld_song (f : mem) : Z := lload (l_be L) f (l_un L) 1.                      (* also Data *)
Definition st_type (f : mem) (v : Z) : mem := lstore (l_be L) f 0 (l_enum L) v.
Definition st_channel (f : mem) (v : Z) : mem := lstore (l_be L) f (l_un L) 1 v.
Definition st_note (f : mem) (v : Z) : mem := lstore (l_be L) f (l_un L + l_in L) 1 v.
Definition st_velocity (f : mem) (v : Z) : mem := lstore (l_be L) f (l_un L + l_in L + 1) 1 v.
Definition st_bend (f : mem) (v : Z) : mem := lstore (l_be L) f (l_un L + l_in L) (l_int L) v.
Definition st_beats (f : mem) (v : Z) : mem := lstore (l_be L) f (l_un L) 2 v.
Definition st_song (f : mem) (v : Z) : mem := lstore (l_be L) f (l_un L) 1 v.

(** 59-62: memset of the whole object. *)
Definition lmsg_new (f : mem) : mem := fun x => if (0 <=? x) && (x <? l_size L) then 0 else f x.
(** 116-124. *)
Definition lget_status (f : mem) : Z :=
  if is_system (ld_type f) then u8 (ld_type f) else u8 (Z.lor (ld_type f) (ld_channel f)).
(** 129-141. *)
Definition lset_status (f : mem) (st : Z) : mem :=
  let f := st_type f (msg_type st) in
  let f := st_bend f 0 in
  let f := st_beats f 0 in
  if negb (is_system (ld_type f)) then st_channel f (Z.land st 15) else f.
(** 146-185. *)
Definition lget_data1 (f : mem) : Z :=
  let t := ld_type f in
  if (t =? 144) || (t =? 128) || (t =? 160) || (t =? 176) || (t =? 192) then Z.land (ld_note f) 127
  else if t =? 208 then ld_velocity f
  else if (t =? 243) || (t =? 241) then Z.land (ld_song f) 127
  else if t =? 224 then Z.land (u8 (Z.land (ld_bend f) 127)) 127
  else if t =? 242 then Z.land (u8 (Z.land (ld_beats f) 127)) 127
  else 0.
(** 190-225. *)
Definition lset_data1 (f : mem) (d : Z) : mem :=
  let t := ld_type f in
  if (t =? 144) || (t =? 128) || (t =? 160) || (t =? 176) || (t =? 192) then st_note f d
  else if t =? 208 then st_velocity f d
  else if (t =? 243) || (t =? 241) then st_song f d
  else if t =? 224 then st_bend f d
  else if t =? 242 then st_beats f d
  else f.
(** 230-258. *)
Definition lget_data2 (f : mem) : Z :=
  let t := ld_type f in
  if (t =? 144) || (t =? 128) || (t =? 160) || (t =? 176) then Z.land (ld_velocity f) 127
  else if t =? 224 then Z.land (u8 (Z.shiftr (Z.land (ld_bend f) 16256) 7)) 127
  else if t =? 242 then Z.land (u8 (Z.shiftr (Z.land (ld_beats f) 16256) 7)) 127
  else 0.
(** 263-287. *)
Definition lset_data2 (f : mem) (d : Z) : mem :=
  let t := ld_type f in
  if (t =? 144) || (t =? 128) || (t =? 160) || (t =? 176) then st_velocity f d
  else if t =? 224 then st_bend f (Z.lor (ld_bend f) (Z.shiftl d 7))
  else if t =? 242 then st_beats f (Z.lor (ld_beats f) (Z.shiftl d 7))
  else f.
(** 293-298 [CopyTo] to another object: memcpy of the whole object.  [g] is the target. *)
Definition lcopy (f g : mem) : mem := fun x => if (0 <=? x) && (x <? l_size L) then f x else g x.

(** ** MidiReader.h: the definitions of [MidiModel] again, with the message in memory.
    Notifications carry what the callback finds in the message. *)
Inductive lnote := LMessage (f : mem) | LRealtime (b : Z) | LSysEx.
Record lreader := mkLReader { lr_run : Z; lr_parse : pstate; lr_end : pstate; lr_msg : mem }.
(** 42-44; [f] is what was in memory before. *)
Definition lr_init (f : mem) : lreader := mkLReader 0 StatusByte NotSet (lmsg_new f).
(** 114-118. *)
Definition lreset_state (r : lreader) : lreader := mkLReader (lr_run r) StatusByte NotSet (lr_msg r).
(** 211-252. *)
Definition lprocess_status (r : lreader) (st : Z) : lreader * list lnote * bool :=
  let n := msg_length st in
  if n =? 1 then (r, [LRealtime st], true)
  else if n =? 2 then (mkLReader (lr_run r) DataByte1 DataByte1 (lset_status (lr_msg r) st), [], true)
  else if n =? 3 then (mkLReader (lr_run r) DataByte1 DataByte2 (lset_status (lr_msg r) st), [], true)
  else if n =? -1 then (mkLReader 0 SOX EOX (lr_msg r), [LSysEx], true)
  else (lreset_state (mkLReader 0 (lr_parse r) (lr_end r) (lr_msg r)), [], false).
(** 255-277. *)
Definition lprocess_data (r : lreader) (b : Z) : lreader * bool :=
  match lr_parse r with
  | DataByte1 => (mkLReader (lr_run r) (if negb (peq DataByte1 (lr_end r)) then DataByte2 else NotSet) (lr_end r)
                           (lset_data1 (lr_msg r) b), true)
  | DataByte2 => (mkLReader (lr_run r) NotSet (lr_end r) (lset_data2 (lr_msg r) b), true)
  | _ => (r, false)
  end.
(** 134-208. *)
Definition ldispatch (r : lreader) (b : Z) : lreader * list lnote * bool :=
  let status := msg_type b in
  let '(r, notes, success) :=
    match lr_parse r with
    | StatusByte =>
        if (status =? 0) && negb (lr_run r =? 0) then
          let '(r1, n1, s1) := lprocess_status r (lr_run r) in
          if s1 then let (r2, s2) := lprocess_data r1 b in (r2, n1, s2) else (r1, n1, s1)
        else if status >? 0 then lprocess_status r b
        else (r, [], false)
    | SOX => (r, [], false)
    | _ =>
        if status >? 0 then
          if is_realtime status then lprocess_status r b else (r, [], false)
        else let (r1, s1) := lprocess_data r b in (r1, [], s1)
    end in
  if success && peq (lr_parse r) NotSet then
    let run := if is_channel (ld_type (lr_msg r)) then u8 (Z.lor (ld_type (lr_msg r)) (ld_channel (lr_msg r))) else 0 in
    let notes := if negb (peq (lr_end r) EOX) then notes ++ [LMessage (lr_msg r)] else notes in
    (lreset_state (mkLReader run (lr_parse r) (lr_end r) (lr_msg r)), notes, success)
  else (r, notes, success).
Fixpoint lread_all (r : lreader) (bytes : list Z) : lreader * list (list lnote) :=
  match bytes with
  | [] => (r, [])
  | b :: rest => let '(r1, n, _) := ldispatch r b in
                 let (r2, ns) := lread_all r1 rest in (r2, n :: ns)
  end.

(** ** MidiWriter.h 48-88 *)
Definition lwrite_msg (run : Z) (f : mem) : Z * list Z :=
  let len := msg_length (ld_type f) in
  let st := lget_status f in
  let '(run, out) :=
    if is_channel (ld_type f) then (if negb (run =? st) then (st, [st]) else (run, []))
    else (if is_system_common (ld_type f) then 0 else run, [st]) in
  (run, out ++ (if len >? 1 then [lget_data1 f] else []) ++ (if len >? 2 then [lget_data2 f] else [])).
Fixpoint lwrite_all (run : Z) (fs : list mem) : list Z :=
  match fs with
  | [] => []
  | f :: rest => let (run', out) := lwrite_msg run f in out ++ lwrite_all run' rest
  end.
End Lay.
