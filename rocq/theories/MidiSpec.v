(** MIDI 1.0 as a specification: status table and what a byte stream means. *)
Require Import ZArith List Bool.
Import ListNotations.
From Verif Require Import MidiModel.
Open Scope Z_scope.

(** MIDI 1.0 status bytes. *)
Inductive kind := KData | KChannel | KSysEx | KCommon | KUndefined | KRealtime.
Definition kind_of (b : Z) : kind :=
  if b <? 128 then KData
  else if b <? 240 then KChannel
  else if b =? 240 then KSysEx
  else if (b =? 241) || (b =? 242) || (b =? 243) || (b =? 246) then KCommon
  else if (b =? 244) || (b =? 245) || (b =? 247) || (b =? 249) || (b =? 253) then KUndefined
  else KRealtime.
(** Number of data bytes following a status byte. *)
Definition data_count (st : Z) : Z :=
  match kind_of st with
  | KChannel => if (192 <=? st) && (st <? 224) then 1 else 2      (* Cn program change, Dn channel pressure *)
  | KCommon => if st =? 242 then 2 else if st =? 246 then 0 else 1
  | _ => 0
  end.

(** A message with data: channel messages and F1, F2, F3. *)
Definition has_data (st : Z) : Prop := 128 <= st < 240 \/ 241 <= st <= 243.
Definition data_byte (d : Z) : Prop := 0 <= d < 128.
(** Realtime bytes. *)
Definition realtime (b : Z) : Prop := b = 248 \/ b = 250 \/ b = 251 \/ b = 252 \/ b = 254 \/ b = 255.

(** What a receiver reports: a message by its status and data bytes, a one-byte message, or the
    start of system exclusive data. *)
Inductive report := RMsg (st d1 d2 : Z) | ROne (b : Z) | RSysEx.
Definition seen (n : note) : report :=
  match n with
  | NMessage m => RMsg (get_status m) (get_data1 m) (get_data2 m)
  | NRealtime b => ROne b
  | NSysEx => RSysEx
  end.

(** A stream, each byte with the reports due when it arrives.
    [stream rs s]: [s] is a legal stream when the running status is [rs] (0 for none). *)
Definition body (st d1 d2 : Z) : list (Z * list report) :=
  if data_count st =? 1 then [(d1, [RMsg st d1 0])] else [(d1, []); (d2, [RMsg st d1 d2])].
Definition next_running (st : Z) : Z := if st <? 240 then st else 0.
Inductive stream : Z -> list (Z * list report) -> Prop :=
| st_end rs : stream rs []
| st_full rs st d1 d2 s :             (* a message with its status byte *)
    has_data st -> data_byte d1 -> data_byte d2 -> stream (next_running st) s ->
    stream rs ((st, []) :: body st d1 d2 ++ s)
| st_running rs d1 d2 s :             (* a message under running status *)
    rs <> 0 -> data_byte d1 -> data_byte d2 -> stream rs s -> stream rs (body rs d1 d2 ++ s)
| st_tune rs s :                      (* tune request cancels running status *)
    stream 0 s -> stream rs ((246, [ROne 246]) :: s).
(** Realtime bytes may be inserted anywhere. *)
Inductive weave : list (Z * list report) -> list (Z * list report) -> Prop :=
| w_end : weave [] []
| w_keep x s t : weave s t -> weave (x :: s) (x :: t)
| w_rt b s t : realtime b -> weave s t -> weave s ((b, [ROne b]) :: t).

(** ** Messages a program builds *)
Definition msg_valid (m : message) : Prop :=
  (exists k, 8 <= k <= 14 /\ m_type m = 16 * k /\ 0 <= m_b0 m < 16 /\ 0 <= m_b1 m < 256 /\ 0 <= m_b2 m < 256 /\
     (k = 13 -> m_b2 m < 128))
  \/ (241 <= m_type m <= 243 /\ 0 <= m_b0 m < 256 /\ 0 <= m_b1 m < 256 /\ 0 <= m_b2 m < 256).
Definition w_valid (o : w_op) : Prop :=
  match o with
  | WMessage m => msg_valid m \/ m_type m = 246 \/ realtime (m_type m)
  | WType t => realtime t
  end.
(** What the receiver should report for one write. *)
Definition w_seen (o : w_op) : report :=
  match o with
  | WMessage m => if 246 <=? m_type m then ROne (m_type m) else RMsg (get_status m) (get_data1 m) (get_data2 m)
  | WType t => ROne t
  end.

(** ** Where a reported message comes from in the bytes read so far *)
Definition comes_from (bytes : list Z) (r : report) : Prop :=
  match r with
  | RMsg st d1 d2 =>
      has_data st /\ data_byte d1 /\ data_byte d2 /\
      if data_count st =? 1
      then d2 = 0 /\ exists p q, bytes = p ++ st :: q ++ [d1]
      else exists p q i, bytes = p ++ st :: q ++ d1 :: i ++ [d2] /\ Forall (fun b => 128 <= b) i
  | ROne b => exists p, bytes = p ++ [b] /\ (realtime b \/ b = 246)
  | RSysEx => exists p, bytes = p ++ [240]
  end.
