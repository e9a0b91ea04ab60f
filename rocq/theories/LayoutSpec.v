(** What the layout of a MIDI message must satisfy, and what a program does with one. *)
Require Import ZArith List Bool.
Import ListNotations.
From Verif Require Import Base MidiModel MidiSpec LayoutModel.
Open Scope Z_scope.

(** The enum has at least a byte and an int at least two, the outer union comes after the enum, the inner one after
    Channel, and all lie within the object. *)
Definition layout_ok (L : layout) : Prop :=
  1 <= l_enum L <= l_un L /\ 1 <= l_in L /\ 2 <= l_int L /\ l_un L + l_in L + l_int L <= l_size L.

(** What a report is made of. *)
Definition lseen (L : layout) (n : lnote) : report :=
  match n with
  | LMessage f => RMsg (lget_status L f) (lget_data1 L f) (lget_data2 L f)
  | LRealtime b => ROne b
  | LSysEx => RSysEx
  end.

(** A message built with the three setters in an object that held [f]. *)
Definition lbuild (L : layout) (f : mem) (st d1 d2 : Z) : mem :=
  let f := lset_data1 L (lset_status L f st) d1 in
  if data_count st =? 2 then lset_data2 L f d2 else f.

(** Two objects that agree in every member, though not in the padding. *)
Definition same_members (L : layout) (f g : mem) : Prop :=
  ld_type L f = ld_type L g /\ ld_channel L f = ld_channel L g /\ ld_note L f = ld_note L g /\
  ld_velocity L f = ld_velocity L g /\ ld_bend L f = ld_bend L g /\ ld_beats L f = ld_beats L g /\
  ld_song L f = ld_song L g.
