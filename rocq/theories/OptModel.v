(** AVR/UsartOutputStream.h and AVR/UsartInputStream.h a third time: as an optimising compiler may build them.
    The members of RingBuffer.h 112-114 are not volatile.  So a compiler may keep the cursors in registers during a
    call, load each of the other side's once, and store the own one once, already wrapped around; and it may order
    these stores, the access to the item and the access to the control register as it likes.  (Source order with every
    access made as written is StreamModel.v and TearModel.v.)
    With [whole] a pointer is loaded and stored at once; else byte by byte, loads with [lf] low byte first, stores in
    any order.  [B] is the address of [_buffer]; cursors are offsets from it. *)
Require Import ZArith List Bool.
Import ListNotations.
From Verif Require Import Base RingModel TearModel.
Open Scope Z_scope.

(** What one store leaves of the cursor [p] when [n] is stored. *)
Definition lo_stored (B p n : Z) : Z := glue ((B + n) mod 256) ((B + p) / 256) - B.
Definition hi_stored (B p n : Z) : Z := glue ((B + p) mod 256) ((B + n) / 256) - B.

(** ** Transmit: UsartOutputStream.h 64-68 with RingBuffer.h 61-79.  After the check of 64-68: line 70, lines 71-76 at
    once or in two bytes, UsartOutputStream.h 67. *)
Inductive wstep := WItem | WAll | WLo | WHi | WOn.
Definition wsteps (whole : bool) : list wstep := if whole then [WItem; WAll; WOn] else [WItem; WLo; WHi; WOn].
Inductive opc :=
| OIdle
| OLoad (v : Z)                                       (* about to load _readPtr, or its first byte *)
| OLoad2 (v : Z) (b : Z)                              (* about to load the second byte *)
| ORun (v : Z) (ok : bool) (w : Z) (todo : list wstep). (* [w]: _writePtr in a register *)
Record otx := mkO { o_ring : ring Z; o_ien : bool; o_pc : opc; o_sent : list Z; o_done : list (Z * bool) }.
Inductive oev := OStart (v : Z) | OStep | OIsr.

Section Tx.
Variables (whole lf : bool) (order : list wstep) (B Size : Z).
Definition o_next (w : Z) : Z := if w + 1 >=? Size then 0 else w + 1.
Definition o_isr (s : otx) : option otx :=
  if o_ien s then
    if negb (ring_length Size (o_ring s) =? 0) then
      match ring_read Size (o_ring s) with
      | Some (r, v) => Some (mkO r (o_ien s) (o_pc s) (o_sent s ++ [u8 v]) (o_done s))
      | None => None
      end
    else Some (mkO (o_ring s) false (o_pc s) (o_sent s) (o_done s))
  else Some s.
Definition o_check (s : otx) (v rd : Z) : otx :=
  let w := rb_wr (o_ring s) in
  let full := if w + 1 >=? Size then 0 =? rd else w + 1 =? rd in
  mkO (o_ring s) (o_ien s) (if full then ORun v false w [WOn] else ORun v true w order) (o_sent s) (o_done s).
Definition o_main (s : otx) : option otx :=
  let r := o_ring s in
  let next r ien pc := Some (mkO r ien pc (o_sent s) (o_done s)) in
  match o_pc s with
  | OIdle => Some s
  | OLoad v => if whole then Some (o_check s v (rb_rd r)) else next r (o_ien s) (OLoad2 v (byte1 lf (B + rb_rd r)))
  | OLoad2 v b => Some (o_check s v (join lf b (B + rb_rd r) - B))
  | ORun v ok w [] => Some (mkO r (o_ien s) OIdle (o_sent s) (o_done s ++ [(v, ok)]))
  | ORun v ok w (a :: todo) =>
      let pc := ORun v ok w todo in
      match a with
      | WItem => if inb w Size then next (mkRing (upd (rb_mem r) w v) (rb_wr r) (rb_rd r)) (o_ien s) pc else None
      | WAll => next (set_wr r (o_next w)) (o_ien s) pc
      | WLo => next (set_wr r (lo_stored B (rb_wr r) (o_next w))) (o_ien s) pc
      | WHi => next (set_wr r (hi_stored B (rb_wr r) (o_next w))) (o_ien s) pc
      | WOn => next r true pc
      end
  end.
Definition o_step (s : otx) (e : oev) : option otx :=
  match e with
  | OStart v => match o_pc s with OIdle => Some (mkO (o_ring s) (o_ien s) (OLoad (u8 v)) (o_sent s) (o_done s)) | _ => Some s end
  | OStep => o_main s
  | OIsr => o_isr s
  end.
Fixpoint o_run (s : otx) (evs : list oev) : option otx :=
  match evs with
  | [] => Some s
  | e :: rest => match o_step s e with Some s' => o_run s' rest | None => None end
  end.
Definition o_init (m : Z -> Z) : otx := mkO (mkRing m 0 0) false OIdle [] [].
End Tx.

(** ** Receive: UsartInputStream.h 67-76 with RingBuffer.h 101-109 and 85-96.  With [once] getLength loads _writePtr
    once, else once for the comparison and once for the difference.  Then line 87, and lines 88-93 at once or in two
    bytes. *)
Inductive rstep := RItem | RAll | RLo | RHi.
Definition rsteps (whole : bool) : list rstep := if whole then [RItem; RAll] else [RItem; RLo; RHi].
Inductive qpc :=
| QIdle
| QLoad (ge : option bool)               (* about to load _writePtr, or its first byte; [ge]: the comparison made before *)
| QLoad2 (ge : option bool) (b : Z)
| QRun (d x : Z) (todo : list rstep)     (* [d]: _readPtr, [x]: the item, in registers *)
| QOn.
Record orx := mkQ { q_ring : ring Z; q_ien : bool; q_pc : qpc; q_got : list Z; q_acc : list Z }.
Inductive qev := QStart | QStep | QIsr (data : Z) (ok : bool).

Section Rx.
Variables (whole lf once : bool) (order : list rstep) (B Size : Z).
Definition q_isr (s : orx) (data : Z) (ok : bool) : option orx :=
  if q_ien s && ok then
    match ring_write Size (q_ring s) (u8 data) with
    | Some (r, b) => Some (mkQ r (q_ien s) (q_pc s) (q_got s) (if b then q_acc s ++ [u8 data] else q_acc s))
    | None => None
    end
  else Some s.
Definition q_loaded (ge : option bool) (w rd : Z) : qpc :=
  let decide ge := if sub_len Size ge w rd >? 0 then QRun rd 0 order else QOn in
  match ge with
  | Some ge => decide ge
  | None => if once then decide (w >=? rd) else QLoad (Some (w >=? rd))
  end.
Definition q_main (s : orx) : option orx :=
  let r := q_ring s in
  let next r pc := Some (mkQ r (q_ien s) pc (q_got s) (q_acc s)) in
  match q_pc s with
  | QIdle => Some s
  | QLoad ge => if whole then next r (q_loaded ge (rb_wr r) (rb_rd r)) else next r (QLoad2 ge (byte1 lf (B + rb_wr r)))
  | QLoad2 ge b => next r (q_loaded ge (join lf b (B + rb_wr r) - B) (rb_rd r))
  | QRun d x [] => Some (mkQ r (q_ien s) QIdle (q_got s ++ [s16 x]) (q_acc s))
  | QRun d x (a :: todo) =>
      match a with
      | RItem => if inb d Size then next r (QRun d (rb_mem r d) todo) else None
      | RAll => next (set_rd r (o_next Size d)) (QRun d x todo)
      | RLo => next (set_rd r (lo_stored B (rb_rd r) (o_next Size d))) (QRun d x todo)
      | RHi => next (set_rd r (hi_stored B (rb_rd r) (o_next Size d))) (QRun d x todo)
      end
  | QOn => Some (mkQ r true QIdle (q_got s ++ [-1]) (q_acc s))
  end.
Definition q_step (s : orx) (e : qev) : option orx :=
  match e with
  | QStart => match q_pc s with QIdle => Some (mkQ (q_ring s) (q_ien s) (QLoad None) (q_got s) (q_acc s)) | _ => Some s end
  | QStep => q_main s
  | QIsr d ok => q_isr s d ok
  end.
Fixpoint q_run (s : orx) (evs : list qev) : option orx :=
  match evs with
  | [] => Some s
  | e :: rest => match q_step s e with Some s' => q_run s' rest | None => None end
  end.
Definition q_init (m : Z -> Z) : orx := mkQ (mkRing m 0 0) false QIdle [] [].
End Rx.
