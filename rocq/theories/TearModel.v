(** AVR/UsartOutputStream.h and AVR/UsartInputStream.h once more, one byte at a time.
    On AVR the cursors of RingBuffer.h 113-114 are 16-bit addresses and the machine loads and
    stores one byte per instruction; the members are neither volatile nor protected, so the
    handler may run between the two halves of an access.  StreamModel.v treats an access to a
    cursor as one step; here each access of the main loop to a cursor that the handler shares is
    two steps.  The handler itself runs to completion.
    [B] is the address of [_buffer]; cursors are kept as offsets from it, a torn cursor may be
    any offset, also a negative one.  [lf] tells whether loads take the low byte first, [sf]
    whether stores do: both orders are covered.
    Simplification: the compiler keeps source order; the two loads of a cursor that only the
    main loop writes are one step (nobody can change it in between). *)
Require Import ZArith List Bool.
Import ListNotations.
From Verif Require Import Base RingModel.
Open Scope Z_scope.

(** A 16-bit address from its two bytes. *)
Definition glue (lo hi : Z) : Z := 256 * hi + lo.

(** The byte loaded first, and the address after the second load; [p] is what memory holds at
    the moment of the load. *)
Definition byte1 (lf : bool) (p : Z) : Z := if lf then p mod 256 else p / 256.
Definition join (lf : bool) (b p : Z) : Z := if lf then glue b (p / 256) else glue (p mod 256) b.

(** What memory holds after the first byte of [new] has been stored over [old]. *)
Definition half (sf : bool) (old new : Z) : Z :=
  if sf then glue (new mod 256) (old / 256) else glue (old mod 256) (new / 256).

(** ** Transmit *)

(** Where the main loop is inside UsartOutputStream::Write (AVR/UsartOutputStream.h 64-68),
    with RingBuffer::Write (RingBuffer.h 61-79) inlined. *)
Inductive bpc :=
| BIdle
| BLoad (v : Z)              (* about to load the first byte of _readPtr, RingBuffer.h 66 or 68 *)
| BCheck (v : Z) (b : Z)     (* about to load the second byte and compare *)
| BStore (v : Z)             (* about to execute line 70 *)
| BInc (v : Z)               (* about to store the first byte of _writePtr, line 71 *)
| BIncMid (v : Z) (old : Z)  (* about to store the second byte; the cursor was [old] *)
| BWrap (v : Z)              (* about to execute line 73, and the first store of 75 *)
| BWrapMid (v : Z)           (* about to store the second byte, line 75 *)
| BEnable.                   (* about to execute UsartOutputStream.h 67 *)

Record btx := mkBt { bt_ring : ring Z; bt_ien : bool; bt_pc : bpc; bt_sent : list Z;
                     bt_done : list (Z * bool) }.

Inductive btev := BtStart (v : Z) | BtStep | BtIsr.

Section Tx.
Variables (lf sf : bool) (B Size : Z).

(** AVR/UsartOutputStream.h 74-86 [OnAcceptDataInterrupt]. *)
Definition bt_isr (s : btx) : option btx :=
  if bt_ien s then
    if negb (ring_length Size (bt_ring s) =? 0) then
      match ring_read Size (bt_ring s) with
      | Some (r, v) => Some (mkBt r (bt_ien s) (bt_pc s) (bt_sent s ++ [u8 v]) (bt_done s))
      | None => None
      end
    else Some (mkBt (bt_ring s) false (bt_pc s) (bt_sent s) (bt_done s))
  else Some s.

Definition set_wr (r : ring Z) (w : Z) : ring Z := mkRing (rb_mem r) w (rb_rd r).
Definition set_rd (r : ring Z) (d : Z) : ring Z := mkRing (rb_mem r) (rb_wr r) d.

(** One micro step of the main loop. *)
Definition bt_main (s : btx) : option btx :=
  let r := bt_ring s in
  let next r pc := Some (mkBt r (bt_ien s) pc (bt_sent s) (bt_done s)) in
  match bt_pc s with
  | BIdle => Some s
  | BLoad v => next r (BCheck v (byte1 lf (B + rb_rd r)))
  | BCheck v b =>
      let rd := join lf b (B + rb_rd r) - B in
      if (if rb_wr r + 1 >=? Size then 0 =? rd else rb_wr r + 1 =? rd)
      then Some (mkBt r (bt_ien s) BEnable (bt_sent s) (bt_done s ++ [(v, false)]))
      else next r (BStore v)
  | BStore v =>
      if inb (rb_wr r) Size
      then next (mkRing (upd (rb_mem r) (rb_wr r) v) (rb_wr r) (rb_rd r)) (BInc v)
      else None
  | BInc v => next (set_wr r (half sf (B + rb_wr r) (B + rb_wr r + 1) - B)) (BIncMid v (rb_wr r))
  | BIncMid v old => next (set_wr r (old + 1)) (BWrap v)
  | BWrap v =>
      if rb_wr r >=? Size
      then next (set_wr r (half sf (B + rb_wr r) B - B)) (BWrapMid v)
      else Some (mkBt r (bt_ien s) BEnable (bt_sent s) (bt_done s ++ [(v, true)]))
  | BWrapMid v => Some (mkBt (set_wr r 0) (bt_ien s) BEnable (bt_sent s) (bt_done s ++ [(v, true)]))
  | BEnable => Some (mkBt r true BIdle (bt_sent s) (bt_done s))
  end.

(** [BtStart v]: the application calls Write(v) (parameter is uint8_t); ignored while busy. *)
Definition bt_step (s : btx) (e : btev) : option btx :=
  match e with
  | BtStart v =>
      match bt_pc s with
      | BIdle => Some (mkBt (bt_ring s) (bt_ien s) (BLoad (u8 v)) (bt_sent s) (bt_done s))
      | _ => Some s
      end
  | BtStep => bt_main s
  | BtIsr => bt_isr s
  end.

Fixpoint bt_run (s : btx) (evs : list btev) : option btx :=
  match evs with
  | [] => Some s
  | e :: rest => match bt_step s e with Some s' => bt_run s' rest | None => None end
  end.

Definition bt_init (m : Z -> Z) : btx := mkBt (mkRing m 0 0) false BIdle [] [].

(** Memory holds a write cursor that is neither the old nor the final one. *)
Definition bt_window (s : btx) : bool :=
  let w := rb_wr (bt_ring s) in
  match bt_pc s with
  | BIncMid _ old => negb (w =? old) && negb ((w =? old + 1) && (w <? Size))
  | BWrap _ => w >=? Size
  | BWrapMid _ => negb (w =? 0)
  | _ => false
  end.

(** Does the schedule run the handler at most once inside each such window?
    [seen]: the handler already ran in the current window. *)
Fixpoint bt_polite (s : btx) (seen : bool) (evs : list btev) : bool :=
  match evs with
  | [] => true
  | e :: rest =>
      let isr := match e with BtIsr => bt_ien s | _ => false end in
      if bt_window s && isr && seen then false
      else match bt_step s e with
           | None => true
           | Some s' => bt_polite s' (bt_window s' && bt_window s && (seen || isr)) rest
           end
  end.
End Tx.

(** ** Receive *)

(** Where the main loop is inside UsartInputStream::Read (AVR/UsartInputStream.h 67-76), with
    RingBuffer::getLength (101-109) and Read (85-96) inlined. *)
Inductive cpc :=
| CIdle
| CCmp                       (* about to load the first byte of _writePtr, RingBuffer.h 103 *)
| CCmp2 (b : Z)              (* about to load the second byte and compare *)
| CSub (ge : bool)           (* about to load the first byte of _writePtr, line 105 or 108 *)
| CSub2 (ge : bool) (b : Z)  (* about to load the second byte; then UsartInputStream.h 69 *)
| CLoad                      (* about to execute RingBuffer.h 87 *)
| CInc (v : Z)               (* about to store the first byte of _readPtr, line 88 *)
| CIncMid (v : Z) (old : Z)  (* about to store the second byte; the cursor was [old] *)
| CWrap (v : Z)              (* about to execute line 90, and the first store of 92 *)
| CWrapMid (v : Z)           (* about to store the second byte, line 92 *)
| CEnable.                   (* about to execute UsartInputStream.h 74-75 *)

Record brx := mkBr { br_ring : ring Z; br_ien : bool; br_pc : cpc; br_got : list Z;
                     br_acc : list Z }.

Inductive brev := BrStart | BrStep | BrIsr (data : Z) (ok : bool).

Section Rx.
Variables (lf sf : bool) (B Size : Z).

(** AVR/UsartInputStream.h 81-88 [OnIsCompleteInterrupt]; T = uint8_t. *)
Definition br_isr (s : brx) (data : Z) (ok : bool) : option brx :=
  if br_ien s && ok then
    match ring_write Size (br_ring s) (u8 data) with
    | Some (r, b) => Some (mkBr r (br_ien s) (br_pc s) (br_got s)
                               (if b then br_acc s ++ [u8 data] else br_acc s))
    | None => None
    end
  else Some s.

(** Lines 105 and 108 of RingBuffer.h. *)
Definition sub_len (ge : bool) (w rd : Z) : Z :=
  if ge then u16 (w - rd) else u16 (Size - (rd - w)).

Definition br_main (s : brx) : option brx :=
  let r := br_ring s in
  let next r pc := Some (mkBr r (br_ien s) pc (br_got s) (br_acc s)) in
  match br_pc s with
  | CIdle => Some s
  | CCmp => next r (CCmp2 (byte1 lf (B + rb_wr r)))
  | CCmp2 b => next r (CSub (join lf b (B + rb_wr r) - B >=? rb_rd r))
  | CSub ge => next r (CSub2 ge (byte1 lf (B + rb_wr r)))
  | CSub2 ge b =>
      next r (if sub_len ge (join lf b (B + rb_wr r) - B) (rb_rd r) >? 0 then CLoad else CEnable)
  | CLoad =>
      if inb (rb_rd r) Size then next r (CInc (rb_mem r (rb_rd r))) else None
  | CInc v => next (set_rd r (half sf (B + rb_rd r) (B + rb_rd r + 1) - B)) (CIncMid v (rb_rd r))
  | CIncMid v old => next (set_rd r (old + 1)) (CWrap v)
  | CWrap v =>
      if rb_rd r >=? Size
      then next (set_rd r (half sf (B + rb_rd r) B - B)) (CWrapMid v)
      else Some (mkBr r (br_ien s) CIdle (br_got s ++ [s16 v]) (br_acc s))
  | CWrapMid v => Some (mkBr (set_rd r 0) (br_ien s) CIdle (br_got s ++ [s16 v]) (br_acc s))
  | CEnable => Some (mkBr r true CIdle (br_got s ++ [-1]) (br_acc s))
  end.

Definition br_step (s : brx) (e : brev) : option brx :=
  match e with
  | BrStart => match br_pc s with
               | CIdle => Some (mkBr (br_ring s) (br_ien s) CCmp (br_got s) (br_acc s))
               | _ => Some s
               end
  | BrStep => br_main s
  | BrIsr d ok => br_isr s d ok
  end.

Fixpoint br_run (s : brx) (evs : list brev) : option brx :=
  match evs with
  | [] => Some s
  | e :: rest => match br_step s e with Some s' => br_run s' rest | None => None end
  end.

Definition br_init (m : Z -> Z) : brx := mkBr (mkRing m 0 0) false CIdle [] [].

Definition br_window (s : brx) : bool :=
  let d := rb_rd (br_ring s) in
  match br_pc s with
  | CIncMid _ old => negb (d =? old) && negb ((d =? old + 1) && (d <? Size))
  | CWrap _ => d >=? Size
  | CWrapMid _ => negb (d =? 0)
  | _ => false
  end.

Fixpoint br_polite (s : brx) (seen : bool) (evs : list brev) : bool :=
  match evs with
  | [] => true
  | e :: rest =>
      let isr := match e with BrIsr _ ok => br_ien s && ok | _ => false end in
      if br_window s && isr && seen then false
      else match br_step s e with
           | None => true
           | Some s' => br_polite s' (br_window s' && br_window s && (seen || isr)) rest
           end
  end.
End Rx.
