(** AVR/Port.h, AVR/DigitalInputPin.h, AVR/DigitalOutputPin.h, AVR/PowerReduction.h, AVR/Interrupt.h,
    AVR/UsartConfig.h, AVR/UsartRegisters.h, AVR/Usart.h, AVR/UsartTransmit.h, AVR/UsartReceive.h:
    translated code.  The registers are a memory of bytes by data address; the bit numbers and
    addresses are those of the ATmega1284P (and of all its relatives for the USART). *)
Require Import ZArith List Bool.
Import ListNotations.
From Verif Require Import Base.
Open Scope Z_scope.

Definition regs := Z -> Z.
(** r |= mask, r &= ~mask on a uint8_t register, mask with one bit; Bit<i>::Set(r, v) (Bit.h 54-67)
    clears and then sets; Bit<i>::IsTrue (94-98). *)
Definition r_or (r i : Z) : Z := u8 (Z.lor r (2 ^ i)).
Definition r_clr (r i : Z) : Z := u8 (Z.land r (Z.lnot (2 ^ i))).
Definition r_put (r i : Z) (v : bool) : Z := if v then r_or (r_clr r i) i else r_clr r i.
Definition r_is (r i : Z) : bool := Z.land r (2 ^ i) >? 0.
(** Where the code chooses between |= and &= ~. *)
Definition r_choose (r i : Z) (v : bool) : Z := if v then r_or r i else r_clr r i.

(** ** Addresses: Port.h 134-147 (_SFR_IO8 adds 0x20), PRR0, PCICR, PCMSK0, TIMSK0 (Interrupt.h
    64-73, 89), UsartRegisters.h 55-90. *)
Definition a_in (p : Z) : Z := 32 + (p * 3).
Definition a_dir (p : Z) : Z := 32 + (p * 3 + 1).
Definition a_out (p : Z) : Z := 32 + (p * 3 + 2).
Definition a_prr : Z := 100.
Definition a_pcicr : Z := 104.
Definition a_pcmsk (p : Z) : Z := 107 + p.
Definition a_timsk (t : Z) : Z := 110 + t.
Definition a_ucsra (id : Z) : Z := 192 + id * 8.
Definition a_ucsrb (id : Z) : Z := 193 + id * 8.
Definition a_ucsrc (id : Z) : Z := 194 + id * 8.
Definition a_ubrr (id : Z) : Z := 196 + id * 8.
Definition a_udr (id : Z) : Z := 198 + id * 8.

(** ** Configuration of a USART (UsartConfig.h) *)
Inductive parity := POff | PEven | POdd.
(** 343-347; data bits are 0 (Bits5) to 4 (Bits9). *)
Record ucfg := mkCfg { c_div : Z; c_ubrr : Z; c_bits : Z; c_par : parity; c_two : bool }.
(** 114-117. *)
Definition cfg_new : ucfg := mkCfg 0 0 3 POff false.

Section Baud.
Variable F : Z.   (* F_CPU, a positive long *)
(** 351-354: undefined for baud rate 0. *)
Definition calc_ubrr (d b : Z) : option Z := if b =? 0 then None else Some (s16 (F / (d * b) - 1)).
(** 357-360. *)
Definition calc_rate (d u : Z) : Z := s16 (F / (d * (u + 1))).
(** 362-365. *)
Definition valid_ubrr (u : Z) : bool := (u <? 4096) && (u >=? 0).
(** Math.h 38-41 at int16_t; negating -32768 overflows. *)
Definition abs16 (x : Z) : option Z := if x >=? 0 then Some x else if x =? -32768 then None else Some (- x).
(** 125-165, 367-371. *)
Definition init_async (c : ucfg) (b : Z) : option (ucfg * bool) :=
  let set d u := mkCfg d u (c_bits c) (c_par c) (c_two c) in
  match calc_ubrr 8 b, calc_ubrr 16 b with
  | Some u8, Some u16 =>
      if negb (valid_ubrr u8) || negb (valid_ubrr u16) then
        if valid_ubrr u16 then Some (set 16 u16, true)
        else if valid_ubrr u8 then Some (set 8 u8, true)
        else Some (set 0 0, false)
      else
        match abs16 (s16 (b - calc_rate 8 u8)), abs16 (s16 (b - calc_rate 16 u16)) with
        | Some d8, Some d16 => if d16 >? d8 then Some (set 8 u8, true) else Some (set 16 u16, true)
        | _, _ => None
        end
  | _, _ => None
  end.
(** 178-182: the result is a uint16_t. *)
Definition get_rate (c : ucfg) : Z :=
  if (c_ubrr c =? 0) || (c_div c =? 0) then 0 else Base.u16 (calc_rate (c_div c) (c_ubrr c)).
End Baud.
Inductive umode := MInvalid | MAsync | MDouble | MMaster | MSlave.
(** 188-205. *)
Definition get_mode (c : ucfg) : umode :=
  if c_div c =? 16 then MAsync else if c_div c =? 8 then MDouble
  else if c_div c =? 2 then MMaster else if c_div c =? 0 then MSlave else MInvalid.
(** 268-339: U2X0 = 1; UCSZ02 = 2; UMSEL00 = 6, UPM01 = 5, UPM00 = 4, USBS0 = 3, UCSZ00 = 1. *)
Definition get_ucsra (c : ucfg) : Z := if c_div c =? 8 then r_or 0 1 else 0.
Definition get_ucsrb (c : ucfg) : Z := if c_bits c =? 4 then r_or 0 2 else 0.
Definition get_ucsrc (c : ucfg) : Z :=
  let r := if c_div c <? 8 then r_or 0 6 else 0 in
  let r := match c_par c with
           | POff => r
           | PEven => r_or (r_or r 4) 5
           | POdd => r_or r 5
           end in
  let r := if c_two c then r_or r 3 else r in
  if c_bits c <? 4 then u8 (Z.lor r (Z.shiftl (c_bits c) 1)) else r_or r 1.

(** ** Calls that set bits in registers *)
Inductive rop :=
| PortDir (p pin : Z) (out : bool)          (* Port.h 97-103 *)
| PortDirs (p v : Z)                        (* 110-113 *)
| PortWrite (p pin : Z) (v : bool)          (* 115-121 *)
| Pullup (p pin : Z) (enable : bool)        (* 84-95 *)
| UsartPower (id : Z) (on : bool)           (* PowerReduction.h 49-73, PRUSART0 = 1, PRUSART1 = 4 *)
| PinChange (p flags : Z)                   (* Interrupt.h 60-80 *)
| TimerOvf (t : Z) (v : bool)               (* 84-96 *)
| TimerA (t : Z) (v : bool)                 (* 100-112 *)
| TimerB (t : Z) (v : bool)                 (* 116-128 *)
| TxEnable (id : Z) (v : bool)              (* UsartTransmit.h 52-55, TXEN0 = 3 *)
| TxcInt (id : Z) (v : bool)                (* 105-108, TXCIE0 = 6 *)
| UdreInt (id : Z) (v : bool)               (* 122-125, UDRIE0 = 5 *)
| RxEnable (id : Z) (v : bool)              (* UsartReceive.h 59-62, RXEN0 = 4 *)
| RxcInt (id : Z) (v : bool)                (* 76-79, RXCIE0 = 7 *)
| Open (id : Z) (c : ucfg)                  (* Usart.h 64-81 *)
| Close (id : Z).                           (* 87-92, UsartReceive.h 182-186, UsartTransmit.h 184-189 *)
Definition prusart (id : Z) : Z := if id =? 0 then 1 else 4.
Definition at_reg (m : regs) (a : Z) (f : Z -> Z) : regs := upd m a (f (m a)).
Definition power (id : Z) (on : bool) (m : regs) : regs := at_reg m a_prr (fun r => r_choose r (prusart id) (negb on)).
Definition put_bit (a i : Z) (v : bool) (m : regs) : regs := at_reg m a (fun r => r_put r i v).
Definition rstep (m : regs) (o : rop) : regs * bool :=
  match o with
  | PortDir p pin out => (at_reg m (a_dir p) (fun r => r_choose r pin out), true)
  | PortDirs p v => (upd m (a_dir p) v, true)
  | PortWrite p pin v => (at_reg m (a_out p) (fun r => r_choose r pin v), true)
  | Pullup p pin _ =>
      if Z.land (m (a_dir p)) (2 ^ pin) =? 0 then (at_reg m (a_out p) (fun r => r_or r pin), true) else (m, false)
  | UsartPower id on => (power id on m, true)
  | PinChange p flags =>
      if flags =? 0 then (at_reg m a_pcicr (fun r => r_clr r p), true)
      else let m := at_reg m a_pcicr (fun r => r_or r p) in
           (if p <? 3 then upd m (a_pcmsk p) flags else m, true)
  | TimerOvf t v => (at_reg m (a_timsk t) (fun r => r_choose r 0 v), true)
  | TimerA t v => (at_reg m (a_timsk t) (fun r => r_choose r 1 v), true)
  | TimerB t v => (at_reg m (a_timsk t) (fun r => r_choose r 2 v), true)
  | TxEnable id v => (put_bit (a_ucsrb id) 3 v m, true)
  | TxcInt id v => (put_bit (a_ucsrb id) 6 v m, true)
  | UdreInt id v => (put_bit (a_ucsrb id) 5 v m, true)
  | RxEnable id v => (put_bit (a_ucsrb id) 4 v m, true)
  | RxcInt id v => (put_bit (a_ucsrb id) 7 v m, true)
  | Open id c =>
      match get_mode c with
      | MAsync | MDouble =>
          let m := power id true m in
          let m := upd (upd m (a_ubrr id) (u8 (c_ubrr c))) (a_ubrr id + 1) (u8 (c_ubrr c / 256)) in
          let m := upd m (a_ucsra id) (get_ucsra c) in
          let m := upd m (a_ucsrb id) (get_ucsrb c) in
          (upd m (a_ucsrc id) (get_ucsrc c), true)
      | _ => (m, false)
      end
  | Close id =>
      (power id false (put_bit (a_ucsrb id) 3 false (put_bit (a_ucsrb id) 5 false (put_bit (a_ucsrb id) 6 false
        (put_bit (a_ucsrb id) 4 false (put_bit (a_ucsrb id) 7 false m))))), true)
  end.
Fixpoint rrun (m : regs) (os : list rop) : regs * list bool :=
  match os with
  | [] => (m, [])
  | o :: r => let (m, h) := rstep m o in let (m, hs) := rrun m r in (m, h :: hs)
  end.
(** Port.h 105-108 [SetDirection] with eight arguments, io7 first: the value stored. *)
Fixpoint dirs_value (io : list bool) (k : Z) : Z :=
  match io with
  | [] => 0
  | b :: r => Z.lor (Z.shiftl (Z.b2z b) k) (dirs_value r (k - 1))
  end.
(** DigitalInputPin.h 41-44, DigitalOutputPin.h 43-46 and 51-55: constructors. *)
Definition input_pin (p pin : Z) : list rop := [PortDir p pin false].
Definition output_pin (p pin : Z) (v : option bool) : list rop :=
  PortDir p pin true :: match v with Some v => [PortWrite p pin v] | None => [] end.
(** Port.h 123-126; PowerReduction.h 75-85: the bit number is taken for a mask. *)
Definition port_read (m : regs) (p pin : Z) : bool := Z.land (m (a_in p)) (2 ^ pin) >? 0.
Definition usart_powered (m : regs) (id : Z) : bool := Z.land (m a_prr) (prusart id) =? 0.

(** ** Data: UsartTransmit.h 196-204 [WriteInternal], TXB80 = 0; UCSZ02 = 2. *)
Definition nine (b : Z) : bool := r_is b 2.
Definition write_internal (ucsrb data : Z) : Z * Z :=
  (if nine ucsrb then r_put ucsrb 0 (Z.land data 256 >? 0) else ucsrb, u8 (Z.land data 255)).
(** UsartReceive.h 210-224 [ReadInternal], RXB80 = 1. *)
Definition read_internal (ucsrb udr : Z) : Z :=
  s16 (Z.lor (if nine ucsrb then if r_is ucsrb 1 then 256 else 0 else 0) udr).
Inductive rxres := RSuccess | RNotReady | ROverrun | RFrame | RParity.
(** 192-204 [getResult]: FE0 = 4, UPE0 = 2, DOR0 = 3; 164-169 [getHasError]; RXC0 = 7. *)
Definition rx_result (ucsra : Z) : rxres :=
  if r_is ucsra 4 then RFrame else if r_is ucsra 2 then RParity else if r_is ucsra 3 then ROverrun else RSuccess.
Definition rx_error (ucsra : Z) : bool := Z.land ucsra (Z.lor (2 ^ 4) (2 ^ 2)) >? 0.

(** The receiver's FIFO, a queue of (UCSRA, UCSRB, UDR) for the characters received; RXC is set while it
    is not empty.  Reading UDR removes the first one; from an empty one it reads anything. *)
Definition rx := list (Z * Z * Z).
(** 145-157 [TryRead]: answer, data, result. *)
Definition try_read (q : rx) : rx * (bool * Z * rxres) :=
  match q with
  | [] => ([], (false, 0, RNotReady))
  | (a, b, d) :: r => (r, (true, u16 (read_internal b d), rx_result a))
  end.
(** 119-126 [Read] once a character is there. *)
Definition read1 (q : rx) : option (rx * Z) :=
  match q with
  | [] => None
  | (a, b, d) :: r => Some (r, match rx_result a with RSuccess => read_internal b d | _ => -1 end)
  end.
(** 107-114 [Flush]; [arrive k] is what has come in when the flag is tested the k-th time. *)
Fixpoint flush (q : rx) (arrive : nat -> rx) (k fuel : nat) : option rx :=
  match fuel with
  | O => None
  | S f => let q := q ++ arrive k in
           match q with [] => flush [] arrive (S k) f | _ => Some q end
  end.
