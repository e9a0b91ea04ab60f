(** The calls of AvrModel.v as the processor carries them out while interrupt handlers run: AVR/Port.h,
    AVR/PowerReduction.h, AVR/Interrupt.h, AVR/Usart.h, AVR/UsartTransmit.h, AVR/UsartReceive.h, Bit.h.
    None of these calls switches interrupts off.  [r |= mask] on a volatile register is a load and a
    store, unless the compiler makes it one instruction (sbi, cbi: registers up to address 0x3F only);
    [one a] tells whether register [a] is changed by one instruction.  A handler may run between any
    two instructions of the main program; it is not interrupted itself.
    Simplification: only instructions that access registers are steps; the sixteen bits of UBRR are
    stored low byte first. *)
Require Import ZArith List Bool.
Import ListNotations.
From Verif Require Import Base AvrModel.
Open Scope Z_scope.

(** Accesses to registers, in the order of the source. *)
Inductive instr :=
| Chg (a i : Z) (v : bool)    (* register a |= bit i, or &= ~bit i *)
| Put (a x : Z)               (* register a = x *)
| IfIn (p pin : Z).           (* Port.h 88: return false unless the pin is an input *)

(** Bit.h 54-67: clears the bit, then sets it. *)
Definition set_code (a i : Z) (v : bool) : list instr := Chg a i false :: if v then [Chg a i true] else [].
(** PowerReduction.h 49-73. *)
Definition power_code (id : Z) (on : bool) : list instr := [Chg a_prr (prusart id) (negb on)].
(** What a call does, and its answer; the line numbers are those of [rop] in AvrModel.v. *)
Definition code (o : rop) : list instr * bool :=
  match o with
  | PortDir p pin out => ([Chg (a_dir p) pin out], true)
  | PortDirs p v => ([Put (a_dir p) v], true)
  | PortWrite p pin v => ([Chg (a_out p) pin v], true)
  | Pullup p pin _ => ([IfIn p pin; Chg (a_out p) pin true], true)
  | UsartPower id on => (power_code id on, true)
  | PinChange p flags =>
      (if flags =? 0 then [Chg a_pcicr p false]
       else Chg a_pcicr p true :: if p <? 3 then [Put (a_pcmsk p) flags] else [], true)
  | TimerOvf t v => ([Chg (a_timsk t) 0 v], true)
  | TimerA t v => ([Chg (a_timsk t) 1 v], true)
  | TimerB t v => ([Chg (a_timsk t) 2 v], true)
  | TxEnable id v => (set_code (a_ucsrb id) 3 v, true)
  | TxcInt id v => (set_code (a_ucsrb id) 6 v, true)
  | UdreInt id v => (set_code (a_ucsrb id) 5 v, true)
  | RxEnable id v => (set_code (a_ucsrb id) 4 v, true)
  | RxcInt id v => (set_code (a_ucsrb id) 7 v, true)
  | Open id c =>
      match get_mode c with
      | MAsync | MDouble =>
          (power_code id true ++
           [Put (a_ubrr id) (u8 (c_ubrr c)); Put (a_ubrr id + 1) (u8 (c_ubrr c / 256)); Put (a_ucsra id) (get_ucsra c);
            Put (a_ucsrb id) (get_ucsrb c); Put (a_ucsrc id) (get_ucsrc c)], true)
      | _ => ([], false)
      end
  | Close id =>
      (set_code (a_ucsrb id) 7 false ++ set_code (a_ucsrb id) 4 false ++ set_code (a_ucsrb id) 6 false ++
       set_code (a_ucsrb id) 5 false ++ set_code (a_ucsrb id) 3 false ++ power_code id false, true)
  end.

(** The main program: the registers, the call it is in (instructions left, value loaded for the first
    of them, answer), the calls left, the answers so far. *)
Record kst := mkK { k_regs : regs; k_call : option (list instr * option Z * bool); k_prog : list rop; k_ans : list bool }.
Definition k_init (m : regs) (prog : list rop) : kst := mkK m None prog [].
Inductive kev :=
| KStep                    (* the next instruction of the main program *)
| KIsr (os : list rop).    (* a handler that makes these calls *)

Section Machine.
Variable one : Z -> bool.
(** One instruction of the call. *)
Definition kexec (m : regs) (c : list instr * option Z * bool) (prog : list rop) (ans : list bool) : kst :=
  match c with
  | ([], _, h) => mkK m None prog (ans ++ [h])
  | (Chg a i v :: r, held, h) =>
      match held with
      | Some x => mkK (upd m a (r_choose x i v)) (Some (r, None, h)) prog ans
      | None => if one a then mkK (upd m a (r_choose (m a) i v)) (Some (r, None, h)) prog ans
                else mkK m (Some (Chg a i v :: r, Some (m a), h)) prog ans
      end
  | (Put a x :: r, _, h) => mkK (upd m a x) (Some (r, None, h)) prog ans
  | (IfIn p pin :: r, _, h) =>
      mkK m (Some (if Z.land (m (a_dir p)) (2 ^ pin) =? 0 then (r, None, h) else ([], None, false))) prog ans
  end.
Definition kstep (k : kst) (e : kev) : kst :=
  match e with
  | KIsr os => mkK (fst (rrun (k_regs k) os)) (k_call k) (k_prog k) (k_ans k)
  | KStep =>
      match k_call k with
      | Some c => kexec (k_regs k) c (k_prog k) (k_ans k)
      | None => match k_prog k with
                | [] => k
                | o :: r => mkK (k_regs k) (Some (fst (code o), None, snd (code o))) r (k_ans k)
                end
      end
  end.
Fixpoint krun (k : kst) (evs : list kev) : kst :=
  match evs with [] => k | e :: r => krun (kstep k e) r end.
End Machine.
