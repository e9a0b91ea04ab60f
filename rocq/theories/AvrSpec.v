(** Specifications for the AVR register classes. *)
Require Import ZArith List Bool.
Import ListNotations.
From Verif Require Import Base AvrModel.
Open Scope Z_scope.

(** ** Baud rates *)
(** Register value [u] with divider [d] gives the smallest rate that is not below [b]. *)
Definition fits (F d b u : Z) : Prop := 0 <= u <= 4095 /\ d * b * (u + 1) <= F < d * b * (u + 2).
(** The rate the hardware makes (rounded down) and its distance from the rate asked for. *)
Definition hw_rate (F d u : Z) : Z := F / (d * (u + 1)).
Definition dev (F d b u : Z) : Z := Z.abs (b - hw_rate F d u).

(** ** Registers as bits: address, bit number *)
Definition rbits := Z -> Z -> bool.
Definition set1 (s : rbits) (a i : Z) (v : bool) : rbits := fun a' i' => if (a' =? a) && (i' =? i) then v else s a' i'.
Definition setall (s : rbits) (a : Z) (f : Z -> bool) : rbits := fun a' i' => if a' =? a then f i' else s a' i'.
Definition ucsrc_bits (c : ucfg) (i : Z) : bool :=
  if i =? 5 then match c_par c with POff => false | _ => true end
  else if i =? 4 then match c_par c with PEven => true | _ => false end
  else if i =? 3 then c_two c
  else if i =? 2 then (c_bits c =? 2) || (c_bits c =? 3)
  else if i =? 1 then (c_bits c =? 1) || (c_bits c =? 3) || (c_bits c =? 4)
  else false.
Definition bstep (s : rbits) (o : rop) : rbits * bool :=
  match o with
  | PortDir p pin out => (set1 s (a_dir p) pin out, true)
  | PortDirs p v => (setall s (a_dir p) (Z.testbit v), true)
  | PortWrite p pin v => (set1 s (a_out p) pin v, true)
  | Pullup p pin _ => if s (a_dir p) pin then (s, false) else (set1 s (a_out p) pin true, true)
  | UsartPower id on => (set1 s a_prr (prusart id) (negb on), true)
  | PinChange p flags =>
      if flags =? 0 then (set1 s a_pcicr p false, true)
      else (if p <? 3 then setall (set1 s a_pcicr p true) (a_pcmsk p) (Z.testbit flags) else set1 s a_pcicr p true, true)
  | TimerOvf t v => (set1 s (a_timsk t) 0 v, true)
  | TimerA t v => (set1 s (a_timsk t) 1 v, true)
  | TimerB t v => (set1 s (a_timsk t) 2 v, true)
  | TxEnable id v => (set1 s (a_ucsrb id) 3 v, true)
  | TxcInt id v => (set1 s (a_ucsrb id) 6 v, true)
  | UdreInt id v => (set1 s (a_ucsrb id) 5 v, true)
  | RxEnable id v => (set1 s (a_ucsrb id) 4 v, true)
  | RxcInt id v => (set1 s (a_ucsrb id) 7 v, true)
  | Open id c =>
      if (c_div c =? 8) || (c_div c =? 16) then
        let s := set1 s a_prr (prusart id) false in
        let s := setall (setall s (a_ubrr id) (Z.testbit (c_ubrr c))) (a_ubrr id + 1) (fun i => Z.testbit (c_ubrr c) (i + 8)) in
        let s := setall s (a_ucsra id) (fun i => (i =? 1) && (c_div c =? 8)) in
        let s := setall s (a_ucsrb id) (fun i => (i =? 2) && (c_bits c =? 4)) in
        (setall s (a_ucsrc id) (ucsrc_bits c), true)
      else (s, false)
  | Close id =>
      (set1 (setall s (a_ucsrb id) (fun i => if i <? 3 then s (a_ucsrb id) i else false)) a_prr (prusart id) true, true)
  end.
Fixpoint brun (s : rbits) (os : list rop) : rbits * list bool :=
  match os with
  | [] => (s, [])
  | o :: r => let (s, h) := bstep s o in let (s, hs) := brun s r in (s, h :: hs)
  end.
Definition byte (x : Z) : Prop := 0 <= x < 256.
Definition cfg_ok (c : ucfg) : Prop := 0 <= c_ubrr c < 65536 /\ 0 <= c_bits c <= 4.
Definition rop_ok (o : rop) : Prop :=
  match o with
  | PortDir _ pin _ | PortWrite _ pin _ | Pullup _ pin _ => 0 <= pin < 8
  | PortDirs _ v => byte v
  | UsartPower _ _ | TimerOvf _ _ | TimerA _ _ | TimerB _ _ | Close _ => True
  | PinChange p flags => 0 <= p < 8 /\ byte flags
  | Open _ c => cfg_ok c
  | _ => True
  end.
Definition same_regs (m : regs) (s : rbits) : Prop := forall a, byte (m a) /\ forall i, 0 <= i < 8 -> Z.testbit (m a) i = s a i.

(** ** Frame format from the registers, by the datasheet: character size, parity, two stop bits; [None]:
    reserved. *)
Definition frame (ucsrb ucsrc : Z) : option (Z * parity * bool) :=
  let size := match Z.testbit ucsrb 2, Z.testbit ucsrc 2, Z.testbit ucsrc 1 with
              | false, false, false => Some 5 | false, false, true => Some 6
              | false, true, false => Some 7 | false, true, true => Some 8
              | true, true, true => Some 9 | _, _, _ => None
              end in
  let par := match Z.testbit ucsrc 5, Z.testbit ucsrc 4 with
             | false, false => Some POff | true, false => Some PEven | true, true => Some POdd | false, true => None
             end in
  match size, par with Some n, Some p => Some (n, p, Z.testbit ucsrc 3) | _, _ => None end.
Definition swap_parity (p : parity) : parity := match p with POff => POff | PEven => POdd | POdd => PEven end.

(** ** Data.  What the other side's receiver shows of a character sent: RXB8 and UDR. *)
Definition received (ucsra ucsrb_other : Z) (sent : Z * Z) : Z * Z * Z :=
  (ucsra, r_put ucsrb_other 1 (Z.testbit (fst sent) 0), snd sent).
Definition data_mask (nine_bits : bool) (data : Z) : Z := if nine_bits then data mod 512 else data mod 256.
(** The character in UDR and, with 9 data bits (UCSZ02), RXB80. *)
Definition char_of (ucsrb udr : Z) : Z := udr + (if Z.testbit ucsrb 2 && Z.testbit ucsrb 1 then 256 else 0).
Fixpoint drain (q : rx) (fuel : nat) : list Z :=
  match fuel with O => [] | S f => match read1 q with Some (q, d) => d :: drain q f | None => [] end end.

(** ** What the registers of a USART say *)
Definition hw_powered (m : regs) (id : Z) : bool := negb (Z.testbit (m a_prr) (prusart id)).
Definition hw_divider (m : regs) (id : Z) : Z := if Z.testbit (m (a_ucsra id)) 1 then 8 else 16.
Definition hw_ubrr (m : regs) (id : Z) : Z := m (a_ubrr id) + 256 * m (a_ubrr id + 1).
Definition hw_frame (m : regs) (id : Z) : option (Z * parity * bool) := frame (m (a_ucsrb id)) (m (a_ucsrc id)).
Definition hw_enables (m : regs) (id : Z) : list bool := map (Z.testbit (m (a_ucsrb id))) [3; 4; 5; 6; 7].
(** What a pin drives: [None] when it is an input. *)
Definition drives (m : regs) (p pin : Z) : option bool :=
  if Z.testbit (m (a_dir p)) pin then Some (Z.testbit (m (a_out p)) pin) else None.
Definition bits_of (m : regs) : rbits := fun a => Z.testbit (m a).

(** ** Register addresses of the ATmega1284P by its datasheet: PINx, DDRx, PORTx of ports A to D. *)
Definition ds_ports : list (Z * Z * Z) := [(32, 33, 34); (35, 36, 37); (38, 39, 40); (41, 42, 43)].
(** PCMSK0 to PCMSK2, TIMSK0 to TIMSK3. *)
Definition ds_pcmsk : list Z := [107; 108; 109].
Definition ds_timsk : list Z := [110; 111; 112; 113].
(** UCSRnA, UCSRnB, UCSRnC, UBRRnL, UDRn. *)
Definition ds_usart : list (list Z) := [[192; 193; 194; 196; 198]; [200; 201; 202; 204; 206]].

