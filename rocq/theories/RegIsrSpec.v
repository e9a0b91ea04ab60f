(** Specification for register calls interrupted by handlers; the bits and [brun] are those of AvrSpec.v. *)
Require Import ZArith List Bool.
Import ListNotations.
From Verif Require Import Base AvrModel AvrSpec RegIsrModel.
Open Scope Z_scope.

(** Call [o] may change bit [i] of register [a] to [v]. *)
Definition gives (o : rop) (a i : Z) (v : bool) : Prop := exists s, fst (bstep s o) a i = v /\ s a i <> v.
(** It may change the bit; it may change the register. *)
Definition names (o : rop) (a i : Z) : Prop := exists v, gives o a i v.
Definition touches (o : rop) (a : Z) : Prop := exists i, 0 <= i < 8 /\ names o a i.

(** The calls the handlers make. *)
Fixpoint handled (evs : list kev) : list rop :=
  match evs with [] => [] | KStep :: r => handled r | KIsr os :: r => os ++ handled r end.
(** [a] only asks for the direction of pins that [b] leaves alone. *)
Definition unasked (a b : list rop) : Prop :=
  forall p pin e o, In (Pullup p pin e) a -> In o b -> ~ names o (a_dir p) pin.
(** The register that has been loaded and not yet stored. *)
Definition held (k : kst) : option Z :=
  match k_call k with Some (Chg a _ _ :: _, Some _, _) => Some a | _ => None end.
(** No handler changes a register that the main program has loaded and not yet stored. *)
Fixpoint polite (one : Z -> bool) (k : kst) (evs : list kev) : Prop :=
  match evs with
  | [] => True
  | e :: r => match e with
              | KIsr os => forall a o, held k = Some a -> In o os -> ~ touches o a
              | KStep => True
              end /\ polite one (kstep one k e) r
  end.
(** Whatever register both the main program and the handlers change is changed by one instruction. *)
Definition apart_regs (one : Z -> bool) (prog hs : list rop) : Prop :=
  forall a o h, In o prog -> In h hs -> touches o a -> touches h a -> one a = true.
Definition bytes (m : regs) : Prop := forall a, byte (m a).
(** The value of the last write to the pin among the calls of a handler, or [d]. *)
Fixpoint last_pin (p pin : Z) (os : list rop) (d : bool) : bool :=
  match os with
  | [] => d
  | PortWrite q i v :: r => last_pin p pin r (if (q =? p) && (i =? pin) then v else d)
  | _ :: r => last_pin p pin r d
  end.
(** The number of instructions of the main program that are carried out. *)
Fixpoint ksteps (evs : list kev) : nat :=
  match evs with [] => O | KStep :: r => S (ksteps r) | KIsr _ :: r => ksteps r end.
(** A handler may switch off, never on, what Close switches off. *)
Definition only_off (id : Z) (o : rop) : Prop :=
  (forall i, 3 <= i < 8 -> ~ gives o (a_ucsrb id) i true) /\ ~ gives o a_prr (prusart id) false.
(** Calls of DigitalOutputPin's Write on one pin. *)
Definition writes (p pin : Z) (o : rop) : Prop := exists v, o = PortWrite p pin v.
(** Calls that clear a bit of UCSRB before they set it. *)
Definition blinks (o : rop) (a i : Z) : Prop :=
  match o with
  | TxEnable id true => a = a_ucsrb id /\ i = 3
  | TxcInt id true => a = a_ucsrb id /\ i = 6
  | UdreInt id true => a = a_ucsrb id /\ i = 5
  | RxEnable id true => a = a_ucsrb id /\ i = 4
  | RxcInt id true => a = a_ucsrb id /\ i = 7
  | _ => False
  end.
(** A USART that exists. *)
Definition usart_real (o : rop) : Prop := match o with Open id _ | Close id => id = 0 \/ id = 1 | _ => True end.
