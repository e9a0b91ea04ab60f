(** Properties C51-C54, C61-C64: AVR ports, power reduction, interrupt enables, USART. *)
Require Import ZArith List Bool Lia.
Import ListNotations.
From Verif Require Import Base BitModel AvrModel AvrSpec AvrProofs.
Open Scope Z_scope.

(** ** C51 baud rates *)
Theorem usart_ubrr : forall F d b, 1 <= F -> 1 <= d -> 1 <= b -> F / (d * b) <= 32768 ->
  calc_ubrr F d b = Some (F / (d * b) - 1) /\ (valid_ubrr (F / (d * b) - 1) = true <-> exists u, fits F d b u) /\
  (forall u, fits F d b u -> u = F / (d * b) - 1).
Proof. exact calc_ubrr_l. Qed.
Theorem usart_choice : forall F b c, 1 <= F -> 1 <= b <= 65535 -> F / (8 * b) <= 32768 ->
  F < 16 * b \/ 32 * b <= F \/ b <= 32767 ->
  exists c' h, init_async F c b = Some (c', h) /\
    c_bits c' = c_bits c /\ c_par c' = c_par c /\ c_two c' = c_two c /\
    (h = true <-> exists d u, (d = 8 \/ d = 16) /\ fits F d b u) /\
    (h = true -> (c_div c' = 8 \/ c_div c' = 16) /\ fits F (c_div c') b (c_ubrr c') /\
       forall d u, d = 8 \/ d = 16 -> fits F d b u -> dev F (c_div c') b (c_ubrr c') <= dev F d b u) /\
    (h = false -> c_div c' = 0 /\ c_ubrr c' = 0).
Proof. exact choice_l. Qed.
Theorem usart_rate_bounds : forall F d b u, 1 <= F -> 1 <= d -> 1 <= b -> fits F d b u ->
  b <= hw_rate F d u /\ hw_rate F d u * (u + 1) < b * (u + 2).
Proof. exact rate_bounds. Qed.
Theorem usart_get_rate : forall F c, c_div c <> 0 -> c_ubrr c <> 0 -> 0 <= hw_rate F (c_div c) (c_ubrr c) <= 65535 ->
  get_rate F c = hw_rate F (c_div c) (c_ubrr c).
Proof. exact get_rate_l. Qed.
(** getMode says which of the two rates was taken; after a refused rate, as for a new object, it says the
    USART is a synchronous slave. *)
Theorem usart_mode : forall F c b c' h, init_async F c b = Some (c', h) ->
  (get_mode c' = MAsync <-> h = true /\ c_div c' = 16) /\ (get_mode c' = MDouble <-> h = true /\ c_div c' = 8) /\
  (get_mode c' = MSlave <-> h = false).
Proof. exact init_mode_l. Qed.
(** A 16 MHz clock accepts 30 baud and makes 1769; 57600 baud gets 58823 though 57142 is nearer; at 2 MHz
    65000 baud gets 125000 though 83333 is possible; a rate with register value 0 reads back as 0; 0 baud is
    a division by zero; a new object says it is a synchronous slave. *)
Theorem usart_rate_refuted :
  (init_async 16000000 cfg_new 30 = Some (mkCfg 8 1129 3 POff false, true) /\ hw_rate 16000000 8 1129 = 1769) /\
  (init_async 16000000 cfg_new 57600 = Some (mkCfg 16 16 3 POff false, true) /\
   dev 16000000 16 57600 16 = 1223 /\ dev 16000000 8 57600 34 = 458) /\
  (init_async 2000000 cfg_new 65000 = Some (mkCfg 16 0 3 POff false, true) /\ dev 2000000 16 65000 0 = 60000 /\
   fits 2000000 8 65000 2 /\ dev 2000000 8 65000 2 = 18333) /\
  (init_async 1000000 cfg_new 62500 = Some (mkCfg 16 0 3 POff false, true) /\ hw_rate 1000000 16 0 = 62500 /\
   get_rate 1000000 (mkCfg 16 0 3 POff false) = 0) /\
  (forall F c, init_async F c 0 = None) /\ get_mode cfg_new = MSlave.
Proof.
  split; [split; reflexivity|]. split; [repeat split; reflexivity|]. split.
  - split; [reflexivity|]. split; [reflexivity|]. split; [|reflexivity]. unfold fits. lia.
  - split; [repeat split; reflexivity|]. split; reflexivity.
Qed.
Example usart_9600 : init_async 16000000 cfg_new 9600 = Some (mkCfg 16 103 3 POff false, true) /\ fits 16000000 16 9600 103 /\
  get_rate 16000000 (mkCfg 16 103 3 POff false) = 9615.
Proof. split; [reflexivity|]. split; [unfold fits; lia|reflexivity]. Qed.

(** A new object has no rate, a register value of 0 and 8 data bits without parity and with one stop bit, and
    OpenAsync refuses it. *)
Example usart_fresh : forall F m id,
  get_rate F cfg_new = 0 /\ c_ubrr cfg_new = 0 /\ c_bits cfg_new = 3 /\ c_par cfg_new = POff /\
  c_two cfg_new = false /\ rstep m (Open id cfg_new) = (m, false).
Proof. intros. repeat split; reflexivity. Qed.

(** ** C52 frame format *)
Theorem usart_open : forall m id c, id = 0 \/ id = 1 -> cfg_ok c ->
  let m' := fst (rstep m (Open id c)) in
  (snd (rstep m (Open id c)) = true <-> c_div c = 8 \/ c_div c = 16) /\
  (c_div c <> 8 -> c_div c <> 16 -> m' = m) /\
  (c_div c = 8 \/ c_div c = 16 ->
     hw_powered m' id = true /\ hw_divider m' id = c_div c /\ hw_ubrr m' id = c_ubrr c /\
     hw_enables m' id = [false; false; false; false; false] /\
     hw_frame m' id = if c_bits c =? 4 then None else Some (5 + c_bits c, swap_parity (c_par c), c_two c)).
Proof. exact open_l. Qed.
(** The registers of any configuration, opened or not: bit 1 of UCSRA for double speed, bit 2 of UCSRB for 9 bits, in
    UCSRC bit 6 for the synchronous dividers besides the frame format. *)
Theorem usart_config : forall c, 0 <= c_bits c <= 4 ->
  get_ucsra c = (if c_div c =? 8 then 2 else 0) /\ get_ucsrb c = (if c_bits c =? 4 then 4 else 0) /\
  0 <= get_ucsrc c < 128 /\
  forall i, 0 <= i < 8 -> Z.testbit (get_ucsrc c) i = (i =? 6) && (c_div c <? 8) || ucsrc_bits c i.
Proof. exact config_l. Qed.
(** So with 5 to 8 bits and no parity the frame is the one asked for; even parity is sent as odd and odd as
    even, and 9 bits select a reserved format. *)
Theorem usart_frame : forall c, (c_div c = 8 \/ c_div c = 16) -> 0 <= c_bits c <= 3 -> c_par c = POff ->
  frame (get_ucsrb c) (get_ucsrc c) = Some (5 + c_bits c, POff, c_two c).
Proof.
  intros c D B P. rewrite frame_l by lia. rewrite P. destruct (Z.eqb_spec (c_bits c) 4); [lia|reflexivity].
Qed.
Theorem usart_frame_refuted : forall c, (c_div c = 8 \/ c_div c = 16) ->
  (0 <= c_bits c <= 3 -> c_par c = PEven -> frame (get_ucsrb c) (get_ucsrc c) = Some (5 + c_bits c, POdd, c_two c)) /\
  (0 <= c_bits c <= 3 -> c_par c = POdd -> frame (get_ucsrb c) (get_ucsrc c) = Some (5 + c_bits c, PEven, c_two c)) /\
  (c_bits c = 4 -> frame (get_ucsrb c) (get_ucsrc c) = None).
Proof.
  intros c D. split; [|split].
  - intros B P. rewrite frame_l by lia. rewrite P. destruct (Z.eqb_spec (c_bits c) 4); [lia|reflexivity].
  - intros B P. rewrite frame_l by lia. rewrite P. destruct (Z.eqb_spec (c_bits c) 4); [lia|reflexivity].
  - intros B. rewrite frame_l by lia. rewrite B. reflexivity.
Qed.
Example usart_frame_8n1 : get_ucsrc (mkCfg 16 103 3 POff false) = 6 /\ frame 0 6 = Some (8, POff, false).
Proof. split; reflexivity. Qed.

(** ** C61 histories of register calls *)
Theorem avr_registers : forall os m s, same_regs m s -> Forall rop_ok os ->
  same_regs (fst (rrun m os)) (fst (brun s os)) /\ snd (rrun m os) = snd (brun s os).
Proof. exact rrun_l. Qed.
(** The addresses, and the bits of PRR0 for the USARTs, are those of the datasheet. *)
Theorem avr_addresses :
  map (fun p => (a_in p, a_dir p, a_out p)) [0; 1; 2; 3] = ds_ports /\
  a_prr = 100 /\ a_pcicr = 104 /\ map a_pcmsk [0; 1; 2] = ds_pcmsk /\ map a_timsk [0; 1; 2; 3] = ds_timsk /\
  map (fun id => [a_ucsra id; a_ucsrb id; a_ucsrc id; a_ubrr id; a_udr id]) [0; 1] = ds_usart /\
  map prusart [0; 1] = [1; 4].
Proof. repeat split; reflexivity. Qed.
Theorem avr_bit : forall iw r k v, 8 <= iw -> 0 <= k < 8 ->
  bit_put iw false 8 r k v = Some (r_put r k v) /\ (byte r -> bit_true iw false 8 r k = Some (r_is r k)).
Proof. exact r_put_bit. Qed.
Theorem usart_close : forall m id, id = 0 \/ id = 1 -> (forall a, byte (m a)) ->
  let m' := fst (rstep m (Close id)) in
  hw_powered m' id = false /\ hw_enables m' id = [false; false; false; false; false] /\
  (forall a i, 0 <= i < 8 -> a <> a_ucsrb id -> (a, i) <> (a_prr, prusart id) -> Z.testbit (m' a) i = Z.testbit (m a) i) /\
  (forall i, 0 <= i < 3 -> Z.testbit (m' (a_ucsrb id)) i = Z.testbit (m (a_ucsrb id)) i).
Proof. exact close_l. Qed.
(** Pin change interrupts: the mask of port D is never written, and turning a port off keeps its mask. *)
Theorem pin_change_refuted : forall m flags,
  fst (rstep m (PinChange 3 flags)) (a_pcmsk 3) = m (a_pcmsk 3) /\
  forall p, 0 <= p < 3 -> fst (rstep m (PinChange p 0)) (a_pcmsk p) = m (a_pcmsk p).
Proof.
  intros m flags. split.
  - cbn [rstep]. destruct (flags =? 0); reflexivity.
  - intros p Hp. cbn [rstep Z.eqb fst]. unfold at_reg, upd. destruct (Z.eqb_spec (a_pcmsk p) a_pcicr) as [E|]; [|reflexivity].
    unfold a_pcmsk, a_pcicr in E. lia.
Qed.
Example avr_history :
  let m := fst (rrun (fun _ => 0) [PortDir 1 5 true; PortWrite 1 5 true; Pullup 2 0 true; Pullup 1 5 true; TimerOvf 0 true; PinChange 1 5]) in
  m (a_dir 1) = 32 /\ m (a_out 1) = 32 /\ m (a_out 2) = 1 /\ m (a_timsk 0) = 1 /\ m a_pcicr = 2 /\ m (a_pcmsk 1) = 5.
Proof. repeat split; reflexivity. Qed.

(** ** C53 ports *)
Theorem port_bits : forall m p pin, (forall a, byte (m a)) -> 0 <= pin < 8 -> forall v,
  (let m' := fst (rstep m (PortDir p pin v)) in
   (forall a i, 0 <= i < 8 -> Z.testbit (m' a) i = if (a =? a_dir p) && (i =? pin) then v else Z.testbit (m a) i)) /\
  (let m' := fst (rstep m (PortWrite p pin v)) in
   (forall a i, 0 <= i < 8 -> Z.testbit (m' a) i = if (a =? a_out p) && (i =? pin) then v else Z.testbit (m a) i)) /\
  port_read m p pin = Z.testbit (m (a_in p)) pin.
Proof. exact port_l. Qed.
Theorem port_directions : forall b7 b6 b5 b4 b3 b2 b1 b0,
  byte (dirs_value [b7; b6; b5; b4; b3; b2; b1; b0] 7) /\
  map (Z.testbit (dirs_value [b7; b6; b5; b4; b3; b2; b1; b0] 7)) [7; 6; 5; 4; 3; 2; 1; 0] = [b7; b6; b5; b4; b3; b2; b1; b0].
Proof. exact dirs_l. Qed.
Theorem pin_construct : forall m p pin v, (forall a, byte (m a)) -> 0 <= p -> 0 <= pin < 8 ->
  drives (fst (rrun m (input_pin p pin))) p pin = None /\
  drives (fst (rrun m (output_pin p pin (Some v)))) p pin = Some v /\
  drives (fst (rrun m (output_pin p pin None))) p pin = Some (Z.testbit (m (a_out p)) pin) /\
  forall o q k, In o [input_pin p pin; output_pin p pin (Some v); output_pin p pin None] -> 0 <= q -> 0 <= k < 8 -> (q, k) <> (p, pin) ->
    drives (fst (rrun m o)) q k = drives m q k.
Proof. exact pin_new_l. Qed.
(** The pull-up cannot be switched off; a pin made an output with an initial value first drives the old one. *)
Theorem port_refuted :
  (forall m p pin e, rstep m (Pullup p pin e) = rstep m (Pullup p pin true)) /\
  (let m := fun a => if a =? a_out 0 then 1 else 0 in
   map (fun os => drives (fst (rrun m os)) 0 0) [[]; firstn 1 (output_pin 0 0 (Some false)); output_pin 0 0 (Some false)] =
   [None; Some true; Some false]).
Proof. split; reflexivity. Qed.

(** ** C54 power reduction *)
Theorem usart_power : forall m id on, (forall a, byte (m a)) -> let m' := fst (rstep m (UsartPower id on)) in
  hw_powered m' id = on /\ forall a i, 0 <= i < 8 -> (a, i) <> (a_prr, prusart id) -> Z.testbit (m' a) i = Z.testbit (m a) i.
Proof. exact power_l. Qed.
(** The getters look at other bits (those of the ADC and the SPI) and do not notice a USART being switched off. *)
Theorem usart_power_getter_refuted : forall m, (forall a, byte (m a)) ->
  usart_powered m 0 = negb (Z.testbit (m a_prr) 0) /\ usart_powered m 1 = negb (Z.testbit (m a_prr) 2) /\
  usart_powered (fst (rstep m (UsartPower 0 false))) 0 = usart_powered m 0 /\
  usart_powered (fst (rstep m (UsartPower 1 false))) 1 = usart_powered m 1.
Proof. exact powered_getter_l. Qed.
Example usart_power_example : let m := fst (rrun (fun _ => 0) [UsartPower 0 false; UsartPower 1 false]) in
  m a_prr = 18 /\ hw_powered m 0 = false /\ usart_powered m 0 = true.
Proof. repeat split; reflexivity. Qed.

(** ** C62 USART data *)
Theorem usart_write : forall ucsrb data, byte ucsrb -> 0 <= data ->
  let (b', d) := write_internal ucsrb data in
  byte b' /\ byte d /\ d = data mod 256 /\ (forall i, 0 <= i < 8 -> i <> 0 -> Z.testbit b' i = Z.testbit ucsrb i) /\
  (nine ucsrb = true -> Z.testbit b' 0 = Z.testbit data 8) /\ (nine ucsrb = false -> b' = ucsrb).
Proof. exact write_l. Qed.
Theorem usart_roundtrip : forall ucsra tx rxb data, byte tx -> byte rxb -> nine rxb = nine tx -> Forall (fun d => 0 <= d) data ->
  rx_result ucsra = RSuccess ->
  drain (map (fun d => received ucsra rxb (write_internal tx d)) data) (length data) = map (data_mask (nine tx)) data.
Proof. exact drain_l. Qed.
Example usart_roundtrip_example :
  drain (map (fun d => received 128 4 (write_internal 4 d)) [5; 256; 511; 512]) 4 = [5; 256; 511; 0] /\
  drain (map (fun d => received 128 0 (write_internal 0 d)) [5; 256; 511]) 3 = [5; 0; 255].
Proof. split; reflexivity. Qed.

(** ** C63 receive errors *)
Theorem usart_result : forall a, byte a ->
  (rx_result a = RFrame <-> Z.testbit a 4 = true) /\
  (rx_result a = RParity <-> Z.testbit a 4 = false /\ Z.testbit a 2 = true) /\
  (rx_result a = ROverrun <-> Z.testbit a 4 = false /\ Z.testbit a 2 = false /\ Z.testbit a 3 = true) /\
  (rx_result a = RSuccess <-> Z.testbit a 4 = false /\ Z.testbit a 2 = false /\ Z.testbit a 3 = false) /\
  rx_error a = (Z.testbit a 4 || Z.testbit a 2).
Proof. exact result_l. Qed.
Theorem usart_read : forall a b d r, byte a -> byte b -> byte d ->
  exists v, read1 ((a, b, d) :: r) = Some (r, v) /\ (v = -1 <-> rx_result a <> RSuccess) /\
    (rx_result a = RSuccess -> v = char_of b d).
Proof. exact read1_l. Qed.
Theorem usart_try_read : (try_read [] = ([], (false, 0, RNotReady))) /\
  forall a b d r, byte a -> byte b -> byte d ->
    try_read ((a, b, d) :: r) = (r, (true, char_of b d, rx_result a)) /\ 0 <= char_of b d < 512.
Proof. exact try_read_l. Qed.

(** ** C64 discarding received data *)
Theorem usart_flush_refuted :
  (forall q arrive k fuel, q <> [] -> (0 < fuel)%nat -> flush q arrive k fuel = Some (q ++ arrive k)) /\
  (forall k fuel, flush [] (fun _ => []) k fuel = None) /\
  (forall arrive n k fuel, (forall j, (j < n)%nat -> arrive (k + j)%nat = []) -> arrive (k + n)%nat <> [] -> (n < fuel)%nat ->
     flush [] arrive k fuel = Some (arrive (k + n)%nat)).
Proof. exact flush_l. Qed.
Example usart_flush_example : flush [(128, 0, 65)] (fun _ => []) 0 1 = Some [(128, 0, 65)].
Proof. reflexivity. Qed.

Print Assumptions usart_ubrr.
Print Assumptions usart_choice.
Print Assumptions usart_rate_bounds.
Print Assumptions usart_get_rate.
Print Assumptions usart_mode.
Print Assumptions usart_rate_refuted.
Print Assumptions usart_config.
Print Assumptions usart_open.
Print Assumptions usart_frame.
Print Assumptions usart_frame_refuted.
Print Assumptions avr_registers.
Print Assumptions avr_bit.
Print Assumptions usart_close.
Print Assumptions pin_change_refuted.
Print Assumptions port_bits.
Print Assumptions port_directions.
Print Assumptions pin_construct.
Print Assumptions port_refuted.
Print Assumptions usart_power.
Print Assumptions usart_power_getter_refuted.
Print Assumptions usart_write.
Print Assumptions usart_roundtrip.
Print Assumptions usart_result.
Print Assumptions usart_read.
Print Assumptions usart_try_read.
Print Assumptions usart_flush_refuted.
Print Assumptions avr_addresses.
