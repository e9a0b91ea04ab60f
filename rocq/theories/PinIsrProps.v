(** C111. *)
Require Import ZArith List Bool Lia ZifyBool.
Import ListNotations.
From Verif Require Import Base BaseFacts AvrModel AvrSpec RegIsrModel RegIsrSpec ShiftModel ShiftSpec HdModel HdSpec ChainModel ChainSpec AvrLcdModel AvrLcdSpec PinIsrModel PinIsrSpec PinIsrProofs PinIsrNew PinIsrMore.
Open Scope Z_scope.

(** C111: the constructors, whatever handlers run that leave the pins alone: the pins are outputs, with the given
    level or the one the output register had. *)
Theorem pins_avr_new : forall one l m evs, NoDup (map fst l) -> Forall pin_real (map fst l) -> bytes m -> Forall (leaves (map fst l)) (handled evs) ->
  let k := krun one (k_init m (p_new l)) evs in k_call k = None -> k_prog k = [] ->
  bytes (k_regs k) /\ look (map fst l) (k_regs k) = map (fun e => Some (match snd e with Some v => v | None => Z.testbit (m (a_out (fst (fst e)))) (snd (fst e)) end)) l.
Proof. exact pins_new_l. Qed.
Print Assumptions pins_avr_new.

(** C111: output pins of the main program.  At every moment they have gone exactly through the beginning of what
    the program's writes stand for, one pin at a time, however handlers run in between that leave them alone. *)
Theorem pins_avr_main : forall one qs m cs evs, Forall pin_real qs -> bytes m -> Forall (pcall_ok qs) cs -> Forall (leaves qs) (handled evs) ->
  let k0 := k_init m (map p_code cs) in let k := krun one k0 evs in
  exists ps rest, lingers (look qs m) (map (look qs) (k_moments one k0 evs)) ps /\ levels qs (look qs m) (p_own cs) = ps ++ rest /\
    (k_call k = None -> k_prog k = [] -> rest = []).
Proof. intros one qs m cs evs H. exact (pins_main_l qs H one m cs evs). Qed.
Print Assumptions pins_avr_main.

(** C111: output pins of the handlers.  Those that every handler leaves where it found them stay there between
    handlers, the others may change their level but not their direction; a handler's own writes are seen one after the other. *)
Theorem pins_avr_isr : forall one qs st m prog evs, Forall pin_real qs -> (forall q v, In (q, v) st -> In q qs) -> bytes m -> rests_at qs st (look qs m) ->
  Forall (leaves qs) prog -> Forall (pev_ok qs) evs -> Forall (returns qs st) evs ->
  drift qs st (look qs m) evs (map (look qs) (k_moments one (k_init m prog) (map p_ev evs))).
Proof. exact pins_isr_l. Qed.
Print Assumptions pins_avr_isr.

(** C111: shift registers at three pins of the main program go through exactly the states of the driver's pin writes. *)
Theorem shift_avr_main : forall one x c m cs es evs, s3_real x -> bytes m -> look (s3_pins x) m = chip_levels c -> Forall (pcall_ok (s3_pins x)) cs -> s3_writes x cs es ->
  Forall (leaves (s3_pins x)) (handled evs) ->
  let k0 := k_init m (map p_code cs) in let k := krun one k0 evs in let seen := chips c (map (look (s3_pins x)) (k_moments one k0 evs)) in
  exists es1 es2, es = es1 ++ es2 /\ lingers c seen (chip_moments c es1) /\ (k_call k = None -> k_prog k = [] -> es2 = [] /\ last seen c = chip_run c es).
Proof.
  intros one x c m cs es evs R Bm L F W Fh k0 k seen. destruct (s3_main_l x R one c m cs es evs Bm L F W Fh) as (a & z & E & Lg & Zr).
  exists a, z. split; [exact E|]. split; [exact Lg|]. intros N1 N2. pose proof (Zr N1 N2) as ->. rewrite app_nil_r in E. subst a. split; [reflexivity|].
  refine (eq_trans (ChainProofs.stut_last _ _ _ _ (AvrLcdProofs.lingers_stut _ _ _ _ Lg)) _). apply moments_run.
Qed.
Print Assumptions shift_avr_main.

(** C111: the outputs show the values the main program wrote. *)
Theorem shift_avr_value : forall one iw w x c m bs evs, s3_real x -> bytes m -> look (s3_pins x) m = chip_levels c -> clock c = false -> latch c = false ->
  1 <= w <= iw -> Forall (fun b => 0 <= b < 2 ^ w) bs -> (Z.to_nat w <= length (reg c))%nat -> bs <> [] ->
  exists es, reverses iw w bs = Some es /\ forall cs, Forall (pcall_ok (s3_pins x)) cs -> s3_writes x cs es -> Forall (leaves (s3_pins x)) (handled evs) ->
    let k0 := k_init m (map p_code cs) in let k := krun one k0 evs in k_call k = None -> k_prog k = [] ->
    outs (last (chips c (map (look (s3_pins x)) (k_moments one k0 evs))) c) = chain_outs w (reg c) bs.
Proof.
  intros one iw w x c m bs evs R Bm L C1 C2 Hw Fb Hl Hn. destruct (reverses_outs iw w bs c Hw Fb C1 C2 Hl) as (es & E & _ & O & _).
  exists es. split; [exact E|]. intros cs F W Fh k0 k N1 N2.
  destruct (shift_avr_main one x c m cs es evs R Bm L F W Fh) as (e1 & e2 & _ & _ & G). refine (eq_trans (f_equal outs (proj2 (G N1 N2))) _). exact (O Hn).
Qed.
Print Assumptions shift_avr_value.

(** C111: a display on the chain takes exactly the nibbles of its calls, whatever else is on the chain. *)
Theorem shift_avr_display : forall lo one iw w devs k ix r b h1 h2 x, 1 <= w <= iw -> layout_ok w devs -> nth_error devs k = Some (Display ix) -> 0 <= r < 2 ^ w -> wires_ok w b ->
  calls_ok devs (fun _ => false) (h1 ++ (k, Attach) :: h2) -> s3_real x ->
  exists s1 es1 s2 es2, ch_run iw w devs (ch_new r) h1 = Some (s1, es1) /\ ch_run iw w devs s1 ((k, Attach) :: h2) = Some (s2, es2) /\
    forall m cs evs, let c := w_chip (wires_run b es1) in bytes m -> look (s3_pins x) m = chip_levels c ->
      Forall (pcall_ok (s3_pins x)) cs -> s3_writes x cs (pin_events es2) -> Forall (leaves (s3_pins x)) (handled evs) ->
      let k0 := k_init m (map p_code cs) in let kk := krun one k0 evs in k_call kk = None -> k_prog kk = [] ->
      exists l', delivers lo (chip_lines w ix c) (map (chip_lines w ix) (chips c (map (look (s3_pins x)) (k_moments one k0 evs)))) (sent false (ChainSpec.own k h2)) l'.
Proof. exact s3_display_l. Qed.
Print Assumptions shift_avr_display.

(** C111: shift registers of the handlers: although stores of the main program may change the data pin between
    handlers, the outputs change exactly as the handlers' writes say, and show their values. *)
Theorem shift_avr_isr : forall one iw w x c m prog evs bs, s3_real x -> 1 <= w <= iw -> bytes m -> look (s3_pins x) m = chip_levels c -> clock c = false -> latch c = false ->
  (Z.to_nat w <= length (reg c))%nat -> Forall (fun b => 0 <= b < 2 ^ w) bs ->
  Forall (leaves (s3_pins x)) prog -> Forall (pev_ok (s3_pins x)) evs -> sends iw w x evs bs ->
  let seen := chips c (map (look (s3_pins x)) (k_moments one (k_init m prog) (map p_ev evs))) in
  exists es, reverses iw w bs = Some es /\ lingers (outs c) (map outs seen) (map outs (chip_moments c es)) /\
    reg (last seen c) = chain_outs w (reg c) bs /\ outs (last seen c) = (match bs with [] => outs c | _ => chain_outs w (reg c) bs end).
Proof.
  intros one iw w x c m prog evs bs R Hw Bm L C1 C2 Hl Fb P F S seen.
  destruct (s3_isr_l x R one iw w c m prog evs bs ltac:(lia) Bm L C1 C2 P F S) as (es & E & Lg & G1 & G2).
  destruct (reverses_outs iw w bs c Hw Fb C1 C2 Hl) as (es' & E' & O1 & O2 & _). rewrite E in E'. injection E' as <-.
  exists es. split; [exact E|]. split; [exact Lg|]. split; [exact (eq_trans G1 O1)|]. rewrite <- O1 in O2 |- *. refine (eq_trans G2 _).
  destruct bs as [|b bs]; [cbn [reverses] in E; injection E as <-; reflexivity|]. apply O2. discriminate.
Qed.
Print Assumptions shift_avr_isr.

(** C111: a display on a chain of the handlers, each of which makes some of the writes, takes exactly the nibbles of its calls. *)
Theorem shift_avr_isr_display : forall lo one iw w devs k ix r b h1 h2 x, 1 <= w <= iw -> layout_ok w devs -> nth_error devs k = Some (Display ix) -> 0 <= r < 2 ^ w -> wires_ok w b ->
  calls_ok devs (fun _ => false) (h1 ++ (k, Attach) :: h2) -> s3_real x ->
  exists s1 es1 s2 es2 bs, ch_run iw w devs (ch_new r) h1 = Some (s1, es1) /\ ch_run iw w devs s1 ((k, Attach) :: h2) = Some (s2, es2) /\
    reverses iw w bs = Some (pin_events es2) /\
    forall m prog evs, let c := w_chip (wires_run b es1) in bytes m -> look (s3_pins x) m = chip_levels c ->
      Forall (leaves (s3_pins x)) prog -> Forall (pev_ok (s3_pins x)) evs -> sends iw w x evs bs ->
      exists l', delivers lo (chip_lines w ix c) (map (chip_lines w ix) (chips c (map (look (s3_pins x)) (k_moments one (k_init m prog) (map p_ev evs))))) (sent false (ChainSpec.own k h2)) l'.
Proof. exact s3_isr_display_l. Qed.
Print Assumptions shift_avr_isr_display.

(** C111: two chains on the same ports, one of the main program and one of the handlers. *)
Theorem shift_avr_two : forall one iw w iw' w' x y cx cy m bx by' evs, s3_real x -> s3_real y -> no_common (s3_pins x) (s3_pins y) -> bytes m ->
  look (s3_pins x) m = chip_levels cx -> clock cx = false -> latch cx = false -> 1 <= w <= iw -> Forall (fun b => 0 <= b < 2 ^ w) bx -> (Z.to_nat w <= length (reg cx))%nat -> bx <> [] ->
  look (s3_pins y) m = chip_levels cy -> clock cy = false -> latch cy = false -> 1 <= w' <= iw' -> Forall (fun b => 0 <= b < 2 ^ w') by' -> (Z.to_nat w' <= length (reg cy))%nat -> by' <> [] ->
  Forall (pev_ok (s3_pins y)) evs -> Forall (pev_leaves (s3_pins x)) evs -> sends iw' w' y evs by' ->
  exists es, reverses iw w bx = Some es /\ forall cs, Forall (pcall_ok (s3_pins x)) cs -> else_leaves (s3_pins y) cs -> s3_writes x cs es ->
    let k0 := k_init m (map p_code cs) in let k := krun one k0 (map p_ev evs) in let ms := k_moments one k0 (map p_ev evs) in k_call k = None -> k_prog k = [] ->
    outs (last (chips cx (map (look (s3_pins x)) ms)) cx) = chain_outs w (reg cx) bx /\
    outs (last (chips cy (map (look (s3_pins y)) ms)) cy) = chain_outs w' (reg cy) by'.
Proof.
  intros one iw w iw' w' x y cx cy m bx by' evs Rx Ry A Bm Lx X1 X2 Hw Fx Hl Nx Ly Y1 Y2 Hw' Fy Hl' Ny Fe Fl S.
  destruct (shift_avr_value one iw w x cx m bx (map p_ev evs) Rx Bm Lx X1 X2 Hw Fx Hl Nx) as (es & E & G). exists es. split; [exact E|].
  intros cs F El W k0 k ms K1 K2. split; [exact (G cs F W (evs_leave _ _ evs (proj2 Ry) (no_common_sym _ _ A) Fe Fl) K1 K2)|].
  destruct (shift_avr_isr one iw' w' y cy m (map p_code cs) evs by' Ry Hw' Bm Ly Y1 Y2 Hl' Fy (calls_leave _ _ cs (proj2 Rx) A F El) Fe S) as (es' & _ & _ & _ & O).
  refine (eq_trans O _). destruct by'; [congruence|reflexivity].
Qed.
Print Assumptions shift_avr_two.

(** C111, refuted for one Serial3WireOutput used by both: the program writes 165, a handler in the middle 15; in
    the end the outputs show neither. *)
Theorem shift_avr_shared_refuted : exists n, 
  let evs := map p_ev (repeat PStep n ++ [PIsr (rev_calls s3_a 8 15)] ++ repeat PStep 200) in
  let k0 := k_init s3_regs (map p_code (rev_calls s3_a 8 165)) in let k := krun (fun _ => false) k0 evs in
  let c := last (chips chip_zero (map (look (s3_pins s3_a)) (k_moments (fun _ => false) k0 evs))) chip_zero in
  look (s3_pins s3_a) s3_regs = chip_levels chip_zero /\ k_call k = None /\ k_prog k = [] /\
  outs c <> chain_outs 8 (repeat false 8) [165] /\ outs c <> chain_outs 8 (repeat false 8) [15].
Proof. exists 40%nat. lazy. repeat split; discriminate. Qed.
Print Assumptions shift_avr_shared_refuted.

(** The three pins and what is around them. *)
Example s3_a_real : s3_real s3_a.
Proof.
  split; [|repeat (apply Forall_cons; [unfold pin_real; cbn; lia|]); apply Forall_nil].
  unfold s3_pins. cbn. repeat (apply NoDup_cons; [cbn; intuition discriminate|]). apply NoDup_nil.
Qed.
Example s3_regs_bytes : bytes s3_regs.
Proof. intros a. unfold s3_regs. destruct (a =? 33); split; discriminate || reflexivity. Qed.
(** A handler sets another pin of the same port in the middle; the outputs show 165. *)
Example shift_avr_example :
  let evs := map p_ev (repeat PStep 40 ++ [PIsr [POther (al_pin (0, 5) true)]] ++ repeat PStep 200) in
  let k0 := k_init s3_regs (map p_code (rev_calls s3_a 8 165)) in let k := krun (fun _ => false) k0 evs in
  (k_call k, k_prog k, outs (last (chips chip_zero (map (look (s3_pins s3_a)) (k_moments (fun _ => false) k0 evs))) chip_zero)) =
  (None, [], [true; false; true; false; false; true; false; true]).
Proof. lazy. reflexivity. Qed.
(** Handlers write 15 and then 240 while the main program switches another pin of the port. *)
Example shift_avr_isr_example :
  let evs := [PStep; PIsr (rev_calls s3_a 8 15); PStep; PStep; PIsr (rev_calls s3_a 8 240); PStep; PStep; PStep] in
  let k0 := k_init s3_regs [al_pin (0, 5) true; al_pin (0, 5) false] in
  sends 8 8 s3_a evs [15; 240] /\
  outs (last (chips chip_zero (map (look (s3_pins s3_a)) (k_moments (fun _ => false) k0 (map p_ev evs)))) chip_zero) = [true; true; true; true; false; false; false; false].
Proof.
  split; [|lazy; reflexivity]. cbn [sends]. exists [15], [240]. eexists. split; [reflexivity|]. split; [reflexivity|]. split; [reflexivity|].
  exists [240], []. eexists. split; [reflexivity|]. split; [reflexivity|]. split; reflexivity.
Qed.
