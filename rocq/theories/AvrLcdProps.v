(** C110. *)
Require Import ZArith List Bool Lia ZifyBool.
Import ListNotations.
From Verif Require Import Base BaseFacts AvrModel AvrSpec RegIsrModel RegIsrSpec HdModel HdSpec AvrLcdModel AvrLcdSpec AvrLcdProofs AvrLcdMore.
Open Scope Z_scope.

(** C110: the constructor, whatever handlers run that leave the six pins alone: the pins are outputs, enable is
    high, the other lines have the levels the output register had. *)
Theorem lcd_avr_new : forall one x m evs, al_real x -> bytes m -> Forall (other_ok x) (handled evs) ->
  let k := krun one (k_init m (al_new x)) evs in k_call k = None -> k_prog k = [] ->
  bytes (k_regs k) /\ exists l, al_lines x (k_regs k) = Some l /\ en l = true /\
    (let was q := Z.testbit (m (a_out (fst q))) (snd q) in
     rs l = was (x_rs x) /\ d4 l = was (x_d4 x) /\ d5 l = was (x_d5 x) /\ d6 l = was (x_d6 x) /\ d7 l = was (x_d7 x)).
Proof. exact al_new_l. Qed.
Print Assumptions lcd_avr_new.

(** C110: a display of the main program.  At every moment the lines have gone exactly through the beginning of
    what the driver calls stand for, however the handlers run in between. *)
Theorem lcd_avr_lines : forall one x m cs evs l, al_real x -> bytes m -> al_lines x m = Some l -> Forall (acall_ok x) cs -> Forall (other_ok x) (handled evs) ->
  let k := krun one (k_init m (al_prog x cs)) evs in
  exists ls ps rest, map (al_lines x) (k_moments one (k_init m (al_prog x cs)) evs) = map Some ls /\
    lingers l ls ps /\ par_run l (al_ops cs) = ps ++ rest /\ (k_call k = None -> k_prog k = [] -> rest = []).
Proof. intros one x m cs evs l R. exact (al_main_l x R one m cs evs l). Qed.
Print Assumptions lcd_avr_lines.

(** C110: when the program is through, the display has taken exactly the nibbles of the calls. *)
Theorem lcd_avr_main : forall lo one x m cs evs l, al_real x -> bytes m -> al_lines x m = Some l -> en l = true -> Forall (acall_ok x) cs -> Forall (other_ok x) (handled evs) ->
  let k := krun one (k_init m (al_prog x cs)) evs in k_call k = None -> k_prog k = [] ->
  exists ls l', map (al_lines x) (k_moments one (k_init m (al_prog x cs)) evs) = map Some ls /\ delivers lo l ls (all_nibs (rs l) (al_ops cs)) l'.
Proof. exact al_main_done_l. Qed.
Print Assumptions lcd_avr_main.

(** C110: with the view's calls among them the screen shows the text. *)
Theorem lcd_avr_view : forall lo one x m l md d rows os cs evs v ops, al_real x -> bytes m -> al_lines x m = Some l -> en l = true -> rs l = false ->
  0 <= lo < 16 -> rows_ok rows -> mode_ok md -> scr_fits rows blank os -> view_run rows {| row := 0; col := 0 |} (VInit true :: os) = Some (v, ops) ->
  Forall (acall_ok x) cs -> al_ops cs = ops -> Forall (other_ok x) (handled evs) ->
  let k := krun one (k_init m (al_prog x cs)) evs in k_call k = None -> k_prog k = [] ->
  exists ls, map (al_lines x) (k_moments one (k_init m (al_prog x cs)) evs) = map Some ls /\
    let '(l', md', ts) := watch lo l md ls in md' = M4 /\ en l' = true /\
    forall r c, 0 <= r < rows -> 0 <= c < width rows -> mem (exec_all d ts) (cell_address r c) = cell (scr_final blank os) r c.
Proof. exact al_view_l. Qed.
Print Assumptions lcd_avr_view.

(** C110: a display of the handlers takes exactly the nibbles of their calls, although stores of the main
    program to the same ports may undo what they wrote. *)
Theorem lcd_avr_isr : forall lo one x m prog evs l, al_real x -> bytes m -> al_lines x m = Some l -> en l = true -> Forall (other_ok x) prog ->
  Forall (aev_ok x) evs -> Forall full_call (aisr_ops evs) ->
  exists ls l', map (al_lines x) (k_moments one (k_init m prog) (map (al_ev x) evs)) = map Some ls /\
    delivers lo l ls (all_nibs (rs l) (aisr_ops evs)) l'.
Proof. intros lo one x m prog evs l R. exact (al_isr_l x R lo one m prog evs l). Qed.
Print Assumptions lcd_avr_isr.

(** C110: two displays on the same ports, one of the main program and one of the handlers. *)
Theorem lcd_avr_two : forall lo one x y m cs evs lx ly, al_real x -> al_real y -> al_apart x y -> bytes m ->
  al_lines x m = Some lx -> en lx = true -> al_lines y m = Some ly -> en ly = true ->
  Forall (acall_ok x) cs -> rest_spares y cs -> Forall (aev_ok y) evs -> Forall (aev_spares x) evs -> Forall full_call (aisr_ops evs) ->
  let k0 := k_init m (al_prog x cs) in let k := krun one k0 (map (al_ev y) evs) in k_call k = None -> k_prog k = [] ->
  exists lsx lsy lx' ly',
    map (al_lines x) (k_moments one k0 (map (al_ev y) evs)) = map Some lsx /\ delivers lo lx lsx (all_nibs (rs lx) (al_ops cs)) lx' /\
    map (al_lines y) (k_moments one k0 (map (al_ev y) evs)) = map Some lsy /\ delivers lo ly lsy (all_nibs (rs ly) (aisr_ops evs)) ly'.
Proof. exact al_two_l. Qed.
Print Assumptions lcd_avr_two.

(** C110, finding.  Initialize of a display in a handler, after one of its commands was overtaken by a store of
    the main program: its first nibble goes to the data register. *)
Theorem lcd_avr_init_refuted : exists prog evs l,
  al_lines lcd_ab (lcd_regs true) = Some l /\ en l = true /\ Forall (other_ok lcd_ab) prog /\ Forall (aev_ok lcd_ab) evs /\
  prog = [al_pin (x_rs lcd_a) true] /\ aisr_ops evs = [DCmd 1; DNib 2] /\
  snd (watch 0 l M8 (seen lcd_ab (k_moments (fun _ => false) (k_init (lcd_regs true) prog) (map (al_ev lcd_ab) evs)))) = [(false, 0); (false, 16); (true, 32)] /\
  snd (edges 0 M8 (all_nibs (rs l) (aisr_ops evs))) = [(false, 0); (false, 16); (false, 32)].
Proof.
  exists [al_pin (x_rs lcd_a) true], [AStep; AStep; AIsr [ADisp (DCmd 1)]; AStep; AStep; AIsr [ADisp (DNib 2)]]. eexists.
  split; [reflexivity|]. split; [reflexivity|]. split.
  { constructor; [|constructor]. split; [cbn; lia|]. apply (pin_spares lcd_a lcd_ab); [|left; reflexivity].
    intros q I I'. unfold al_pins, lcd_a, lcd_ab in I, I'. cbn [x_rs x_en x_d4 x_d5 x_d6 x_d7 In] in I, I'. intuition congruence. }
  split; [repeat constructor; cbn; lia|]. split; [reflexivity|]. split; [reflexivity|]. split; lazy; reflexivity.
Qed.
Print Assumptions lcd_avr_init_refuted.

(** C110, finding.  One display for both: "B" written by a handler inside the main program's "A" gives "D!". *)
Theorem lcd_avr_shared_refuted : exists evs l,
  al_lines lcd_a (lcd_regs false) = Some l /\ en l = true /\ aisr_ops evs = [DData 66] /\ Forall (aev_ok lcd_a) evs /\
  (let k0 := k_init (lcd_regs false) (al_prog lcd_a [ADisp (DData 65)]) in
   let k := krun (fun _ => true) k0 (map (al_ev lcd_a) evs) in
   k_call k = None /\ k_prog k = [] /\
   snd (watch 0 l M4 (seen lcd_a (k_moments (fun _ => true) k0 (map (al_ev lcd_a) evs)))) = [(true, 68); (true, 33)]).
Proof.
  exists (repeat AStep 21 ++ AIsr [ADisp (DData 66)] :: repeat AStep 18). eexists.
  split; [reflexivity|]. split; [reflexivity|]. split; [reflexivity|]. split.
  { cbn [repeat app]. repeat constructor; cbn; lia. }
  cbv zeta. split; [lazy; reflexivity|]. split; [lazy; reflexivity|]. lazy. reflexivity.
Qed.
Print Assumptions lcd_avr_shared_refuted.

(** The two displays above: a store of the main program overtakes the handler's, both get their bytes. *)
Example lcd_avr_example :
  let evs := repeat AStep 2 ++ AIsr [ADisp (DData 66)] :: repeat AStep 25 ++ AIsr [ADisp (DCmd 1)] :: repeat AStep 25 in
  let k0 := k_init (lcd_regs false) (al_prog lcd_a [ADisp (DData 65)]) in
  let k := krun (fun _ => false) k0 (map (al_ev lcd_ab) evs) in
  let ms := k_moments (fun _ => false) k0 (map (al_ev lcd_ab) evs) in
  k_call k = None /\ k_prog k = [] /\
  match al_lines lcd_a (lcd_regs false), al_lines lcd_ab (lcd_regs false) with
  | Some lx, Some ly => en lx = true /\ en ly = true /\ snd (watch 0 lx M4 (seen lcd_a ms)) = [(true, 65)] /\
      snd (watch 0 ly M4 (seen lcd_ab ms)) = [(true, 66); (false, 1)]
  | _, _ => False
  end.
Proof. cbv zeta. split; [lazy; reflexivity|]. split; [lazy; reflexivity|]. lazy. auto. Qed.
Example lcd_pins_real : al_real lcd_a /\ al_real lcd_ab /\ al_apart lcd_a lcd_ab /\ bytes (lcd_regs false).
Proof.
  assert (N : forall l : list (Z * Z), (fix nd (l : list (Z * Z)) : bool := match l with [] => true | q :: r => negb (existsb (pin_eqb q) r) && nd r end) l = true -> NoDup l).
  { induction l as [|q l IH]; intros H; constructor; apply andb_prop in H; destruct H as [H1 H2]; [|apply IH; exact H2].
    intros I. apply negb_true_iff in H1. rewrite (proj2 (existsb_exists _ _)) in H1; [discriminate|]. exists q. split; [exact I|apply pin_eqb_refl]. }
  split; [split; [apply N; reflexivity|repeat constructor; cbn; lia]|]. split; [split; [apply N; reflexivity|repeat constructor; cbn; lia]|]. split.
  - intros q I I'. unfold al_pins, lcd_a, lcd_ab in I, I'. cbn [x_rs x_en x_d4 x_d5 x_d6 x_d7 In] in I, I'. intuition congruence.
  - intros a. unfold lcd_regs, byte. destruct ((a =? 33) || (a =? 36)); [lia|]. destruct (a =? 34); lia.
Qed.
