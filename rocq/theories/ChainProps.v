(** C92: displays and motors sharing one BitArray and one chain of shift registers. *)
Require Import ZArith List Bool Lia.
Import ListNotations.
From Verif Require Import Base BitModel ShiftModel ShiftSpec MotorModel MotorSpec HdModel HdSpec ChainModel ChainSpec ChainProofs.
Open Scope Z_scope.

(** Whatever the other devices do before, between and after: from its setDataRegister on, a display
    takes exactly the nibbles of its own calls, with RS and data stable at every falling edge. *)
Theorem chain_display : forall lo iw w devs k ix r b h1 h2, 1 <= w <= iw -> layout_ok w devs ->
  nth_error devs k = Some (Display ix) -> 0 <= r < 2 ^ w -> wires_ok w b ->
  calls_ok devs (fun _ => false) (h1 ++ (k, Attach) :: h2) ->
  exists s1 es1 s2 es2, ch_run iw w devs (ch_new r) h1 = Some (s1, es1) /\
    ch_run iw w devs s1 ((k, Attach) :: h2) = Some (s2, es2) /\
    let b1 := wires_run b es1 in
    delivers lo (lines_at w ix b1) (map (lines_at w ix) (moments b1 es2)) (sent false (own k h2))
      (lines_at w ix (wires_run b1 es2)).
Proof. intros lo iw w devs k ix r b h1 h2 Hw Hl Hk Hr Hb C. exact (display_l iw w devs Hw Hl lo k ix Hk r b h1 h2 Hr Hb C). Qed.

(** From its setDataRegister on, a motor's pins are those of its own last call.  A call of its own
    changes both direction lines at one instant and then the PWM; a call on another device changes
    none of them at any instant. *)
Theorem chain_motor : forall iw w devs k i1 i2 r b h1 h2 j o, 1 <= w <= iw -> layout_ok w devs ->
  nth_error devs k = Some (Motor i1 i2) -> 0 <= r < 2 ^ w -> wires_ok w b ->
  calls_ok devs (fun _ => false) (h1 ++ (k, Attach) :: h2 ++ [(j, o)]) ->
  exists s1 es1 s2 es2 s3 es3, ch_run iw w devs (ch_new r) h1 = Some (s1, es1) /\
    ch_run iw w devs s1 ((k, Attach) :: h2) = Some (s2, es2) /\ ch_step iw w devs s2 j o = Some (s3, es3) /\
    let b1 := wires_run b es1 in let b2 := wires_run b1 es2 in let b3 := wires_run b2 es3 in
    let p := pins_at w i1 i2 k in
    p b2 = fold_left turned (own k h2) (turned (p b1) Attach) /\
    if (j =? k)%nat
    then (exists n m, map p (moments b2 es3) = repeat (p b2) n ++ repeat (halfway (p b2) o) m ++
            match o with Run _ => [turned (p b2) o] | _ => [] end) /\
         p b3 = turned (p b2) o
    else (exists n, map p (moments b2 es3) = repeat (p b2) n) /\ p b3 = p b2.
Proof. intros iw w devs k i1 i2 r b h1 h2 j o Hw Hl Hk Hr Hb C. exact (motor_l iw w devs Hw Hl k i1 i2 Hk r b h1 h2 j o Hr Hb C). Qed.

(** So a command is obeyed, and on the way the motor turns in no direction but the old and the new. *)
Theorem chain_motor_drive : forall iw w devs k i1 i2 r b h1 h2 c, 1 <= w <= iw -> layout_ok w devs ->
  nth_error devs k = Some (Motor i1 i2) -> 0 <= r < 2 ^ w -> wires_ok w b ->
  calls_ok devs (fun _ => false) (h1 ++ (k, Attach) :: h2 ++ [(k, Run c)]) ->
  exists s1 es1 s2 es2, ch_run iw w devs (ch_new r) (h1 ++ (k, Attach) :: h2) = Some (s1, es1) /\
    ch_step iw w devs s1 k (Run c) = Some (s2, es2) /\
    let b1 := wires_run b es1 in let d x := drive_of (pins_at w i1 i2 k x) in
    d (wires_run b1 es2) = asked c /\
    Forall (fun x => direction (d x) = direction (d b1) \/ direction (d x) = direction (asked c)) (moments b1 es2).
Proof.
  intros iw w devs k i1 i2 r b h1 h2 c Hw Hl Hk Hr Hb C.
  destruct (motor_l iw w devs Hw Hl k i1 i2 Hk r b h1 h2 k (Run c) Hr Hb C) as (s1 & es1 & s2 & es2 & s3 & es3 & S1 & S2 & S3 & _ & D).
  exists s2, (es1 ++ es2), s3, es3. rewrite ch_run_app, S1. cbn [bindo fst snd]. rewrite S2. cbn [bindo fst snd].
  split; [reflexivity|]. split; [exact S3|]. cbv zeta in *. rewrite wires_run_app. rewrite Nat.eqb_refl in D. destruct D as ((n & m & M) & D).
  set (b2 := wires_run (wires_run b es1) es2) in *.
  assert (T : drive_of (turned (pins_at w i1 i2 k b2) (Run c)) = asked c) by (destruct c; reflexivity).
  assert (H : direction (drive_of (halfway (pins_at w i1 i2 k b2) (Run c))) = direction (asked c)) by (destruct c; reflexivity).
  split; [rewrite D; exact T|].
  assert (F : Forall (fun p => direction (drive_of p) = direction (drive_of (pins_at w i1 i2 k b2)) \/ direction (drive_of p) = direction (asked c))
    (map (pins_at w i1 i2 k) (moments b2 es3))).
  { rewrite M. apply Forall_app. split; [apply Forall_forall; intros p Hp; apply repeat_spec in Hp; subst p; left; reflexivity|].
    apply Forall_app. split; [apply Forall_forall; intros p Hp; apply repeat_spec in Hp; subst p; right; exact H|].
    constructor; [right; rewrite T; reflexivity|constructor]. }
  rewrite Forall_map in F. exact F.
Qed.

(** Outputs no device owns show the bits the array had, from the first setDataRegister on. *)
Theorem chain_free : forall iw w devs i r b h1 k h2, 1 <= w <= iw -> layout_ok w devs ->
  0 <= i < w -> ~ In i (concat (map bits_of devs)) -> 0 <= r < 2 ^ w -> wires_ok w b ->
  calls_ok devs (fun _ => false) (h1 ++ (k, Attach) :: h2) ->
  exists s es, ch_run iw w devs (ch_new r) (h1 ++ (k, Attach) :: h2) = Some (s, es) /\
    out_bit w (wires_run b es) i = Z.testbit r i.
Proof. intros iw w devs i r b h1 k h2 Hw Hl Hi N Hr Hb C. exact (free_l iw w devs Hw Hl i r b h1 k h2 Hi N Hr Hb C). Qed.

(** A display at bits 0-5 and a motor at bits 6 and 7 of a byte. *)
Definition ix0 : indices := {| irs := 0; ien := 1; i4 := 2; i5 := 3; i6 := 4; i7 := 5 |}.
Definition two : list device := [Display ix0; Motor 6 7].
Definition powered (v : bool) : wires :=
  mkWires {| data := false; clock := false; latch := false; reg := repeat v 8; outs := repeat v 8 |} (fun _ => 0).
Lemma two_ok : layout_ok 8 two.
Proof.
  split; cbn.
  - repeat (apply NoDup_cons; [cbn; intuition discriminate|]). apply NoDup_nil.
  - repeat (apply Forall_cons; [lia|]). apply Forall_nil.
Qed.

(** A motor's controller used before setDataRegister reads through NULL; the display's driver does
    nothing then. *)
Theorem chain_null_refuted : exists devs k j, layout_ok 8 devs /\
  ch_step 32 8 devs (ch_new 0) k (Run Stop) = None /\
  ch_step 32 8 devs (ch_new 0) j (Disp (DCmd 1)) = Some (ch_new 0, []).
Proof.
  exists two, 1%nat, 0%nat. split; [exact two_ok|].
  split; reflexivity.
Qed.

(** Another device attached first can make a display take a nibble nobody sent it: the outputs come up
    high and the array starts at 0, so its enable line falls. *)
Theorem chain_early_refuted : exists devs ix r b h, nth_error devs 0%nat = Some (Display ix) /\ layout_ok 8 devs /\
  0 <= r < 2 ^ 8 /\ wires_ok 8 b /\ calls_ok devs (fun _ => false) h /\ own 0 h = [] /\
  exists s es, ch_run 32 8 devs (ch_new r) h = Some (s, es) /\
    snd (watch 0 (lines_at 8 ix b) M8 (map (lines_at 8 ix) (moments b es))) <> [].
Proof.
  exists two, ix0, 0, (powered true), [(1%nat, Attach)]. split; [reflexivity|]. split; [exact two_ok|].
  split; [lia|]. split; [repeat split; cbn; lia|]. split; [cbn; auto|]. split; [reflexivity|].
  eexists. eexists. split; [lazy; reflexivity|]. lazy. discriminate.
Qed.

(** The display is initialised between two commands to the motor; the motor turns all the time. *)
Example chain_together :
  let h := [(1%nat, Attach); (0%nat, Attach); (1%nat, Run (Clockwise 9)); (0%nat, Disp (DNib 2)); (0%nat, Disp (DData 65)); (1%nat, Run Break)] in
  calls_ok two (fun _ => false) h /\
  match ch_run 32 8 two (ch_new 0) h with
  | Some (s, es) => drive_of (pins_at 8 6 7 1 (wires_run (powered false) es)) = Brake /\
      snd (watch 0 (lines_at 8 ix0 (powered false)) (M4) (map (lines_at 8 ix0) (moments (powered false) es))) =
      snd (edges 0 M4 [(false, 2); (true, 4); (true, 1)]) /\
      Forall (fun x => direction (drive_of (pins_at 8 6 7 1 x)) <> Some false) (moments (powered false) es)
  | None => False
  end.
Proof.
  split; [cbn; repeat split; lia|]. lazy. split; [reflexivity|]. split; [reflexivity|].
  repeat (constructor; [discriminate|]). constructor.
Qed.

Print Assumptions chain_display.
Print Assumptions chain_motor.
Print Assumptions chain_motor_drive.
Print Assumptions chain_free.
Print Assumptions chain_null_refuted.
Print Assumptions chain_early_refuted.
