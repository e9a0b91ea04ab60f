(** C77: the PID controller in floating point. *)
Require Import ZArith List Bool Lia ZifyBool Floats.SpecFloat.
Import ListNotations.
From Verif Require Import Base BaseFacts RangeModel PidModel PidSpec RealModel RealProofs FloatSpec FloatProofs PidFloatModel PidFloatSpec
  PidFloatProofs PidFloatAccProofs.
Open Scope Z_scope.
Ltac Zify.zify_post_hook ::= idtac.

(** Whatever data the calls get, infinities and NaN too: every output and the integral are in the range or NaN. *)
Theorem pidf_bounded : forall p x r largest s ins, 24 <= p < x -> 128 <= x ->
  ok_range p x r -> in_frange p x r f0 -> valid p x largest ->
  valid p x (f_acc s) -> valid p x (f_last s) -> (f_acc s = S754_nan \/ in_frange p x r (f_acc s)) ->
  Forall (fvalid_in p x) ins ->
  let '(s', vs) := fpid_run p x r largest s ins in
  length vs = length ins /\ Forall (fun v => v = S754_nan \/ in_frange p x r v) vs /\
  (f_acc s' = S754_nan \/ in_frange p x r (f_acc s')).
Proof. intros p x r largest s ins [H1 H2] H3 R R0 VL VA VS IA F. apply run_bounds_f; assumption. Qed.
Print Assumptions pidf_bounded.

(** Moderate finite inputs: every output is a number in the range, and outputs and integral are near the
    exact ones: within n * (1 + (M + 6 K) / 2^p) units of the smallest number for n calls and 5 more steps, if M
    bounds the range and K the terms. *)
Theorem pidf_accuracy : forall p x r largest M K F s ins, 24 <= p < x -> 128 <= x ->
  frange_ok p x r -> number p x largest -> 0 <= fval p x largest ->
  let b := fval p x (fr_begin r) in let e := fval p x (fr_end r) in let L := fval p x largest in
  let A := fval p x (f_acc s) in let G := fval p x (f_last s) in let u := U p x in
  - M <= b -> e <= M -> 0 <= K ->
  upto p x 60 (f_acc s) -> b <= A <= e -> upto p x 32 (f_last s) -> Z.abs G <= F ->
  Forall (fun i => fmoderate p x i /\ sized p x L K F i) ins ->
  exists s' vs, fpid_run p x r largest s ins = (s', vs) /\ length vs = length ins /\
    Forall (fun v => number p x v /\ b <= fval p x v <= e) vs /\
    number p x (f_acc s') /\ b <= fval p x (f_acc s') <= e /\
    2 ^ p * Z.abs (fval p x (f_acc s') * u - fintegral p x b e L (A * u) ins)
      <= u * bound p M K (Z.of_nat (length ins)) /\
    forall n i, nth_error ins n = Some i -> exists v, nth_error vs n = Some v /\
      2 ^ p * Z.abs (fval p x v * (u * f_dt i) - fout p x b e L (A * u) G (firstn n ins) i)
        <= u * f_dt i * bound p M K (Z.of_nat n + 5).
Proof.
  intros p x r largest M K F s ins [H1 H2] H3 R NL L0 b e L A G u Hb He HK UA HA UL HL FV.
  apply (run_l p x H1 H3 H2 r largest M K F ins s (A * u) 0); try assumption; [lia|].
  fold A u. rewrite Z.sub_diag. unfold bound. cbn [Z.abs]. lia.
Qed.
Print Assumptions pidf_accuracy.

(** Whole inputs with whole terms of at most 2^22: the integer controller's outputs, exactly. *)
Theorem pidf_integers : forall p x fr largest r lg fins ins s A last, 24 <= p < x -> 128 <= x ->
  frange_ok p x fr -> holds p x largest lg -> 0 <= lg ->
  holds p x (fr_begin fr) (r_begin r) -> holds p x (fr_end fr) (r_end r) ->
  - 2 ^ 22 <= r_begin r <= 0 -> 0 <= r_end r <= 2 ^ 22 ->
  Forall (fmoderate p x) fins -> Forall2 (same_in p x) fins ins -> whole lg last ins ->
  holds p x (f_acc s) A -> r_begin r <= A <= r_end r -> holds p x (f_last s) last -> upto p x 32 (f_last s) ->
  exists s' vs, fpid_run p x fr largest s fins = (s', vs) /\ length vs = length ins /\
    holds p x (f_acc s') (integral r lg A ins) /\
    forall n i, nth_error ins n = Some i -> exists v, nth_error vs n = Some v /\
      holds p x v (pid_output r lg A last (firstn n ins) i).
Proof. intros p x fr largest r lg fins ins s A last [H1 H2] H3. apply whole_run; assumption. Qed.
Print Assumptions pidf_integers.

(** One NaN reading poisons the integral: the output of that call and of every later one, however good its
    inputs, is NaN until an error falls in the dead band. *)
Theorem pidf_nan_sticks : forall p x r largest s i ins, 24 <= p < x -> 128 <= x -> valid p x largest -> le_f p x f0 largest ->
  f_set i = S754_nan \/ f_feedback i = S754_nan -> f_eq (f_i i) f0 = false ->
  Forall (fun j => let error := SFsub p x (f_set j) (f_feedback j) in
    valid p x (f_set j) /\ valid p x (f_feedback j) /\ ~ (le_f p x (SFopp largest) error /\ le_f p x error largest)) ins ->
  let '(s', vs) := fpid_run p x r largest s (i :: ins) in
  f_acc s' = S754_nan /\ vs = repeat S754_nan (S (length ins)).
Proof.
  intros p x r largest s i ins [H1 H2] H3 VL L0 N I0 F. cbn [fpid_run].
  pose proof (nan_start p x r largest s i N I0) as P. destruct (fprocess p x r largest s i) as [s1 v]. destruct P as [P ->].
  pose proof (nan_run p x H1 H2 r largest ins s1 VL L0 P F) as Q.
  destruct (fpid_run p x r largest s1 ins) as [s2 vs]. destruct Q as [Q ->]. auto.
Qed.
Print Assumptions pidf_nan_sticks.

(** The dead band resets the integral to zero, also from NaN. *)
Theorem pidf_recovers : forall p x r largest s i, 24 <= p < x -> 128 <= x -> ok_range p x r -> in_frange p x r f0 ->
  valid p x largest -> le_f p x f0 largest -> valid p x (f_set i) -> valid p x (f_feedback i) -> fin (f_i i) ->
  0 <= f_dt i < 65536 ->
  let error := SFsub p x (f_set i) (f_feedback i) in le_f p x (SFopp largest) error -> le_f p x error largest ->
  exists b, f_acc (fst (fprocess p x r largest s i)) = S754_zero b.
Proof. intros p x r largest s i [H1 H2] H3 R R0 VL L0 V1 V2 FI HT. cbv zeta. apply recover; assumption. Qed.
Print Assumptions pidf_recovers.

(** A call without time and with a differential gain returns NaN or an end of the range. *)
Theorem pidf_zero_time : forall p x r largest s i, 24 <= p < x -> 128 <= x -> ok_range p x r ->
  f_dt i = 0 -> f_eq (f_d i) f0 = false ->
  let v := snd (fprocess p x r largest s i) in v = S754_nan \/ v = fr_begin r \/ v = fr_end r.
Proof. intros p x r largest s i [H1 H2] H3 R T D. apply zero_time; assumption. Qed.
Print Assumptions pidf_zero_time.

(** 1 and powers of two in binary32. *)
Definition s_pow (s : bool) (k : Z) : spec_float := S754_finite s 8388608 (k - 23).
Definition s_one : spec_float := s_pow false 0.
Definition no_filter (e : spec_float) (_ : Z) : spec_float := e.
Definition s_range : frange := mkFRange (s_pow true 30) (s_pow false 30).
(** set point 1, feedback 0, a time of 1, integral gain only *)
Definition s_in : fpid_in := mkFIn s_one f0 1 f0 s_one f0 no_filter.
Definition s_start : fpid := mkFPid (s_pow false 24) f0.

(** "A lasting error is integrated away" fails: in binary32 an error of 1 never moves an integral of 2^24, though the
    exact integral grows up to the end of the range. *)
Theorem pidf_stall_refuted : forall n,
  let ins := repeat s_in n in let u := U 24 128 in
  f_acc (fst (fpid_run 24 128 s_range f0 s_start ins)) = f_acc s_start /\
  fintegral 24 128 (fval 24 128 (fr_begin s_range)) (fval 24 128 (fr_end s_range)) 0 (fval 24 128 (f_acc s_start) * u) ins
    = Z.min (2 ^ 30) (2 ^ 24 + Z.of_nat n) * u * u /\
  fval 24 128 (f_acc s_start) = 2 ^ 24 * u.
Proof.
  intros n ins u. split; [|split].
  - unfold ins. assert (G : forall s, f_acc s = f_acc s_start -> f_acc (fst (fpid_run 24 128 s_range f0 s (repeat s_in n))) = f_acc s_start).
    { induction n as [|n IH]; intros s H; [exact H|]. cbn [repeat fpid_run].
      assert (P : fst (fprocess 24 128 s_range f0 s s_in) = mkFPid (f_acc s_start) s_one).
      { destruct s as [a l]. cbn [f_acc] in H. subst a. lazy. reflexivity. }
      destruct (fprocess 24 128 s_range f0 s s_in) as [s1 v]. cbn [fst] in P. subst s1.
      specialize (IH (mkFPid (f_acc s_start) s_one) eq_refl).
      destruct (fpid_run _ _ _ _ _ _) as [s2 vs]. exact IH. }
    apply G. reflexivity.
  - unfold ins.
    assert (B : fval 24 128 (fr_begin s_range) = - (2 ^ 30) * u) by (lazy; reflexivity).
    assert (E : fval 24 128 (fr_end s_range) = 2 ^ 30 * u) by (lazy; reflexivity).
    assert (A : fval 24 128 (f_acc s_start) = 2 ^ 24 * u) by (lazy; reflexivity).
    assert (D : fdiff 24 128 s_in = u) by (lazy; reflexivity).
    assert (I1 : fval 24 128 (f_i s_in) = u) by (lazy; reflexivity).
    assert (UP : 0 < u) by (lazy; reflexivity).
    assert (UE : U 24 128 = u) by reflexivity.
    rewrite B, E, A. clearbody u.
    assert (G : forall n z, 0 <= z <= 2 ^ 30 -> fintegral 24 128 (- 2 ^ 30 * u) (2 ^ 30 * u) 0 (z * u * u) (repeat s_in n)
                  = Z.min (2 ^ 30) (z + Z.of_nat n) * u * u).
    { clear B E A. intros k. induction k as [|k IH]; intros z Hz.
      - cbn [repeat]. unfold fintegral. cbn [fold_left]. rewrite Z.add_0_r, Z.min_r by lia. reflexivity.
      - cbn [repeat]. unfold fintegral in *. cbn [fold_left].
        assert (ST : fintegral_step 24 128 (- 2 ^ 30 * u) (2 ^ 30 * u) 0 (z * u * u) s_in = Z.min (2 ^ 30) (z + 1) * u * u).
        { unfold fintegral_step, ferr. rewrite D, I1.
          destruct (Z.leb_spec (Z.abs u) 0) as [Q|Q]; [clear - Q UP; lia|].
          destruct (Z.eqb_spec u 0) as [Q0|Q0]; [clear - Q0 UP; lia|]. cbn [f_dt s_in]. clear IH D I1.
          rewrite UE. unfold flimit. change (2 ^ 30) with 1073741824 in *.
          replace (- (1073741824) * u * u) with (- 1073741824 * (u * u)) by ring.
          replace (1073741824 * u * u) with (1073741824 * (u * u)) by ring.
          replace (z * u * u + u * 1 * u) with ((z + 1) * (u * u)) by ring.
          assert (W : 0 < u * u) by (apply Z.mul_pos_pos; exact UP).
          rewrite Z.mul_min_distr_nonneg_r, Z.mul_max_distr_nonneg_r by (clear - W; lia).
          rewrite <- Z.mul_assoc. f_equal. clear - Hz. lia. }
        rewrite ST, IH by lia. f_equal. f_equal. lia. }
    apply G. lia.
  - lazy. reflexivity.
Qed.
Print Assumptions pidf_stall_refuted.

(** A NaN reading among good ones: 5 outputs, then the error 0 and two good ones. *)
Example pidf_nan_example :
  let good := s_in in let bad := mkFIn s_one S754_nan 1 f0 s_one f0 no_filter in
  let dead := mkFIn s_one s_one 1 f0 s_one f0 no_filter in
  snd (fpid_run 24 128 s_range f0 (mkFPid f0 f0) [good; bad; good; good; good; dead; good])
    = [s_one; S754_nan; S754_nan; S754_nan; S754_nan; f0; s_one].
Proof. lazy. reflexivity. Qed.
(** No time: an unchanged error gives NaN, a changed one the end of the range. *)
Example pidf_zero_time_example :
  let d dt v := mkFIn v f0 dt f0 f0 s_one no_filter in
  snd (fpid_run 24 128 s_range f0 (mkFPid f0 f0) [d 1 s_one; d 0 s_one; d 0 (s_pow false 1); d 1 (s_pow false 1)])
    = [s_one; S754_nan; s_pow false 30; f0].
Proof. lazy. reflexivity. Qed.
(** The hypotheses of accuracy and of the exact case hold of an ordinary controller. *)
Definition o_in : fpid_in := mkFIn (s_pow false 2) s_one 2 (s_pow false 1) s_one (s_pow false 1) no_filter.
Ltac upto_t := split; [split; [exact Logic.I|lazy; reflexivity]|apply Z.leb_le; lazy; reflexivity].
Ltac holds_t := split; [split; [exact Logic.I|lazy; reflexivity]|lazy; reflexivity].
Example pidf_moderate_example : fmoderate 24 128 o_in /\ frange_ok 24 128 s_range /\ upto 24 128 60 f0 /\
  sized 24 128 0 (2 ^ 10 * U 24 128) (3 * U 24 128) o_in.
Proof.
  split; [|split; [|split]].
  - unfold fmoderate, o_in. cbn [f_set f_feedback f_dt f_p f_i f_d f_filter].
    split; [upto_t|]. split; [upto_t|]. split; [upto_t|]. split; [upto_t|]. split; [upto_t|]. split; [lia|]. intros e dt H. exact H.
  - split; [upto_t|]. split; [upto_t|]. split; apply Z.leb_le; lazy; reflexivity.
  - upto_t.
  - split; [|split; [|split]]; apply Z.leb_le; lazy; reflexivity.
Qed.
Example pidf_whole_example :
  let i := mkIn 4 1 2 2 1 2 (fun e _ => e) in let r := mkRange (-1000) 1000 in
  same_in 24 128 o_in i /\ whole 0 1 [i] /\ pid_output r 0 0 1 [] i = 14 /\
  snd (fpid_run 24 128 s_range f0 (mkFPid f0 s_one) [o_in]) = [S754_finite false 14680064 (-20)] /\
  holds 24 128 (S754_finite false 14680064 (-20)) 14.
Proof.
  cbv zeta. split; [|split; [|split; [|split]]].
  - unfold same_in, o_in. cbn [f_set f_feedback f_dt f_p f_i f_d f_filter i_set i_feedback i_p i_i i_d i_dt i_filter].
    split; [holds_t|]. split; [holds_t|]. split; [holds_t|]. split; [holds_t|]. split; [holds_t|]. split; [reflexivity|]. intros f z dt H. exact H.
  - cbn [whole]. split; [|split; [|split; [|split; [|split; [|split; [|split; [exists 2; reflexivity|exact Logic.I]]]]]]]; apply Z.leb_le; lazy; reflexivity.
  - reflexivity.
  - lazy. reflexivity.
  - holds_t.
Qed.
