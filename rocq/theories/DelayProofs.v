Require Import ZArith List Bool Lia ZifyBool.
Import ListNotations.
From Verif Require Import Base BaseFacts RealModel RealSpec RealProofs DelayModel DelaySpec.
Open Scope Z_scope.

Lemma us_small : forall t, 0 <= t < 65536 -> u16 (Z.shiftl t 2) = (4 * t) mod 65536.
Proof. intros t T. rewrite Z.shiftl_mul_pow2 by lia. change (2 ^ 2) with 4. unfold u16. rewrite Z.mul_comm. reflexivity. Qed.
Lemma us_at_least_l : forall short long t, 16 <= short -> 20 <= long -> 0 <= t <= 16385 -> us_cycles t <= wait_us short long t.
Proof.
  intros short long t S L T. unfold wait_us, us_cycles. rewrite (u16_small t) by lia. destruct (t <=? 1) eqn:E; [lia|].
  rewrite us_small by lia. destruct (Z.le_gt_cases t 16383) as [H|H].
  - rewrite (Z.mod_small (4 * t)) by lia. rewrite u16_small by lia. lia.
  - assert (C : t = 16384 \/ t = 16385) by lia. destruct C as [-> | ->]; [change (u16 ((4 * 16384) mod 65536 - 5)) with 65531|change (u16 ((4 * 16385) mod 65536 - 5)) with 65535]; lia.
Qed.
Lemma us_upper : forall short long t, 0 <= short -> 0 <= long -> wait_us short long t <= Z.max short (long + 4 * 65535).
Proof.
  intros short long t S L. unfold wait_us. destruct (u16 t <=? 1); [lia|]. set (x := u16 (Z.shiftl (u16 t) 2) - 5). clearbody x.
  pose proof (Z.mod_pos_bound x 65536 ltac:(lia)) as B. unfold u16. lia.
Qed.
Lemma us_exact_l : forall short long t, 16 <= short <= 1000 -> 20 <= long < 36 -> 0 <= t < 4294967296 ->
  (us_cycles t <= wait_us short long t <-> t <= 16385).
Proof.
  intros short long t S L T. split; [|intro H; apply us_at_least_l; lia]. intro H.
  pose proof (us_upper short long t ltac:(lia) ltac:(lia)) as B. unfold us_cycles in H. lia.
Qed.
Lemma us_close_l : forall short long t, 2 <= t <= 16385 -> wait_us short long t = us_cycles t + (long - 20).
Proof.
  intros short long t T. unfold wait_us, us_cycles. rewrite (u16_small t) by lia. replace (t <=? 1) with false by lia.
  rewrite us_small by lia. destruct (Z.le_gt_cases t 16383) as [H|H].
  - rewrite (Z.mod_small (4 * t)) by lia. rewrite u16_small by lia. lia.
  - assert (C : t = 16384 \/ t = 16385) by lia. destruct C as [-> | ->]; [change (u16 ((4 * 16384) mod 65536 - 5)) with 65531|change (u16 ((4 * 16385) mod 65536 - 5)) with 65535]; lia.
Qed.

(** ** delay *)
Definition mic (c : Z) : Z := 4 * (c / 64).
Lemma mic_mono : forall a b, a <= b -> mic a <= mic b.
Proof. intros a b H. unfold mic. pose proof (Z.div_le_mono a b 64 ltac:(lia) H). clear H. lia. Qed.
Lemma u32_le : forall x, 0 <= x -> u32 x <= x.
Proof. intros x H. unfold u32. apply Z.mod_le; lia. Qed.
Lemma u32_diff : forall a b, u32 (u32 a - u32 b) = u32 (a - b).
Proof. intros a b. unfold u32. rewrite <- Zminus_mod. reflexivity. Qed.
Lemma u32_add : forall a k, u32 (u32 a + k) = u32 (a + k).
Proof. intros a k. unfold u32. rewrite Zplus_mod_idemp_l. reflexivity. Qed.
Lemma loop_at_least : forall polls ms a now c, 1 <= ms -> rising now polls -> a <= mic now ->
  delay_loop ms (u32 a) polls = Some c -> a + 1000 * ms <= mic c.
Proof.
  induction polls as [|p rest IH]; intros ms a now c M R A E; [discriminate|]. destruct R as [R1 R2]. pose proof (mic_mono _ _ R1) as G. cbn [delay_loop] in E.
  unfold micros in E. fold (mic p) in E. rewrite u32_diff in E. pose proof (u32_le (mic p - a) ltac:(clear - A G; lia)) as U.
  destruct (u32 (mic p - a) >=? 1000) eqn:Q.
  - assert (Q' : 1000 <= mic p - a) by (clear - Q U; lia). destruct (ms - 1 =? 0) eqn:Z0.
    + injection E as <-. clear - Q' Z0. lia.
    + rewrite u32_add in E. specialize (IH (ms - 1) (a + 1000) p c ltac:(clear - M Z0; lia) R2 ltac:(clear - Q'; lia) E). clear - IH. lia.
  - apply (IH ms a p c M R2 ltac:(clear - A G; lia) E).
Qed.
Lemma loop_exact : forall polls ms a now, 1 <= ms -> rising now polls -> within 15936 now polls -> a <= mic now < a + 1000 ->
  delay_loop ms (u32 a) polls = find (fun c => a + 1000 * ms <=? mic c) polls.
Proof.
  induction polls as [|p rest IH]; intros ms a now M R W A; [reflexivity|]. destruct R as [R1 R2], W as [W1 W2]. pose proof (mic_mono _ _ R1) as G.
  assert (G2 : mic p <= mic now + 1000).
  { clear - W1. unfold mic. assert (p / 64 <= (now + 250 * 64) / 64) by (apply Z.div_le_mono; lia). rewrite Z.div_add in H by lia. lia. }
  cbn [delay_loop find]. unfold micros. fold (mic p). rewrite u32_diff.
  assert (U : u32 (mic p - a) = mic p - a) by (unfold u32; apply Z.mod_small; clear - A G G2; lia). rewrite U.
  destruct (mic p - a >=? 1000) eqn:Q.
  - destruct (ms - 1 =? 0) eqn:Z0.
    + replace (a + 1000 * ms <=? mic p) with true by (clear - Q Z0; lia). reflexivity.
    + replace (a + 1000 * ms <=? mic p) with false by (clear - A G2 Z0 M; lia). rewrite u32_add, (IH (ms - 1) (a + 1000) p) by (try assumption; clear - A G G2 Q Z0 M; lia).
      replace (a + 1000 + 1000 * (ms - 1)) with (a + 1000 * ms) by (clear; lia). reflexivity.
  - replace (a + 1000 * ms <=? mic p) with false by (clear - Q M; lia). apply (IH ms a p); try assumption. clear - A G Q. lia.
Qed.
Lemma ms_at_least_l : forall t now polls c, 0 <= t < 4294967296 -> rising now polls -> wait_ms t now polls = Some c -> ms_cycles t - 64 < c - now.
Proof.
  intros t now polls c T R E. unfold wait_ms in E. unfold u32 in E at 1 2. rewrite !Z.mod_small in E by exact T. unfold ms_cycles.
  destruct (t =? 0) eqn:Z0; [injection E as <-; clear - Z0; lia|].
  pose proof (loop_at_least polls t (mic now) now c ltac:(clear - T Z0; lia) R ltac:(lia) E) as H. unfold mic in H.
  pose proof (Z.div_mod c 64 ltac:(lia)). pose proof (Z.div_mod now 64 ltac:(lia)). pose proof (Z.mod_pos_bound c 64 ltac:(lia)). pose proof (Z.mod_pos_bound now 64 ltac:(lia)).
  clear - H H0 H1 H2 H3. set (x := c / 64) in *. set (y := now / 64) in *. set (u := c mod 64) in *. set (v := now mod 64) in *. clearbody x y u v. lia.
Qed.
Lemma ms_exact_l : forall t now polls, 0 < t < 4294967296 -> rising now polls -> within 15936 now polls ->
  wait_ms t now polls = find (fun c => 1000 * t <=? 4 * (c / 64) - 4 * (now / 64)) polls.
Proof.
  intros t now polls T R W. unfold wait_ms. unfold u32 at 1 2. rewrite !Z.mod_small by lia. replace (t =? 0) with false by lia.
  change (micros now) with (u32 (mic now)). rewrite (loop_exact polls t (mic now) now) by (try assumption; clear - T; lia).
  clear. induction polls as [|c rest IH]; [reflexivity|]. cbn [find]. rewrite IH. fold (mic c) (mic now).
  replace (1000 * t <=? mic c - mic now) with (mic now + 1000 * t <=? mic c) by (clear; lia). reflexivity.
Qed.
Lemma find_first : forall f g (polls : list Z) now, rising now polls -> within g now polls -> f now = false ->
  (forall a b, a <= b -> f a = true -> f b = true) -> forall c, find f polls = Some c -> exists b, f b = false /\ b <= c <= b + g.
Proof.
  intros f g. induction polls as [|p rest IH]; intros now R W F M c E; [discriminate|]. destruct R as [R1 R2], W as [W1 W2]. cbn [find] in E.
  destruct (f p) eqn:P; [injection E as <-; exists now; repeat split; try assumption|]. apply (IH p R2 W2 P M c E).
Qed.
Lemma ms_latest_l : forall t now polls c, 0 < t < 4294967296 -> rising now polls -> within 15936 now polls ->
  wait_ms t now polls = Some c -> c - now < ms_cycles t + 64 + 15936.
Proof.
  intros t now polls c T R W E. rewrite ms_exact_l in E by assumption.
  destruct (find_first (fun c => 1000 * t <=? 4 * (c / 64) - 4 * (now / 64)) 15936 polls now R W) with (c := c) as (b & B1 & B2); [lia| |exact E|].
  - intros x y H1 H2. pose proof (Z.div_le_mono x y 64 ltac:(lia) H1) as H3. clear - H2 H3. lia.
  - unfold ms_cycles. clear E R W. assert (B3 : 4 * (b / 64) - 4 * (now / 64) < 1000 * t) by (clear - B1; lia).
    pose proof (Z.div_mod b 64 ltac:(lia)). pose proof (Z.div_mod now 64 ltac:(lia)). pose proof (Z.mod_pos_bound b 64 ltac:(lia)). pose proof (Z.mod_pos_bound now 64 ltac:(lia)).
    clear - B3 B2 H H0 H1 H2. set (x := b / 64) in *. set (y := now / 64) in *. set (u := b mod 64) in *. set (v := now mod 64) in *. clearbody x y u v. lia.
Qed.
Lemma ms_ends_l : forall t now polls c, 0 < t < 4294967296 -> rising now polls -> within 15936 now polls -> In c polls -> ms_cycles t + 64 <= c - now ->
  wait_ms t now polls <> None.
Proof.
  intros t now polls c T R W I H E. rewrite ms_exact_l in E by assumption. apply find_none with (x := c) in E; [|exact I]. unfold ms_cycles in H.
  pose proof (Z.div_mod c 64 ltac:(lia)). pose proof (Z.div_mod now 64 ltac:(lia)). pose proof (Z.mod_pos_bound c 64 ltac:(lia)). pose proof (Z.mod_pos_bound now 64 ltac:(lia)).
  clear - E H H0 H1 H2 H3. set (x := c / 64) in *. set (y := now / 64) in *. set (u := c mod 64) in *. set (v := now mod 64) in *. clearbody x y u v. lia.
Qed.

(** ** avr-libc *)
Section Avr.
Variables (S P F per t : Z).
Hypothesis (S0 : 0 < S) (P0 : 1 < P) (F0 : 0 <= F) (per0 : 0 < per) (t0 : 0 <= t).
Lemma chain_low : forall A B C X, 0 <= A -> 0 <= B -> 0 <= C -> 0 <= X ->
  (P - 1) * (F * S) <= P * A -> (P - 1) * A <= P * (B * per) -> (P - 1) * (t * S) <= P * C -> (P - 1) * (B * C) <= P * (X * S) ->
  (P - 1) * (P - 1) * ((P - 1) * (P - 1)) * (F * t) * S <= P * P * (P * P) * (X * per).
Proof.
  intros A B C X A0 B0 C0 X0 H1 H2 H3 H4. apply (Z.mul_le_mono_pos_r _ _ S S0).
  assert (Q : 0 <= P - 1) by lia. assert (Q' : 0 <= P) by lia.
  assert (G1 : (P - 1) * ((P - 1) * (F * S)) <= P * (P * (B * per))).
  { apply Z.le_trans with ((P - 1) * (P * A)); [apply Z.mul_le_mono_nonneg_l; assumption|].
    replace ((P - 1) * (P * A)) with (P * ((P - 1) * A)) by ring. apply Z.mul_le_mono_nonneg_l; assumption. }
  assert (G2 : (P - 1) * ((P - 1) * (F * S)) * ((P - 1) * (t * S)) <= P * (P * (B * per)) * (P * C)).
  { apply Z.mul_le_mono_nonneg; try assumption; repeat apply Z.mul_nonneg_nonneg; lia. }
  assert (G3 : (P - 1) * (P * (P * (B * per)) * (P * C)) <= P * P * P * per * (P * (X * S))).
  { replace ((P - 1) * (P * (P * (B * per)) * (P * C))) with (P * P * P * per * ((P - 1) * (B * C))) by ring.
    apply Z.mul_le_mono_nonneg_l; [repeat apply Z.mul_nonneg_nonneg; lia|exact H4]. }
  assert (G4 : (P - 1) * ((P - 1) * ((P - 1) * (F * S)) * ((P - 1) * (t * S))) <= (P - 1) * (P * (P * (B * per)) * (P * C))) by (apply Z.mul_le_mono_nonneg_l; assumption).
  apply Z.le_trans with ((P - 1) * ((P - 1) * ((P - 1) * (F * S)) * ((P - 1) * (t * S)))); [apply Z.eq_le_incl; ring|].
  apply Z.le_trans with (1 := G4). apply Z.le_trans with (1 := G3). apply Z.eq_le_incl. ring.
Qed.
Lemma chain_high : forall A B C X, 0 <= A -> 0 <= B -> 0 <= C -> 0 <= X ->
  P * A <= (P + 1) * (F * S) -> P * (B * per) <= (P + 1) * A -> P * C <= (P + 1) * (t * S) -> P * (X * S) <= (P + 1) * (B * C) ->
  P * P * (P * P) * (X * per) <= (P + 1) * (P + 1) * ((P + 1) * (P + 1)) * (F * t) * S.
Proof.
  intros A B C X A0 B0 C0 X0 H1 H2 H3 H4. apply (Z.mul_le_mono_pos_r _ _ S S0).
  assert (Q : 0 <= P + 1) by lia. assert (Q' : 0 <= P) by lia.
  assert (G1 : P * (P * (B * per)) <= (P + 1) * ((P + 1) * (F * S))).
  { apply Z.le_trans with ((P + 1) * (P * A)); [|apply Z.mul_le_mono_nonneg_l; assumption].
    replace ((P + 1) * (P * A)) with (P * ((P + 1) * A)) by ring. apply Z.mul_le_mono_nonneg_l; assumption. }
  assert (G2 : P * (P * (B * per)) * (P * C) <= (P + 1) * ((P + 1) * (F * S)) * ((P + 1) * (t * S))).
  { apply Z.mul_le_mono_nonneg; try assumption; repeat apply Z.mul_nonneg_nonneg; lia. }
  assert (G3 : P * P * P * per * (P * (X * S)) <= (P + 1) * (P * (P * (B * per)) * (P * C))).
  { replace ((P + 1) * (P * (P * (B * per)) * (P * C))) with (P * P * P * per * ((P + 1) * (B * C))) by ring.
    apply Z.mul_le_mono_nonneg_l; [repeat apply Z.mul_nonneg_nonneg; lia|exact H4]. }
  assert (G4 : (P + 1) * (P * (P * (B * per)) * (P * C)) <= (P + 1) * ((P + 1) * ((P + 1) * (F * S)) * ((P + 1) * (t * S)))) by (apply Z.mul_le_mono_nonneg_l; assumption).
  apply Z.le_trans with (P * P * P * per * (P * (X * S))); [apply Z.eq_le_incl; ring|].
  apply Z.le_trans with (1 := G3). apply Z.le_trans with (1 := G4). apply Z.eq_le_incl. ring.
Qed.
End Avr.
Lemma rel_bounds : forall P x y, P * Z.abs (x - y) <= y -> 0 < P -> (P - 1) * y <= P * x /\ P * x <= (P + 1) * y.
Proof. intros P x y H P0. destruct (Z.abs_spec (x - y)) as [[_ E]|[_ E]]; rewrite E in H; split; lia. Qed.
Lemma fl_rel_big : forall n d, 0 <= n -> 0 < d -> n = 0 \/ d * 8388608 <= n -> 16777216 * Z.abs (fl 24 n d * d - n) <= n.
Proof.
  intros n d N D [-> | B].
  - assert (Z0 : fl 24 0 d = 0); [|rewrite Z0; lia]. unfold fl. change (0 / d) with 0. unfold spacing. change (Z.max 0 (Z.log2 0 + 1 - 24)) with 0. change (2 ^ 0) with 1.
    rewrite Z.mul_1_r, Z.mul_1_r. pose proof (rne_exact 0 d D) as R. rewrite Z.mul_0_l in R. exact R.
  - destruct (fl_rel 24 ltac:(lia) n d N D) as [E|E]; [|exact E]. set (e := Z.abs (fl 24 n d * d - n)) in *. clearbody e. clear - B E. lia.
Qed.
Lemma ticks_l : forall f per t, 1 <= f -> 0 < per <= 1000000 -> 0 <= t < 4294967296 -> let n := delay_ticks f per t in
  4194303 * (f * t) <= 4194304 * (per * n) /\ 2097152 * (per * (n - 1)) <= 2097153 * (f * t).
Proof.
  intros f per t F0 [p0 p1] T. cbv zeta. remember (delay_ticks f per t) as n eqn:E. unfold delay_ticks in E. assert (U : u32 t = t) by (unfold u32; apply Z.mod_small; exact T). rewrite !U in E. clear U. cbv zeta in E.
  unfold fl_int in E. set (S := 2 ^ 149) in *. assert (S0 : 2 ^ 149 <= S) by (unfold S; apply Z.le_refl).
  assert (SP : 0 < S) by (unfold S; reflexivity). assert (SB : 1000000 * 33554432 <= S) by (unfold S; lazy; discriminate).
  assert (SC : 1000000 * 33554432 * 33554432 <= S) by (unfold S; lazy; discriminate). clearbody S. clear S0.
  set (A := fl 24 (f * S) 1) in *. set (B := fl 24 A per) in *. set (C := fl 24 (t * S) 1) in *. set (X := fl 24 (B * C) S) in *.
  assert (FS : 0 <= f * S) by (apply Z.mul_nonneg_nonneg; lia). assert (TS : 0 <= t * S) by (apply Z.mul_nonneg_nonneg; lia).
  pose proof (fl_rel1 24 ltac:(lia) (f * S) FS) as HA. fold A in HA. change (2 ^ 24) with 16777216 in HA.
  pose proof (fl_rel1 24 ltac:(lia) (t * S) TS) as HC. fold C in HC. change (2 ^ 24) with 16777216 in HC.
  assert (A0 : 0 <= A) by (apply fl_range; lia). assert (C0 : 0 <= C) by (apply fl_range; lia).
  apply rel_bounds in HA as [A1 A2]; [|lia]. apply rel_bounds in HC as [C1 C2]; [|lia].
  assert (FS1 : S <= f * S) by (clear - F0 SP; nia).
  assert (AB : S <= 2 * A) by (clear - A1 FS1 SP; lia).
  assert (HB : 16777216 * Z.abs (B * per - A) <= A) by (apply fl_rel_big; [exact A0|exact p0|right; clear - AB SB p1; lia]).
  assert (B0 : 0 <= B) by (apply fl_range; lia). apply rel_bounds in HB as [B1 B2]; [|lia].
  assert (Bp : A <= 2 * (B * per)) by (clear - B1 A0; lia).
  assert (BB : 268435456 <= B).
  { clear - Bp AB SC p0 p1 B0. destruct (Z.le_gt_cases 268435456 B) as [|L]; [assumption|exfalso]. assert (B * per <= 268435456 * 1000000) by (apply Z.mul_le_mono_nonneg; lia). lia. }
  assert (X0 : 0 <= X) by (apply fl_range; [lia|apply Z.mul_nonneg_nonneg; lia|exact SP]).
  assert (HX : 16777216 * Z.abs (X * S - B * C) <= B * C).
  { apply fl_rel_big; [apply Z.mul_nonneg_nonneg; lia|exact SP|]. destruct (Z.eq_dec t 0) as [->|N].
    - left. unfold C. rewrite Z.mul_0_l. clear. unfold fl. change (spacing 24 (0 / 1)) with 0. change (rne 0 (1 * 2 ^ 0)) with 0. lia.
    - right. assert (TS1 : S <= t * S) by (clear - N T SP; nia). assert (CB : S <= 2 * C) by (clear - C1 TS1 SP; lia).
      apply Z.le_trans with (268435456 * C); [clear - CB C0; lia|apply Z.mul_le_mono_nonneg_r; assumption]. }
  apply rel_bounds in HX as [X1 X2]; [|lia].
  pose proof (chain_low S 16777216 f per t SP ltac:(lia) ltac:(lia) p0 ltac:(lia) A B C X A0 B0 C0 X0 A1 B1 C1 X1) as L.
  assert (H : 16777216 * 16777216 * (16777216 * 16777216) * (X * per) <= (16777216 + 1) * (16777216 + 1) * ((16777216 + 1) * (16777216 + 1)) * (f * t) * S).
  { apply chain_high with (A := A) (B := B) (C := C); try assumption; lia. }
  rewrite E. clear n E.
  pose proof (Z.div_mod (- X) S ltac:(lia)) as DM. pose proof (Z.mod_pos_bound (- X) S SP) as MB. set (q := - X / S) in *. set (r := (- X) mod S) in *. clearbody q r.
  assert (FT : 0 <= f * t) by (apply Z.mul_nonneg_nonneg; lia).
  assert (XL : X <= S * - q) by (clear - DM MB; lia). assert (XH : S * (- q - 1) <= X) by (clear - DM MB; lia).
  clearbody A B C X. clear A0 A1 A2 AB B0 B1 B2 Bp BB C0 C1 C2 X1 X2 DM MB SB SC FS TS FS1.
  split.
  - apply (Z.mul_le_mono_pos_r _ _ S SP).
    assert (G : X * per <= S * - q * per) by (apply Z.mul_le_mono_nonneg_r; lia).
    replace (4194304 * (per * - q) * S) with (4194304 * (S * - q * per)) by ring. apply Z.le_trans with (4194304 * (X * per)); [|apply Z.mul_le_mono_nonneg_l; [lia|exact G]].
    replace (4194303 * (f * t) * S) with (4194303 * (f * t * S)) by ring.
    assert (FTS : 0 <= f * t * S) by (apply Z.mul_nonneg_nonneg; lia).
    change (16777216 * 16777216 * (16777216 * 16777216)) with (2 ^ 96) in L. replace ((16777216 - 1) * (16777216 - 1) * ((16777216 - 1) * (16777216 - 1)) * (f * t) * S) with ((16777215 ^ 4) * (f * t * S)) in L by ring.
    set (u := f * t * S) in *. set (w := X * per) in *. clearbody u w. clear - L FTS.
    change (2 ^ 96) with 79228162514264337593543950336 in L. change (16777215 ^ 4) with 79228143625275597098473390081 in L || (let v := eval vm_compute in (16777215 ^ 4) in change (16777215 ^ 4) with v in L). lia.
  - apply (Z.mul_le_mono_pos_r _ _ S SP).
    assert (G : S * (- q - 1) * per <= X * per) by (apply Z.mul_le_mono_nonneg_r; lia).
    replace (2097152 * (per * (- q - 1)) * S) with (2097152 * (S * (- q - 1) * per)) by ring. apply Z.le_trans with (2097152 * (X * per)); [apply Z.mul_le_mono_nonneg_l; [lia|exact G]|].
    replace (2097153 * (f * t) * S) with (2097153 * (f * t * S)) by ring.
    assert (FTS : 0 <= f * t * S) by (apply Z.mul_nonneg_nonneg; lia).
    change (16777216 * 16777216 * (16777216 * 16777216)) with (2 ^ 96) in H. replace ((16777216 + 1) * (16777216 + 1) * ((16777216 + 1) * (16777216 + 1)) * (f * t) * S) with ((16777217 ^ 4) * (f * t * S)) in H by ring.
    set (u := f * t * S) in *. set (w := X * per) in *. clearbody u w. clear - H FTS.
    change (2 ^ 96) with 79228162514264337593543950336 in H. let v := eval vm_compute in (16777217 ^ 4) in change (16777217 ^ 4) with v in H. lia.
Qed.

Lemma cycles_l : forall f per t, 1 <= f -> 0 < per <= 1000000 -> 0 <= t < 4294967296 -> f * t <= per * 4294963200 ->
  exists n, delay_cycles f per t = Some n /\ 4194303 * (f * t) <= 4194304 * (per * n) /\ 2097152 * (per * (n - 1)) <= 2097153 * (f * t).
Proof.
  intros f per t F P T B. destruct (ticks_l f per t F P T) as [L H]. exists (delay_ticks f per t). split; [|split; assumption].
  unfold delay_cycles. cbv zeta. set (n := delay_ticks f per t) in *. clearbody n. replace (4294967296 <=? n) with false; [reflexivity|]. symmetry. apply Z.leb_gt.
  destruct (Z.lt_ge_cases n 4294967296) as [|G]; [assumption|exfalso]. clear L.
  assert (X : per * 4294967295 <= per * (n - 1)) by (apply Z.mul_le_mono_nonneg_l; lia). set (y := per * (n - 1)) in *. set (z := f * t) in *. clearbody y z. clear - H B X P. lia.
Qed.

Lemma rne_scale : forall x d e, 0 <= x -> 0 < d -> 0 < e -> rne (x * d) (d * e) = rne x e.
Proof.
  intros x d e X D E. unfold rne. rewrite (Z.mul_comm d e), Z.div_mul_cancel_r, Z.mul_mod_distr_r by lia. cbv zeta.
  pose proof (Z.mod_pos_bound x e E) as B. set (r := x mod e) in *. set (k := x / e). clearbody r k.
  replace (2 * (r * d) <? e * d) with (2 * r <? e) by (clear - D; destruct (Z.ltb_spec (2 * r) e), (Z.ltb_spec (2 * (r * d)) (e * d)); try reflexivity; nia).
  replace (e * d <? 2 * (r * d)) with (e <? 2 * r) by (clear - D; destruct (Z.ltb_spec e (2 * r)), (Z.ltb_spec (e * d) (2 * (r * d))); try reflexivity; nia).
  reflexivity.
Qed.
Lemma fl_scale : forall x d, 0 <= x -> 0 < d -> fl 24 (x * d) d = fl 24 x 1.
Proof.
  intros x d X D. unfold fl. rewrite Z.div_mul, Z.div_1_r by lia. set (e := 2 ^ spacing 24 x).
  assert (E : 0 < e) by (apply Z.pow_pos_nonneg; [lia|unfold spacing; apply Z.le_max_l]). rewrite rne_scale by assumption. rewrite Z.mul_1_l. reflexivity.
Qed.
Lemma small_float : forall x, 0 <= x < 16777216 -> fl 24 (x * 2 ^ 149) 1 = x * 2 ^ 149.
Proof.
  intros x X. apply fl_exact; [lia|apply Z.mul_nonneg_nonneg; [lia|apply Z.pow_nonneg; lia]|]. exists x, 149. split; [lia|]. split; [rewrite Z.abs_eq by lia; change (2 ^ 24) with 16777216; lia|reflexivity].
Qed.
Lemma cycles_exact_l : forall k per t, 0 < per -> 0 <= k -> 0 <= t < 16777216 -> per * k < 16777216 -> k * t < 16777216 -> delay_cycles (per * k) per t = Some (k * t).
Proof.
  intros k per t P K T B1 B2. unfold delay_cycles.
  assert (E : delay_ticks (per * k) per t = k * t).
  { unfold delay_ticks, fl_int. assert (U : u32 t = t) by (unfold u32; apply Z.mod_small; lia). rewrite U. cbv zeta.
    assert (PK : 0 <= per * k) by (apply Z.mul_nonneg_nonneg; lia). assert (KT : 0 <= k * t) by (apply Z.mul_nonneg_nonneg; lia).
    assert (S0 : 0 < 2 ^ 149) by reflexivity. assert (KS : 0 <= k * 2 ^ 149) by (apply Z.mul_nonneg_nonneg; lia).
    rewrite (small_float (per * k)) by lia. replace (per * k * 2 ^ 149) with (k * 2 ^ 149 * per) by ring.
    rewrite fl_scale by assumption. assert (K16 : k < 16777216) by (clear - P K B1; nia).
    rewrite (small_float k), (small_float t) by lia.
    replace (k * 2 ^ 149 * (t * 2 ^ 149)) with (k * t * 2 ^ 149 * 2 ^ 149) by ring.
    rewrite fl_scale by (try assumption; apply Z.mul_nonneg_nonneg; lia). rewrite small_float by lia.
    replace (- (k * t * 2 ^ 149)) with (- (k * t) * 2 ^ 149) by ring. rewrite Z.div_mul by discriminate. lia. }
  rewrite E. cbv zeta. replace (4294967296 <=? k * t) with false; [reflexivity|]. symmetry. apply Z.leb_gt. lia.
Qed.
