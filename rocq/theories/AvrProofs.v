(** Proofs: the AVR register classes. *)
Require Import ZArith List Bool Lia ZifyBool.
Import ListNotations.
From Verif Require Import Base BaseFacts BitModel BitSpec BitProofs AvrModel AvrSpec.
Open Scope Z_scope.

(** ** Baud rates *)
Lemma div_bounds : forall a b, 0 < b -> b * (a / b) <= a < b * (a / b + 1).
Proof. intros a b H. pose proof (Z.mul_div_le a b H). pose proof (Z.mul_succ_div_gt a b H). lia. Qed.
Lemma fits_div : forall F d b u, 0 < d * b -> 0 <= F -> (fits F d b u <-> u = F / (d * b) - 1 /\ 0 <= u <= 4095).
Proof.
  intros F d b u H HF. unfold fits. pose proof (div_bounds F (d * b) H) as B. set (q := F / (d * b)) in *. split.
  - intros [U [L1 L2]]. split; [|exact U].
    assert (q = u + 1); [|lia]. unfold q. symmetry. apply Z.div_unique with (r := F - d * b * (u + 1)); [left; nia|ring].
  - intros [-> U]. split; [exact U|]. replace (q - 1 + 1) with q by ring. replace (q - 1 + 2) with (q + 1) by ring. exact B.
Qed.
Lemma calc_ubrr_l : forall F d b, 1 <= F -> 1 <= d -> 1 <= b -> F / (d * b) <= 32768 ->
  calc_ubrr F d b = Some (F / (d * b) - 1) /\ (valid_ubrr (F / (d * b) - 1) = true <-> exists u, fits F d b u) /\
  (forall u, fits F d b u -> u = F / (d * b) - 1).
Proof.
  intros F d b HF Hd Hb Hq. assert (P : 0 < d * b) by (apply Z.mul_pos_pos; lia).
  assert (Q : 0 <= F / (d * b)) by (apply Z.div_pos; lia).
  unfold calc_ubrr. destruct (Z.eqb_spec b 0); [lia|]. set (q := F / (d * b)) in *.
  split; [rewrite s16_small by lia; reflexivity|]. split.
  - unfold valid_ubrr. split.
    + intros V. exists (q - 1). apply fits_div; [exact P|lia|]. fold q. lia.
    + intros [u Hu]. apply fits_div in Hu; [|exact P|lia]. fold q in Hu. lia.
  - intros u Hu. apply fits_div in Hu; [|exact P|lia]. fold q in Hu. lia.
Qed.
Lemma rate_bounds : forall F d b u, 1 <= F -> 1 <= d -> 1 <= b -> fits F d b u -> b <= hw_rate F d u /\ hw_rate F d u * (u + 1) < b * (u + 2).
Proof.
  intros F d b u HF Hd Hb [U [L1 L2]]. unfold hw_rate.
  assert (P : 0 < d * (u + 1)) by (apply Z.mul_pos_pos; lia). split.
  - apply Z.div_le_lower_bound; [exact P|]. clear L2. nia.
  - pose proof (div_bounds F (d * (u + 1)) P) as [B _]. set (r := F / (d * (u + 1))) in *.
    assert (d * (r * (u + 1)) < d * (b * (u + 2))); [|nia].
    replace (d * (r * (u + 1))) with (d * (u + 1) * r) by ring. replace (d * (b * (u + 2))) with (d * b * (u + 2)) by ring. lia.
Qed.
Lemma delta_l : forall F d b u, 1 <= F -> 1 <= d -> 1 <= b <= 65535 -> fits F d b u -> b <= 32767 \/ 1 <= u ->
  abs16 (s16 (b - calc_rate F d u)) = Some (dev F d b u).
Proof.
  intros F d b u HF Hd Hb H C. pose proof (rate_bounds F d b u HF Hd ltac:(lia) H) as [R1 R2].
  unfold calc_rate, dev. fold (hw_rate F d u). set (r := hw_rate F d u) in *. destruct H as [U _].
  assert (D : 0 <= r - b <= 32767) by nia.
  assert (E : s16 (b - s16 r) = b - r).
  { unfold s16 at 2. cbv zeta. assert (M : (b - r) mod 65536 = (b - (if r mod 65536 <? 32768 then r mod 65536 else r mod 65536 - 65536)) mod 65536).
    { pose proof (Z.div_mod r 65536 ltac:(lia)) as DM. destruct (r mod 65536 <? 32768).
      - replace (b - r) with (b - r mod 65536 + (- (r / 65536)) * 65536) by lia. apply Z.mod_add. lia.
      - replace (b - r) with (b - (r mod 65536 - 65536) + (- (r / 65536) - 1) * 65536) by lia. apply Z.mod_add. lia. }
    unfold s16. cbv zeta. rewrite <- M. change (s16 (b - r) = b - r). apply s16_small. lia. }
  rewrite E. unfold abs16. destruct (Z.geb_spec (b - r) 0).
  - f_equal. lia.
  - destruct (Z.eqb_spec (b - r) (-32768)); [lia|]. f_equal. lia.
Qed.

Lemma choice_l : forall F b c, 1 <= F -> 1 <= b <= 65535 -> F / (8 * b) <= 32768 ->
  F < 16 * b \/ 32 * b <= F \/ b <= 32767 ->
  exists c' h, init_async F c b = Some (c', h) /\
    c_bits c' = c_bits c /\ c_par c' = c_par c /\ c_two c' = c_two c /\
    (h = true <-> exists d u, (d = 8 \/ d = 16) /\ fits F d b u) /\
    (h = true -> (c_div c' = 8 \/ c_div c' = 16) /\ fits F (c_div c') b (c_ubrr c') /\
       forall d u, d = 8 \/ d = 16 -> fits F d b u -> dev F (c_div c') b (c_ubrr c') <= dev F d b u) /\
    (h = false -> c_div c' = 0 /\ c_ubrr c' = 0).
Proof.
  intros F b c HF Hb Hq HC.
  assert (Q16 : F / (16 * b) <= 32768).
  { apply Z.le_trans with (F / (8 * b)); [|exact Hq]. apply Z.div_le_compat_l; lia. }
  destruct (calc_ubrr_l F 8 b HF ltac:(lia) ltac:(lia) Hq) as (E8 & V8 & U8).
  destruct (calc_ubrr_l F 16 b HF ltac:(lia) ltac:(lia) Q16) as (E16 & V16 & U16).
  unfold init_async. cbv zeta. rewrite E8, E16.
  set (u8 := F / (8 * b) - 1) in *. set (u16 := F / (16 * b) - 1) in *.
  assert (G : forall d, d = 8 \/ d = 16 -> valid_ubrr (F / (d * b) - 1) = true -> fits F d b (F / (d * b) - 1)).
  { intros d Hd V. apply fits_div; [destruct Hd; subst; lia|lia|]. split; [reflexivity|]. unfold valid_ubrr in V. lia. }
  destruct (valid_ubrr u8) eqn:W8; destruct (valid_ubrr u16) eqn:W16; cbn [negb orb].
  - pose proof (G 8 ltac:(auto) W8) as F8. pose proof (G 16 ltac:(auto) W16) as F16. fold u8 in F8. fold u16 in F16.
    assert (D8 : b <= 32767 \/ 1 <= u8).
    { destruct F16 as [? [L _]]. right. destruct F8 as [? [_ L8]]. assert (16 * b <= F) by nia. nia. }
    assert (D16 : b <= 32767 \/ 1 <= u16).
    { destruct HC as [HC|[HC|HC]]; [|right|left; exact HC].
      - destruct F16 as [? [L _]]. exfalso. nia.
      - destruct F16 as [? [_ L]]. nia. }
    rewrite (delta_l F 8 b u8 HF ltac:(lia) Hb F8 D8), (delta_l F 16 b u16 HF ltac:(lia) Hb F16 D16).
    assert (Sel : forall d u, d = 8 \/ d = 16 -> fits F d b u -> (d = 8 /\ u = u8) \/ (d = 16 /\ u = u16)).
    { intros d u [->| ->] H; [left|right]; split; auto. }
    destruct (Z.gtb_spec (dev F 16 b u16) (dev F 8 b u8)); do 2 eexists; (split; [reflexivity|]); cbn [c_bits c_par c_two c_div c_ubrr];
      do 3 (split; [reflexivity|]).
    + split; [split; [intros _; exists 8, u8; auto|auto]|]. split; [|discriminate]. intros _. split; [auto|]. split; [exact F8|].
      intros d u Hd Hu. destruct (Sel d u Hd Hu) as [[-> ->]|[-> ->]]; lia.
    + split; [split; [intros _; exists 8, u8; auto|auto]|]. split; [|discriminate]. intros _. split; [auto|]. split; [exact F16|].
      intros d u Hd Hu. destruct (Sel d u Hd Hu) as [[-> ->]|[-> ->]]; lia.
  - pose proof (G 8 ltac:(auto) W8) as F8. fold u8 in F8.
    do 2 eexists; (split; [reflexivity|]); cbn [c_bits c_par c_two c_div c_ubrr]; do 3 (split; [reflexivity|]).
    split; [split; [intros _; exists 8, u8; auto|auto]|]. split; [|discriminate]. intros _. split; [auto|]. split; [exact F8|].
    intros d u [->| ->] Hu; [rewrite (U8 u Hu); lia|]. assert (false = true) by (apply V16; eauto). discriminate.
  - pose proof (G 16 ltac:(auto) W16) as F16. fold u16 in F16.
    do 2 eexists; (split; [reflexivity|]); cbn [c_bits c_par c_two c_div c_ubrr]; do 3 (split; [reflexivity|]).
    split; [split; [intros _; exists 16, u16; auto|auto]|]. split; [|discriminate]. intros _. split; [auto|]. split; [exact F16|].
    intros d u [->| ->] Hu; [|rewrite (U16 u Hu); lia]. assert (false = true) by (apply V8; eauto). discriminate.
  - do 2 eexists; (split; [reflexivity|]); cbn [c_bits c_par c_two c_div c_ubrr]; do 3 (split; [reflexivity|]).
    split; [|split; [discriminate|auto]]. split; [discriminate|]. intros (d & u & [->| ->] & Hu).
    + assert (false = true) by (apply V8; eauto). discriminate.
    + assert (false = true) by (apply V16; eauto). discriminate.
Qed.
Lemma get_rate_l : forall F c, c_div c <> 0 -> c_ubrr c <> 0 -> 0 <= hw_rate F (c_div c) (c_ubrr c) <= 65535 ->
  get_rate F c = hw_rate F (c_div c) (c_ubrr c).
Proof.
  intros F c H1 H2 H3. unfold get_rate. destruct (Z.eqb_spec (c_ubrr c) 0); [contradiction|]. destruct (Z.eqb_spec (c_div c) 0); [contradiction|].
  cbn [orb]. unfold calc_rate. fold (hw_rate F (c_div c) (c_ubrr c)). set (r := hw_rate _ _ _) in *.
  unfold s16, u16. cbv zeta. rewrite (Z.mod_small r) by lia. destruct (Z.ltb_spec r 32768).
  - apply Z.mod_small. lia.
  - replace (r - 65536) with (r + (-1) * 65536) by lia. rewrite Z.mod_add by lia. apply Z.mod_small. lia.
Qed.

(** ** Register bits *)
Lemma u8_bits : forall x i, 0 <= i < 8 -> Z.testbit (u8 x) i = Z.testbit x i.
Proof. intros x i H. unfold u8. change 256 with (2 ^ 8). apply Z.mod_pow2_bits_low. lia. Qed.
Lemma u8_byte : forall x, byte (u8 x).
Proof. intros x. apply u8_range. Qed.
Lemma r_or_bits : forall r k i, 0 <= k -> 0 <= i < 8 -> Z.testbit (r_or r k) i = if i =? k then true else Z.testbit r i.
Proof.
  intros r k i Hk H. unfold r_or. rewrite u8_bits by exact H. rewrite Z.lor_spec, testbit_pow by lia.
  destruct (i =? k); [apply orb_true_r|apply orb_false_r].
Qed.
Lemma r_clr_bits : forall r k i, 0 <= k -> 0 <= i < 8 -> Z.testbit (r_clr r k) i = if i =? k then false else Z.testbit r i.
Proof.
  intros r k i Hk H. unfold r_clr. rewrite u8_bits by exact H. rewrite Z.land_spec, Z.lnot_spec, testbit_pow by lia.
  destruct (i =? k); [apply andb_false_r|apply andb_true_r].
Qed.
Lemma r_put_bits : forall r k v i, 0 <= k -> 0 <= i < 8 -> Z.testbit (r_put r k v) i = if i =? k then v else Z.testbit r i.
Proof.
  intros r k v i Hk H. unfold r_put. destruct v; rewrite ?r_or_bits, ?r_clr_bits by lia; destruct (i =? k); reflexivity.
Qed.
Lemma r_choose_bits : forall r k v i, 0 <= k -> 0 <= i < 8 -> Z.testbit (r_choose r k v) i = if i =? k then v else Z.testbit r i.
Proof. intros r k v i Hk H. unfold r_choose. destruct v; [apply r_or_bits|apply r_clr_bits]; assumption. Qed.
Lemma r_is_bit : forall r k, 0 <= k -> 0 <= r -> r_is r k = Z.testbit r k.
Proof.
  intros r k Hk Hr. unfold r_is. rewrite land_pow by exact Hk. pose proof (pow_pos k Hk). destruct (Z.testbit r k); lia.
Qed.
(** The register operations are those of Bit.h. *)
Lemma r_put_bit : forall iw r k v, 8 <= iw -> 0 <= k < 8 -> bit_put iw false 8 r k v = Some (r_put r k v) /\ (byte r -> bit_true iw false 8 r k = Some (r_is r k)).
Proof.
  intros iw r k v Hi Hk. assert (M : mask_ok iw 8 k) by (unfold mask_ok; lia).
  unfold bit_put, bit_true. rewrite (bit_mask_u iw 8 k M). split; [|reflexivity]. cbv zeta. destruct v; reflexivity.

Qed.

Lemma same_at : forall m s a f g, same_regs m s -> byte (f (m a)) ->
  (forall i, 0 <= i < 8 -> Z.testbit (f (m a)) i = g i) -> same_regs (at_reg m a f) (setall s a g).
Proof.
  intros m s a f g H B E a'. unfold at_reg, setall, upd. destruct (Z.eqb_spec a' a) as [->|D]; [split; assumption|apply H].
Qed.
Lemma setall_set1 : forall s a k v, forall a' i, setall s a (fun i => if i =? k then v else s a i) a' i = set1 s a k v a' i.
Proof. intros s a k v a' i. unfold setall, set1. destruct (Z.eqb_spec a' a) as [->|D]; reflexivity. Qed.
Lemma same_ext : forall m s s', same_regs m s -> (forall a i, 0 <= i < 8 -> s a i = s' a i) -> same_regs m s'.
Proof. intros m s s' H E a. destruct (H a) as [B T]. split; [exact B|]. intros i Hi. rewrite <- E by exact Hi. auto. Qed.
Lemma same_set1 : forall m s a k v f, same_regs m s -> byte (f (m a)) ->
  (forall i, 0 <= i < 8 -> Z.testbit (f (m a)) i = if i =? k then v else Z.testbit (m a) i) -> same_regs (at_reg m a f) (set1 s a k v).
Proof.
  intros m s a k v f H B E. eapply same_ext; [apply (same_at m s a f (fun i => if i =? k then v else s a i) H B)|].
  - intros i Hi. rewrite (E i Hi). destruct (i =? k); [reflexivity|]. apply H. exact Hi.
  - intros a' i _. apply setall_set1.
Qed.
Lemma same_upd : forall m s a x g, same_regs m s -> byte x -> (forall i, 0 <= i < 8 -> Z.testbit x i = g i) -> same_regs (upd m a x) (setall s a g).
Proof. intros m s a x g H B E. apply (same_at m s a (fun _ => x) g H B E). Qed.
Lemma r_or_byte : forall r k, byte (r_or r k). Proof. intros. apply u8_byte. Qed.
Lemma r_clr_byte : forall r k, byte (r_clr r k). Proof. intros. apply u8_byte. Qed.
Lemma r_choose_byte : forall r k v, byte (r_choose r k v). Proof. intros r k []; apply u8_byte. Qed.
Lemma r_put_byte : forall r k v, byte (r_put r k v). Proof. intros r k []; apply u8_byte. Qed.
Lemma prusart_range : forall id, 0 <= prusart id. Proof. intros id. unfold prusart. destruct (id =? 0); lia. Qed.

Lemma ucsrc_l : forall c, (c_div c = 8 \/ c_div c = 16) -> 0 <= c_bits c <= 4 -> byte (get_ucsrc c) /\
  forall i, 0 <= i < 8 -> Z.testbit (get_ucsrc c) i = ucsrc_bits c i.
Proof.
  intros [d u b p t] D B. cbn [c_div c_ubrr c_bits c_par c_two] in *.
  assert (E : forall i, 0 <= i < 8 -> i = 0 \/ i = 1 \/ i = 2 \/ i = 3 \/ i = 4 \/ i = 5 \/ i = 6 \/ i = 7) by lia.
  assert (Eb : b = 0 \/ b = 1 \/ b = 2 \/ b = 3 \/ b = 4) by lia. unfold byte.
  destruct D as [->| ->]; destruct Eb as [->|[->|[->|[->| ->]]]]; destruct p, t;
    (split; [cbv; split; [intros X; discriminate X|reflexivity]|]); intros i Hi;
    (destruct (E i Hi) as [->|[->|[->|[->|[->|[->|[->| ->]]]]]]]; reflexivity).
Qed.
Lemma bit_in : forall i, 0 <= i < 8 -> i = 0 \/ i = 1 \/ i = 2 \/ i = 3 \/ i = 4 \/ i = 5 \/ i = 6 \/ i = 7.
Proof. lia. Qed.
Lemma config_l : forall c, 0 <= c_bits c <= 4 ->
  get_ucsra c = (if c_div c =? 8 then 2 else 0) /\ get_ucsrb c = (if c_bits c =? 4 then 4 else 0) /\
  0 <= get_ucsrc c < 128 /\
  forall i, 0 <= i < 8 -> Z.testbit (get_ucsrc c) i = (i =? 6) && (c_div c <? 8) || ucsrc_bits c i.
Proof.
  intros [d u b p t] B. cbn [c_div c_ubrr c_bits c_par c_two] in *. split; [unfold get_ucsra; cbn [c_div]; destruct (d =? 8); reflexivity|].
  split; [unfold get_ucsrb; cbn [c_bits]; destruct (b =? 4); reflexivity|].
  assert (Eb : b = 0 \/ b = 1 \/ b = 2 \/ b = 3 \/ b = 4) by lia.
  unfold get_ucsrc, ucsrc_bits; cbn [c_div c_ubrr c_bits c_par c_two]. destruct (d <? 8);
  destruct Eb as [->|[->|[->|[->| ->]]]]; destruct p, t;
    (split; [cbv; split; [intros X; discriminate X|reflexivity]|]); intros i Hi;
    (destruct (bit_in i Hi) as [->|[->|[->|[->|[->|[->|[->| ->]]]]]]]; reflexivity).
Qed.
Lemma rstep_l : forall m s o, same_regs m s -> rop_ok o ->
  same_regs (fst (rstep m o)) (fst (bstep s o)) /\ snd (rstep m o) = snd (bstep s o).
Proof.
  intros m s o H O.
  assert (Ch : forall a k v, 0 <= k -> same_regs (at_reg m a (fun r => r_choose r k v)) (set1 s a k v)).
  { intros a k v Hk. apply same_set1; [exact H|apply r_choose_byte|]. intros. apply r_choose_bits; assumption. }
  assert (Pb : forall m s a k v, same_regs m s -> 0 <= k -> same_regs (put_bit a k v m) (set1 s a k v)).
  { intros m0 s0 a k v H0 Hk. apply same_set1; [exact H0|apply r_put_byte|]. intros. apply r_put_bits; assumption. }
  assert (Pw : forall m s id on, same_regs m s -> same_regs (power id on m) (set1 s a_prr (prusart id) (negb on))).
  { intros m0 s0 id on H0. apply same_set1; [exact H0|apply r_choose_byte|]. intros. apply r_choose_bits; [apply prusart_range|assumption]. }
  destruct o; cbn [rstep bstep rop_ok fst snd] in *; try (split; [|reflexivity]).
  - apply Ch. lia.
  - apply same_upd; [exact H|exact O|reflexivity].
  - apply Ch. lia.
  - rewrite land_pow by lia. destruct (H (a_dir p)) as [_ T]. rewrite (T pin O).
    pose proof (pow_pos pin ltac:(lia)). destruct (s (a_dir p) pin).
    + destruct (Z.eqb_spec (2 ^ pin) 0); [lia|]. split; [exact H|reflexivity].
    + cbn [Z.eqb]. split; [|reflexivity]. apply same_set1; [exact H|apply r_or_byte|]. intros. apply r_or_bits; lia.
  - apply Pw. exact H.
  - destruct O as [Op Of]. destruct (Z.eqb_spec flags 0); cbn [fst snd].
    + split; [|reflexivity]. apply same_set1; [exact H|apply r_clr_byte|]. intros. apply r_clr_bits; lia.
    + split; [|reflexivity]. assert (H1 : same_regs (at_reg m a_pcicr (fun r => r_or r p)) (set1 s a_pcicr p true)).
      { apply same_set1; [exact H|apply r_or_byte|]. intros. apply r_or_bits; lia. }
      destruct (p <? 3); [|exact H1]. apply same_upd; [exact H1|exact Of|reflexivity].
  - apply Ch. lia.
  - apply Ch. lia.
  - apply Ch. lia.
  - apply Pb; [exact H|lia].
  - apply Pb; [exact H|lia].
  - apply Pb; [exact H|lia].
  - apply Pb; [exact H|lia].
  - apply Pb; [exact H|lia].
  - destruct O as [Ou Ob]. unfold get_mode.
    destruct (Z.eqb_spec (c_div c) 16) as [D|D]; [|destruct (Z.eqb_spec (c_div c) 8) as [D8|D8]].
    3: { destruct (c_div c =? 2); destruct (c_div c =? 0); cbn [orb fst snd]; split; try reflexivity; exact H. }
    1: assert (DD : c_div c = 8 \/ c_div c = 16) by auto. 2: assert (DD : c_div c = 8 \/ c_div c = 16) by auto.
    all: rewrite ?orb_true_r, ?orb_true_l; cbn [fst snd orb]; cbv zeta; (split; [|reflexivity]).
    all: apply same_upd; [|exact (proj1 (ucsrc_l c DD Ob))|exact (proj2 (ucsrc_l c DD Ob))].
    all: apply same_upd; [apply same_upd; [apply same_upd; [apply same_upd; [apply Pw; exact H|apply u8_byte|intros i Hi; apply u8_bits; exact Hi]|apply u8_byte|]|..]|..].
    all: try (intros i Hi; rewrite u8_bits by exact Hi; change 256 with (2 ^ 8); rewrite Z.div_pow2_bits by lia; f_equal; lia).
    all: unfold get_ucsra, get_ucsrb, byte.
    all: try (rewrite D); try (rewrite D8).
    all: try (destruct (Z.eqb_spec (c_bits c) 4)).
    all: try (cbv; split; [intros X; discriminate X|reflexivity]).
    all: intros i Hi; destruct (bit_in i Hi) as [->|[->|[->|[->|[->|[->|[->| ->]]]]]]]; reflexivity.
  - eapply same_ext; [eapply (Pw _ _ id false); do 5 (eapply Pb; [|lia]); exact H|].
    intros a i Hi. cbn [negb]. unfold set1, setall. destruct ((a =? a_prr) && (i =? prusart id)); [reflexivity|].
    destruct (Z.eqb_spec a (a_ucsrb id)) as [->|D]; cbn [andb]; [|reflexivity].
    destruct (bit_in i Hi) as [->|[->|[->|[->|[->|[->|[->| ->]]]]]]]; reflexivity.
Qed.
Lemma rrun_l : forall os m s, same_regs m s -> Forall rop_ok os ->
  same_regs (fst (rrun m os)) (fst (brun s os)) /\ snd (rrun m os) = snd (brun s os).
Proof.
  induction os as [|o os IH]; intros m s H F; [split; [exact H|reflexivity]|]. inversion F as [|? ? O F']; subst.
  destruct (rstep_l m s o H O) as [H1 E1]. cbn [rrun brun]. destruct (rstep m o) as [m1 h1]. destruct (bstep s o) as [s1 h1'].
  cbn [fst snd] in *. subst h1'. destruct (IH m1 s1 H1 F') as [H2 E2]. destruct (rrun m1 os). destruct (brun s1 os).
  cbn [fst snd] in *. split; [exact H2|congruence].
Qed.
Lemma read_l : forall m s p pin, same_regs m s -> 0 <= pin < 8 -> port_read m p pin = s (a_in p) pin.
Proof.
  intros m s p pin H Hp. unfold port_read. destruct (H (a_in p)) as [B T]. rewrite <- (T pin Hp).
  apply (r_is_bit (m (a_in p)) pin); [lia|apply B].
Qed.

(** ** Frames *)
Lemma frame_l : forall c, (c_div c = 8 \/ c_div c = 16) -> 0 <= c_bits c <= 4 ->
  frame (get_ucsrb c) (get_ucsrc c) = if c_bits c =? 4 then None else Some (5 + c_bits c, swap_parity (c_par c), c_two c).
Proof.
  intros [d u b p t] D B. cbn [c_div c_ubrr c_bits c_par c_two] in *.
  assert (Eb : b = 0 \/ b = 1 \/ b = 2 \/ b = 3 \/ b = 4) by lia.
  destruct D as [->| ->]; destruct Eb as [->|[->|[->|[->| ->]]]]; destruct p, t; reflexivity.
Qed.

(** ** Data *)
Lemma land_ones_mod : forall x k, 0 <= k -> Z.land x (2 ^ k - 1) = x mod 2 ^ k.
Proof. intros x k H. rewrite <- Z.land_ones by exact H. f_equal. rewrite Z.ones_equiv. lia. Qed.
Lemma bits9 : forall data, data mod 512 = Z.lor (if Z.testbit data 8 then 256 else 0) (data mod 256).
Proof.
  intros data. apply Z.bits_inj'. intros i Hi. change 512 with (2 ^ 9). change 256 with (2 ^ 8). rewrite Z.lor_spec.
  assert (P : Z.testbit (if Z.testbit data 8 then 2 ^ 8 else 0) i = (i =? 8) && Z.testbit data 8).
  { destruct (Z.testbit data 8); [rewrite testbit_pow by lia; destruct (i =? 8); reflexivity|rewrite Z.bits_0, andb_false_r; reflexivity]. }
  rewrite P. destruct (Z.ltb_spec i 8).
  - rewrite !Z.mod_pow2_bits_low by lia. destruct (Z.eqb_spec i 8); [lia|reflexivity].
  - rewrite (Z.mod_pow2_bits_high data 8 i) by lia. rewrite orb_false_r. destruct (Z.eqb_spec i 8) as [->|D].
    + rewrite Z.mod_pow2_bits_low by lia. reflexivity.
    + rewrite Z.mod_pow2_bits_high by lia. reflexivity.
Qed.
Lemma write_l : forall ucsrb data, byte ucsrb -> 0 <= data ->
  let (b', d) := write_internal ucsrb data in
  byte b' /\ byte d /\ d = data mod 256 /\ (forall i, 0 <= i < 8 -> i <> 0 -> Z.testbit b' i = Z.testbit ucsrb i) /\
  (nine ucsrb = true -> Z.testbit b' 0 = Z.testbit data 8) /\ (nine ucsrb = false -> b' = ucsrb).
Proof.
  intros b data B H. unfold write_internal.
  assert (D : u8 (Z.land data 255) = data mod 256).
  { change 255 with (2 ^ 8 - 1). rewrite land_ones_mod by lia. change (2 ^ 8) with 256. unfold u8. apply Z.mod_mod. lia. }
  rewrite D. assert (byte (data mod 256)) by (apply Z.mod_pos_bound; lia).
  destruct (nine b).
  - split; [apply r_put_byte|]. split; [assumption|]. split; [reflexivity|]. split; [|split; [|discriminate]].
    + intros i Hi N. rewrite r_put_bits by lia. destruct (Z.eqb_spec i 0); [contradiction|reflexivity].
    + intros _. rewrite r_put_bits by lia. cbn [Z.eqb]. exact (r_is_bit data 8 ltac:(lia) H).
  - split; [exact B|]. split; [assumption|]. split; [reflexivity|]. split; [auto|]. split; [discriminate|reflexivity].
Qed.
Lemma nine_bit : forall b, byte b -> nine b = Z.testbit b 2.
Proof. intros b B. apply r_is_bit; [lia|apply B]. Qed.
Lemma data_l : forall ucsra tx rxb data, byte tx -> byte rxb -> nine rxb = nine tx -> 0 <= data ->
  let '(a, b, d) := received ucsra rxb (write_internal tx data) in
  a = ucsra /\ read_internal b d = data_mask (nine tx) data.
Proof.
  intros ucsra tx rxb data Bt Br N H. pose proof (write_l tx data Bt H) as W.
  destruct (write_internal tx data) as [b' d]. cbn [received fst snd]. destruct W as (B' & Bd & Ed & _ & W1 & W2).
  split; [reflexivity|]. unfold read_internal.
  assert (P : forall k, 0 <= k < 8 -> r_is (r_put rxb 1 (Z.testbit b' 0)) k = if k =? 1 then Z.testbit b' 0 else Z.testbit rxb k).
  { intros k Hk. rewrite r_is_bit by (try lia; apply r_put_byte). apply r_put_bits; lia. }
  unfold nine at 1. rewrite (P 2) by lia. change (2 =? 1) with false. cbv iota. rewrite <- (nine_bit rxb Br), N. rewrite (P 1) by lia. change (1 =? 1) with true. cbv iota.
  unfold data_mask. destruct (nine tx).
  - rewrite (W1 eq_refl), bits9, Ed. rewrite <- bits9. apply s16_small. pose proof (Z.mod_pos_bound data 512 ltac:(lia)). lia.
  - rewrite Z.lor_0_l. rewrite Ed. apply s16_small. pose proof (Z.mod_pos_bound data 256 ltac:(lia)). lia.
Qed.
Lemma drain_l : forall ucsra tx rxb data, byte tx -> byte rxb -> nine rxb = nine tx -> Forall (fun d => 0 <= d) data ->
  rx_result ucsra = RSuccess ->
  drain (map (fun d => received ucsra rxb (write_internal tx d)) data) (length data) = map (data_mask (nine tx)) data.
Proof.
  intros ucsra tx rxb data Bt Br N F R. induction F as [|d data Hd F IH]; [reflexivity|]. cbn [map length drain].
  pose proof (data_l ucsra tx rxb d Bt Br N Hd) as D.
  destruct (received ucsra rxb (write_internal tx d)) as [[a b] x]. destruct D as [-> D]. cbn [read1]. rewrite R, D, IH. reflexivity.
Qed.
Lemma result_l : forall a, byte a ->
  (rx_result a = RFrame <-> Z.testbit a 4 = true) /\
  (rx_result a = RParity <-> Z.testbit a 4 = false /\ Z.testbit a 2 = true) /\
  (rx_result a = ROverrun <-> Z.testbit a 4 = false /\ Z.testbit a 2 = false /\ Z.testbit a 3 = true) /\
  (rx_result a = RSuccess <-> Z.testbit a 4 = false /\ Z.testbit a 2 = false /\ Z.testbit a 3 = false) /\
  rx_error a = (Z.testbit a 4 || Z.testbit a 2).
Proof.
  intros a B. unfold rx_result. rewrite !r_is_bit by (try lia; apply B).
  assert (E : rx_error a = (Z.testbit a 4 || Z.testbit a 2)).
  { unfold rx_error. rewrite Z.land_lor_distr_r, !land_pow by lia. destruct (Z.testbit a 4), (Z.testbit a 2); reflexivity. }
  rewrite E. destruct (Z.testbit a 4), (Z.testbit a 2), (Z.testbit a 3); repeat split; intros; try discriminate; try reflexivity; intuition discriminate.
Qed.
Lemma read_internal_char : forall b d, byte b -> byte d -> read_internal b d = char_of b d.
Proof.
  intros b d Bb Bd. unfold read_internal, char_of, nine. rewrite !r_is_bit by (try lia; apply Bb).
  assert (L : Z.lor (if Z.testbit b 2 then if Z.testbit b 1 then 256 else 0 else 0) d = (d + (if Z.testbit b 2 && Z.testbit b 1 then 256 else 0))).
  { destruct (Z.testbit b 2), (Z.testbit b 1); cbn [andb]; rewrite ?Z.lor_0_l; try lia.
    pose proof (bits9 (d + 256)) as Q. rewrite (Z.mod_small (d + 256)) in Q by (unfold byte in Bd; lia).
    replace (Z.testbit (d + 256) 8) with true in Q.
    - replace ((d + 256) mod 256) with d in Q; [congruence|]. replace (d + 256) with (d + 1 * 256) by lia. rewrite Z.mod_add by lia.
      rewrite Z.mod_small; [reflexivity|exact Bd].
    - symmetry. apply Z.testbit_true; [lia|]. change (2 ^ 8) with 256. replace (d + 256) with (d + 1 * 256) by lia.
      rewrite Z.div_add by lia. rewrite Z.div_small by exact Bd. reflexivity. }
  rewrite L. unfold byte in Bd. rewrite s16_small; destruct (Z.testbit b 2 && Z.testbit b 1); lia.
Qed.
Lemma char_of_range : forall b d, byte d -> 0 <= char_of b d < 512.
Proof. intros b d Bd. unfold char_of, byte in *. destruct (Z.testbit b 2 && Z.testbit b 1); lia. Qed.
Lemma read1_l : forall a b d r, byte a -> byte b -> byte d ->
  exists v, read1 ((a, b, d) :: r) = Some (r, v) /\ (v = -1 <-> rx_result a <> RSuccess) /\
    (rx_result a = RSuccess -> v = char_of b d).
Proof.
  intros a b d r Ba Bb Bd. cbn [read1]. rewrite read_internal_char by assumption. eexists. split; [reflexivity|].
  pose proof (char_of_range b d Bd) as P. split; destruct (rx_result a); try split; intros; try congruence; lia.
Qed.
Lemma try_read_l : (try_read [] = ([], (false, 0, RNotReady))) /\
  forall a b d r, byte a -> byte b -> byte d ->
    try_read ((a, b, d) :: r) = (r, (true, char_of b d, rx_result a)) /\ 0 <= char_of b d < 512.
Proof.
  split; [reflexivity|]. intros a b d r Ba Bb Bd. pose proof (char_of_range b d Bd) as P. split; [|exact P].
  cbn [try_read]. rewrite read_internal_char by assumption. unfold u16. rewrite Z.mod_small by lia. reflexivity.
Qed.
Lemma flush_l : (forall q arrive k fuel, q <> [] -> (0 < fuel)%nat -> flush q arrive k fuel = Some (q ++ arrive k)) /\
  (forall k fuel, flush [] (fun _ => []) k fuel = None) /\
  (forall arrive n k fuel, (forall j, (j < n)%nat -> arrive (k + j)%nat = []) -> arrive (k + n)%nat <> [] -> (n < fuel)%nat ->
     flush [] arrive k fuel = Some (arrive (k + n)%nat)).
Proof.
  split; [|split].
  - intros q arrive k [|f] Hq Hf; [lia|]. cbn [flush]. destruct q; [congruence|reflexivity].
  - intros k fuel. revert k. induction fuel as [|f IH]; intros k; [reflexivity|]. cbn [flush app]. apply IH.
  - intros arrive n. induction n as [|n IH]; intros k [|f] Hj Hn Hf; try lia; cbn [flush app].
    + rewrite Nat.add_0_r in *. destruct (arrive k); [congruence|reflexivity].
    + pose proof (Hj 0%nat ltac:(lia)) as H0. rewrite Nat.add_0_r in H0. rewrite H0.
      replace (k + S n)%nat with (S k + n)%nat in * by lia. apply IH; [|exact Hn|lia].
      intros j H. replace (S k + j)%nat with (k + S j)%nat by lia. apply Hj. lia.
Qed.

(** ** USART registers after opening and closing *)
Lemma same_bits : forall m, (forall a, byte (m a)) -> same_regs m (bits_of m).
Proof. intros m H a. split; [apply H|reflexivity]. Qed.
Lemma frame_dep : forall m id, hw_frame m id = frame (m (a_ucsrb id)) (m (a_ucsrc id)).
Proof. reflexivity. Qed.
Ltac addr := unfold a_ucsra, a_ucsrb, a_ucsrc, a_ubrr, a_prr in *.
Ltac off := match goal with |- context [?x =? ?y] => destruct (Z.eqb_spec x y) as [?E|?E]; [try (exfalso; clear - E; lia)|try (exfalso; apply E; clear; lia)] end.
Lemma open_l : forall m id c, id = 0 \/ id = 1 -> cfg_ok c ->
  let m' := fst (rstep m (Open id c)) in
  (snd (rstep m (Open id c)) = true <-> c_div c = 8 \/ c_div c = 16) /\
  (c_div c <> 8 -> c_div c <> 16 -> m' = m) /\
  (c_div c = 8 \/ c_div c = 16 ->
     hw_powered m' id = true /\ hw_divider m' id = c_div c /\ hw_ubrr m' id = c_ubrr c /\
     hw_enables m' id = [false; false; false; false; false] /\
     hw_frame m' id = if c_bits c =? 4 then None else Some (5 + c_bits c, swap_parity (c_par c), c_two c)).
Proof.
  intros m id c Hid [Ou Ob]. cbv zeta. cbn [rstep]. unfold get_mode.
  destruct (Z.eqb_spec (c_div c) 16) as [D|D]; [|destruct (Z.eqb_spec (c_div c) 8) as [D8|D8]].
  3: { destruct (c_div c =? 2); destruct (c_div c =? 0); cbn [fst snd];
       (split; [split; [discriminate|intros [?|?]; contradiction]|]; split; [reflexivity|intros [?|?]; contradiction]). }
  1: assert (DD : c_div c = 8 \/ c_div c = 16) by auto. 2: assert (DD : c_div c = 8 \/ c_div c = 16) by auto.
  all: cbn [fst snd]; (split; [split; auto|]); (split; [intros; contradiction|]); intros _; rewrite <- (frame_l c DD Ob).
  all: assert (P : 0 <= prusart id < 8) by (unfold prusart; destruct (id =? 0); lia).
  all: unfold hw_powered, hw_divider, hw_ubrr, hw_frame, hw_enables, power, at_reg, upd.
  all: assert (A : a_ucsra id <> a_ucsrb id /\ a_ucsra id <> a_ucsrc id /\ a_ucsrb id <> a_ucsrc id /\ a_ubrr id <> a_ucsra id /\
         a_ubrr id <> a_ucsrb id /\ a_ubrr id <> a_ucsrc id /\ a_ubrr id + 1 <> a_ucsra id /\ a_ubrr id + 1 <> a_ucsrb id /\ a_ubrr id + 1 <> a_ucsrc id /\
         a_ubrr id <> a_ubrr id + 1 /\ a_prr <> a_ucsra id /\ a_prr <> a_ucsrb id /\ a_prr <> a_ucsrc id /\ a_prr <> a_ubrr id /\ a_prr <> a_ubrr id + 1)
       by (clear - Hid; addr; lia).
  all: destruct A as (A1 & A2 & A3 & A4 & A5 & A6 & A7 & A8 & A9 & A10 & A11 & A12 & A13 & A14 & A15).
  all: rewrite !Z.eqb_refl.
  all: rewrite (proj2 (Z.eqb_neq _ _) A1), (proj2 (Z.eqb_neq _ _) A2), (proj2 (Z.eqb_neq _ _) A3), (proj2 (Z.eqb_neq _ _) A4),
    (proj2 (Z.eqb_neq _ _) A5), (proj2 (Z.eqb_neq _ _) A6), (proj2 (Z.eqb_neq _ _) A7), (proj2 (Z.eqb_neq _ _) A8), (proj2 (Z.eqb_neq _ _) A9),
    (proj2 (Z.eqb_neq _ _) A10), (proj2 (Z.eqb_neq _ _) A11), (proj2 (Z.eqb_neq _ _) A12), (proj2 (Z.eqb_neq _ _) A13),
    (proj2 (Z.eqb_neq _ _) A14), (proj2 (Z.eqb_neq _ _) A15).
  all: split; [rewrite r_choose_bits by lia; rewrite Z.eqb_refl; reflexivity|].
  all: split; [unfold get_ucsra; rewrite ?D, ?D8; reflexivity|].
  all: split; [clear - Ou; unfold u8; rewrite (Z.mod_small (c_ubrr c / 256)); [pose proof (Z.div_mod (c_ubrr c) 256); lia|
               split; [apply Z.div_pos; lia|apply Z.div_lt_upper_bound; lia]]|].
  all: split; [|reflexivity].
  all: unfold get_ucsrb; destruct (c_bits c =? 4); reflexivity.
Qed.
Lemma close_l : forall m id, id = 0 \/ id = 1 -> (forall a, byte (m a)) ->
  let m' := fst (rstep m (Close id)) in
  hw_powered m' id = false /\ hw_enables m' id = [false; false; false; false; false] /\
  (forall a i, 0 <= i < 8 -> a <> a_ucsrb id -> (a, i) <> (a_prr, prusart id) -> Z.testbit (m' a) i = Z.testbit (m a) i) /\
  (forall i, 0 <= i < 3 -> Z.testbit (m' (a_ucsrb id)) i = Z.testbit (m (a_ucsrb id)) i).
Proof.
  intros m id Hid B. cbv zeta. destruct (rstep_l m (bits_of m) (Close id) (same_bits m B) I) as [H _].
  assert (P : 0 <= prusart id < 8) by (unfold prusart; destruct (id =? 0); lia).
  assert (A : a_ucsrb id <> a_prr) by (clear - Hid; addr; lia).
  assert (T : forall a i, 0 <= i < 8 -> Z.testbit (fst (rstep m (Close id)) a) i = fst (bstep (bits_of m) (Close id)) a i) by (intros a i Hi; apply (H a); exact Hi).
  set (m' := fst (rstep m (Close id))) in *. clearbody m'. cbn [bstep fst] in T. unfold set1, setall, bits_of in T.
  split; [|split; [|split]].
  - unfold hw_powered. rewrite T by exact P. rewrite !Z.eqb_refl. reflexivity.
  - unfold hw_enables. cbn [map]. rewrite !T by lia. rewrite Z.eqb_refl, (proj2 (Z.eqb_neq _ _) A). reflexivity.
  - intros a i Hi N1 N2. rewrite T by exact Hi. rewrite (proj2 (Z.eqb_neq _ _) N1).
    destruct (Z.eqb_spec a a_prr) as [->|]; [|reflexivity]. destruct (Z.eqb_spec i (prusart id)) as [->|]; [congruence|reflexivity].
  - intros i Hi. rewrite T by lia. rewrite Z.eqb_refl, (proj2 (Z.eqb_neq _ _) A). cbn [andb]. destruct (Z.ltb_spec i 3); [reflexivity|lia].
Qed.
Lemma port_l : forall m p pin, (forall a, byte (m a)) -> 0 <= pin < 8 -> forall v,
  (let m' := fst (rstep m (PortDir p pin v)) in
   (forall a i, 0 <= i < 8 -> Z.testbit (m' a) i = if (a =? a_dir p) && (i =? pin) then v else Z.testbit (m a) i)) /\
  (let m' := fst (rstep m (PortWrite p pin v)) in
   (forall a i, 0 <= i < 8 -> Z.testbit (m' a) i = if (a =? a_out p) && (i =? pin) then v else Z.testbit (m a) i)) /\
  port_read m p pin = Z.testbit (m (a_in p)) pin.
Proof.
  intros m p pin B Hp v. pose proof (same_bits m B) as S. split; [|split].
  - intros m' a i Hi. destruct (rstep_l m (bits_of m) (PortDir p pin v) S Hp) as [H _]. apply (H a). exact Hi.
  - intros m' a i Hi. destruct (rstep_l m (bits_of m) (PortWrite p pin v) S Hp) as [H _]. apply (H a). exact Hi.
  - apply (read_l m (bits_of m) p pin S Hp).
Qed.
Lemma a_ports : forall p q, 0 <= p -> 0 <= q -> (a_dir p <> a_out q /\ a_in p <> a_dir q /\ a_in p <> a_out q) /\ (p <> q -> a_dir p <> a_dir q /\ a_out p <> a_out q).
Proof. intros. unfold a_dir, a_out, a_in. lia. Qed.
Lemma pin_new_l : forall m p pin v, (forall a, byte (m a)) -> 0 <= p -> 0 <= pin < 8 ->
  drives (fst (rrun m (input_pin p pin))) p pin = None /\
  drives (fst (rrun m (output_pin p pin (Some v)))) p pin = Some v /\
  drives (fst (rrun m (output_pin p pin None))) p pin = Some (Z.testbit (m (a_out p)) pin) /\
  forall o q k, In o [input_pin p pin; output_pin p pin (Some v); output_pin p pin None] -> 0 <= q -> 0 <= k < 8 -> (q, k) <> (p, pin) ->
    drives (fst (rrun m o)) q k = drives m q k.
Proof.
  intros m p pin v B Hp Hk. pose proof (same_bits m B) as S.
  assert (R : forall os, Forall rop_ok os -> forall a i, 0 <= i < 8 -> Z.testbit (fst (rrun m os) a) i = fst (brun (bits_of m) os) a i).
  { intros os F a i Hi. destruct (rrun_l os m (bits_of m) S F) as [H _]. apply (H a). exact Hi. }
  assert (F1 : Forall rop_ok (input_pin p pin)) by (repeat constructor; exact (proj1 Hk) || exact (proj2 Hk)).
  assert (F2 : Forall rop_ok (output_pin p pin (Some v))) by (repeat constructor; exact (proj1 Hk) || exact (proj2 Hk)).
  assert (F3 : Forall rop_ok (output_pin p pin None)) by (repeat constructor; exact (proj1 Hk) || exact (proj2 Hk)).
  pose proof (a_ports p p Hp Hp) as [[N1 [N2 N3]] _].
  assert (N1' : a_out p <> a_dir p) by congruence.
  split; [|split; [|split]].
  - unfold drives. rewrite (R _ F1) by exact Hk. cbn [input_pin brun bstep fst]. unfold set1. rewrite !Z.eqb_refl. reflexivity.
  - unfold drives. rewrite !(R _ F2) by exact Hk. cbn [output_pin brun bstep fst]. unfold set1. rewrite !Z.eqb_refl, (proj2 (Z.eqb_neq _ _) N1). reflexivity.
  - unfold drives. rewrite !(R _ F3) by exact Hk. cbn [output_pin brun bstep fst]. unfold set1. rewrite !Z.eqb_refl, (proj2 (Z.eqb_neq _ _) N1'). reflexivity.
  - intros o q k I Hq Hk' N.
    assert (E : (q =? p) && (k =? pin) = false).
    { destruct (Z.eqb_spec q p) as [->|]; [|reflexivity]. destruct (Z.eqb_spec k pin) as [->|]; [congruence|reflexivity]. }
    assert (Ed : (a_dir q =? a_dir p) && (k =? pin) = false) by (revert E; unfold a_dir; clear; lia).
    assert (Eo : (a_out q =? a_out p) && (k =? pin) = false) by (revert E; unfold a_out; clear; lia).
    pose proof (a_ports q p Hq Hp) as [[M1 [M2 M3]] _]. pose proof (a_ports p q Hp Hq) as [[M4 _] _].
    assert (Mo : a_out q <> a_dir p) by congruence.
    destruct I as [<-|[<-|[<-|[]]]]; unfold drives; rewrite !(R _ F1) || rewrite !(R _ F2) || rewrite !(R _ F3); try exact Hk';
      cbn [input_pin output_pin brun bstep fst]; unfold set1, bits_of; rewrite ?Ed, ?Eo, ?(proj2 (Z.eqb_neq _ _) M1), ?(proj2 (Z.eqb_neq _ _) Mo); reflexivity.
Qed.
Lemma dirs_l : forall b7 b6 b5 b4 b3 b2 b1 b0,
  byte (dirs_value [b7; b6; b5; b4; b3; b2; b1; b0] 7) /\
  map (Z.testbit (dirs_value [b7; b6; b5; b4; b3; b2; b1; b0] 7)) [7; 6; 5; 4; 3; 2; 1; 0] = [b7; b6; b5; b4; b3; b2; b1; b0].
Proof. intros [] [] [] [] [] [] [] []; (split; [split; [apply Z.leb_le|apply Z.ltb_lt]; reflexivity|reflexivity]). Qed.
Lemma power_l : forall m id on, (forall a, byte (m a)) -> let m' := fst (rstep m (UsartPower id on)) in
  hw_powered m' id = on /\ forall a i, 0 <= i < 8 -> (a, i) <> (a_prr, prusart id) -> Z.testbit (m' a) i = Z.testbit (m a) i.
Proof.
  intros m id on B m'. destruct (rstep_l m (bits_of m) (UsartPower id on) (same_bits m B) I) as [H _].
  assert (P : 0 <= prusart id < 8) by (unfold prusart; destruct (id =? 0); lia). fold m' in H. split.
  - unfold hw_powered. rewrite (proj2 (H a_prr) (prusart id) P). cbn [bstep fst]. unfold set1. rewrite !Z.eqb_refl. apply negb_involutive.
  - intros a i Hi N. rewrite (proj2 (H a) i Hi). cbn [bstep fst]. unfold set1, bits_of.
    destruct (Z.eqb_spec a a_prr) as [->|]; [|reflexivity]. destruct (Z.eqb_spec i (prusart id)) as [->|]; [congruence|reflexivity].
Qed.
Lemma powered_getter_l : forall m, (forall a, byte (m a)) ->
  usart_powered m 0 = negb (Z.testbit (m a_prr) 0) /\ usart_powered m 1 = negb (Z.testbit (m a_prr) 2) /\
  usart_powered (fst (rstep m (UsartPower 0 false))) 0 = usart_powered m 0 /\
  usart_powered (fst (rstep m (UsartPower 1 false))) 1 = usart_powered m 1.
Proof.
  intros m B. assert (G : forall m, (forall a, byte (m a)) -> usart_powered m 0 = negb (Z.testbit (m a_prr) 0) /\ usart_powered m 1 = negb (Z.testbit (m a_prr) 2)).
  { intros m0 B0. unfold usart_powered. change (prusart 0) with (2 ^ 0). change (prusart 1) with (2 ^ 2). rewrite !land_pow by lia.
    destruct (Z.testbit (m0 a_prr) 0), (Z.testbit (m0 a_prr) 2); split; reflexivity. }
  assert (Q : forall id on a, byte (fst (rstep m (UsartPower id on)) a)) by (intros id on; apply (fun id on => proj1 (rstep_l m (bits_of m) (UsartPower id on) (same_bits m B) I))).
  destruct (G m B) as [G0 G1]. split; [exact G0|]. split; [exact G1|]. rewrite G0, G1. split.
  - rewrite (proj1 (G _ (Q 0 false))). rewrite (proj2 (power_l m 0 false B)); [reflexivity|lia|]. intros X. discriminate X.
  - rewrite (proj2 (G _ (Q 1 false))). rewrite (proj2 (power_l m 1 false B)); [reflexivity|lia|]. intros X. discriminate X.
Qed.

Lemma init_mode_l : forall F c b c' h, init_async F c b = Some (c', h) ->
  (get_mode c' = MAsync <-> h = true /\ c_div c' = 16) /\ (get_mode c' = MDouble <-> h = true /\ c_div c' = 8) /\
  (get_mode c' = MSlave <-> h = false).
Proof.
  intros F c b c' h E. unfold init_async in E. cbv zeta in E.
  destruct (calc_ubrr F 8 b) as [a8|]; [|discriminate E]. destruct (calc_ubrr F 16 b) as [a16|]; [|discriminate E].
  assert (X : (h = true /\ (c_div c' = 16 \/ c_div c' = 8)) \/ (h = false /\ c_div c' = 0)).
  { repeat match type of E with
      | (if ?x then _ else _) = _ => destruct x
      | match ?x with Some _ => _ | None => _ end = _ => destruct x
      end; try discriminate E; inversion E; cbn [c_div]; auto. }
  unfold get_mode. destruct X as [[-> [-> | ->]]|[-> ->]]; cbn [Z.eqb Pos.eqb]; repeat split; intros;
    repeat match goal with H : _ /\ _ |- _ => destruct H end; try discriminate; reflexivity.
Qed.
