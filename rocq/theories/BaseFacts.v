(** Lemmas about the vocabulary of [Base]. *)
Require Import ZArith List Bool Lia ZifyBool.
Import ListNotations.
From Verif Require Import Base.
Open Scope Z_scope.

Ltac Zify.zify_post_hook ::= Z.div_mod_to_equations.

Lemma upd_same : forall A (m : Z -> A) i v, upd m i v i = v.
Proof. intros A m i v. unfold upd. now rewrite Z.eqb_refl. Qed.

Lemma upd_other : forall A (m : Z -> A) i j v, j <> i -> upd m i v j = m j.
Proof. intros A m i j v H. unfold upd. destruct (Z.eqb_spec j i); congruence. Qed.

Lemma inb_true : forall i n, inb i n = true <-> 0 <= i < n.
Proof. intros i n. unfold inb. lia. Qed.

Lemma inb_false : forall i n, inb i n = false <-> ~ (0 <= i < n).
Proof. intros i n. unfold inb. lia. Qed.

Lemma u8_small : forall x, 0 <= x < 256 -> u8 x = x.
Proof. intros x H. unfold u8. now apply Z.mod_small. Qed.
Lemma u16_small : forall x, 0 <= x < 65536 -> u16 x = x.
Proof. intros x H. unfold u16. now apply Z.mod_small. Qed.
Lemma u32_small : forall x, 0 <= x < 4294967296 -> u32 x = x.
Proof. intros x H. unfold u32. now apply Z.mod_small. Qed.

Lemma u8_range : forall x, 0 <= u8 x < 256.
Proof. intros x. unfold u8. now apply Z.mod_pos_bound. Qed.
Lemma u16_range : forall x, 0 <= u16 x < 65536.
Proof. intros x. unfold u16. now apply Z.mod_pos_bound. Qed.
Lemma u32_range : forall x, 0 <= u32 x < 4294967296.
Proof. intros x. unfold u32. now apply Z.mod_pos_bound. Qed.

Lemma s8_small : forall x, -128 <= x < 128 -> s8 x = x.
Proof. intros x H. unfold s8. cbv zeta. destruct (Z.ltb_spec (x mod 256) 128); lia. Qed.
Lemma s16_small : forall x, -32768 <= x < 32768 -> s16 x = x.
Proof. intros x H. unfold s16. cbv zeta. destruct (Z.ltb_spec (x mod 65536) 32768); lia. Qed.
Lemma s32_small : forall x, -2147483648 <= x < 2147483648 -> s32 x = x.
Proof. intros x H. unfold s32. cbv zeta. destruct (Z.ltb_spec (x mod 4294967296) 2147483648); lia. Qed.

Lemma s8_range : forall x, -128 <= s8 x < 128.
Proof. intros x. unfold s8. cbv zeta. destruct (Z.ltb_spec (x mod 256) 128); lia. Qed.
Lemma s16_range : forall x, -32768 <= s16 x < 32768.
Proof. intros x. unfold s16. cbv zeta. destruct (Z.ltb_spec (x mod 65536) 32768); lia. Qed.
Lemma s32_range : forall x, -2147483648 <= s32 x < 2147483648.
Proof. intros x. unfold s32. cbv zeta. destruct (Z.ltb_spec (x mod 4294967296) 2147483648); lia. Qed.

Lemma cells_length : forall A (m : Z -> A) n i, length (cells m i n) = n.
Proof. intros A m n. induction n as [|n IH]; intros i; cbn [cells length]; [reflexivity|now rewrite IH]. Qed.

Lemma cells_ext : forall A (m m' : Z -> A) n i,
  (forall j, i <= j < i + Z.of_nat n -> m j = m' j) -> cells m i n = cells m' i n.
Proof.
  intros A m m' n. induction n as [|n IH]; intros i H; cbn [cells]; [reflexivity|].
  f_equal.
  - apply H. lia.
  - apply IH. intros j Hj. apply H. lia.
Qed.

Lemma cells_app : forall A (m : Z -> A) n k i,
  cells m i (n + k) = cells m i n ++ cells m (i + Z.of_nat n) k.
Proof.
  intros A m n. induction n as [|n IH]; intros k i; cbn [cells app Nat.add].
  - f_equal. lia.
  - f_equal. rewrite IH. do 2 f_equal. lia.
Qed.

Lemma cells_snoc : forall A (m : Z -> A) n i,
  cells m i (S n) = cells m i n ++ [m (i + Z.of_nat n)].
Proof.
  intros A m n i. replace (S n) with (n + 1)%nat by lia. rewrite cells_app. reflexivity.
Qed.
