(** * Arithmetic lemmas: bit operations as div/mod. *)

From Coq Require Import NArith Lia ZArith List Bool.
From Coq Require Import ZifyBool ZifyNat ZifyN.
From Verif Require Import Machine.
Import ListNotations.
Open Scope N_scope.

Ltac Zify.zify_post_hook ::= Z.div_mod_to_equations.

Lemma testbit_high a k i : a < 2 ^ k -> k <= i -> N.testbit a i = false.
Proof.
  intros Ha Hi. destruct (N.eq_dec a 0) as [->|Hne]; [apply N.bits_0|].
  apply N.bits_above_log2. apply N.log2_lt_pow2; [lia|].
  eapply N.lt_le_trans; [exact Ha|]. apply N.pow_le_mono_r; lia.
Qed.

Lemma lor_shiftl a b k : a < 2 ^ k -> N.lor a (N.shiftl b k) = a + b * 2 ^ k.
Proof.
  intros Ha.
  assert (Hl : N.land a (N.shiftl b k) = 0).
  { apply N.bits_inj. intro i. rewrite N.land_spec, N.bits_0.
    destruct (N.lt_ge_cases i k) as [H|H].
    - rewrite N.shiftl_spec_low by exact H. apply andb_false_r.
    - rewrite (testbit_high a k i Ha H). reflexivity. }
  rewrite <- N.lxor_lor by exact Hl.
  rewrite <- N.add_nocarry_lxor by exact Hl.
  rewrite N.shiftl_mul_pow2. reflexivity.
Qed.

Lemma shl_small w x k : x * 2 ^ k < 2 ^ w -> shl w x k = x * 2 ^ k.
Proof. intros H. unfold shl. rewrite N.shiftl_mul_pow2. apply N.mod_small. exact H. Qed.

Lemma shl_eq w x k : shl w x k = (x * 2 ^ k) mod 2 ^ w.
Proof. unfold shl. rewrite N.shiftl_mul_pow2. reflexivity. Qed.

Lemma lor_mul_pow2 a b k : a < 2 ^ k -> N.lor a (b * 2 ^ k) = a + b * 2 ^ k.
Proof. intros H. rewrite <- (lor_shiftl a b k H), N.shiftl_mul_pow2. reflexivity. Qed.

Lemma lor_shl w a b k :
  a < 2 ^ k -> b * 2 ^ k < 2 ^ w -> N.lor a (shl w b k) = a + b * 2 ^ k.
Proof. intros Ha Hb. rewrite shl_small by exact Hb. apply lor_mul_pow2; exact Ha. Qed.

Lemma shr_div x k : shr x k = x / 2 ^ k.
Proof. unfold shr. apply N.shiftr_div_pow2. Qed.

Lemma land_shiftl_mask a b k : N.land a (N.shiftl b k) = N.shiftl (N.land (N.shiftr a k) b) k.
Proof.
  apply N.bits_inj. intro i. rewrite N.land_spec.
  destruct (N.lt_ge_cases i k) as [H|H].
  - rewrite !N.shiftl_spec_low by exact H. apply andb_false_r.
  - rewrite !N.shiftl_spec_high' by exact H. rewrite N.land_spec, N.shiftr_spec'.
    replace (i - k + k) with i by lia. reflexivity.
Qed.

Lemma land_mask_shift a w k : N.land a (N.ones w * 2 ^ k) = (a / 2 ^ k) mod 2 ^ w * 2 ^ k.
Proof.
  rewrite <- N.shiftl_mul_pow2, land_shiftl_mask, N.land_ones, N.shiftl_mul_pow2,
    N.shiftr_div_pow2. reflexivity.
Qed.

Lemma pow2_pos k : 0 < 2 ^ k.
Proof. apply N.neq_0_lt_0, N.pow_nonzero. lia. Qed.

Lemma mod_pow2_lt a k : a mod 2 ^ k < 2 ^ k.
Proof. apply N.mod_lt, N.pow_nonzero. lia. Qed.

(** Splitting a range of bits. *)
Lemma div_mod_pow2 a lo n : (a / 2 ^ lo) mod 2 ^ n = (a mod 2 ^ (lo + n)) / 2 ^ lo.
Proof.
  rewrite N.pow_add_r.
  rewrite N.mod_mul_r by (apply N.pow_nonzero; lia).
  rewrite N.mul_comm, N.div_add by (apply N.pow_nonzero; lia).
  rewrite (N.div_small (a mod 2 ^ lo)) by apply mod_pow2_lt. lia.
Qed.

(** A value and its bits, used to characterise words. *)
Lemma mod_mod_pow2 a i j : i <= j -> (a mod 2 ^ j) mod 2 ^ i = a mod 2 ^ i.
Proof.
  intros H. replace j with (i + (j - i)) by lia. rewrite N.pow_add_r.
  rewrite N.mod_mul_r by (apply N.pow_nonzero; lia).
  rewrite N.mul_comm, N.mod_add by (apply N.pow_nonzero; lia).
  apply N.mod_mod, N.pow_nonzero; lia.
Qed.
