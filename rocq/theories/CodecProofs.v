(** * The two instruction codecs. *)

From Coq Require Import NArith Lia ZArith List Bool String.
From Coq Require Import ZifyBool ZifyNat ZifyN.
From Verif Require Import Machine Constants Operands OpcodeTrait Opcodes AllOpcodes Tables
  Decoding SpecIsa SpecCodec BitLemmas TableProofs.
Import ListNotations.
Open Scope N_scope.

(** Keep unification from computing the tables. *)
Global Opaque OPCODES_TABLE OPCODE_TO_CANONICAL_INDEX_LOOKUP_MAP
  OPCODE_TO_MONOTONIC_INDEX_NUMBER_MAP spec_table_v0 spec_table_v1.

(** ** Bit fields *)

Lemma bits_lt w lo n : bits w lo n < 2 ^ n.
Proof. apply mod_pow2_lt. Qed.

Lemma bits_low a b k lo n :
  a < 2 ^ k -> lo + n <= k -> bits (a + 2 ^ k * b) lo n = bits a lo n.
Proof.
  intros Ha Hk. unfold bits. rewrite !div_mod_pow2. f_equal.
  rewrite <- (mod_mod_pow2 (a + 2 ^ k * b) (lo + n) k) by exact Hk.
  replace ((a + 2 ^ k * b) mod 2 ^ k) with a; [reflexivity|].
  rewrite (N.mul_comm (2 ^ k)), N.mod_add by (apply N.pow_nonzero; lia).
  symmetry. apply N.mod_small, Ha.
Qed.

Lemma bits_high a b k m n : a < 2 ^ k -> bits (a + 2 ^ k * b) (k + m) n = bits b m n.
Proof.
  intros Ha. unfold bits. f_equal. rewrite N.pow_add_r.
  rewrite <- N.div_div by (apply N.pow_nonzero; lia). f_equal.
  rewrite (N.mul_comm (2 ^ k)), N.div_add by (apply N.pow_nonzero; lia).
  rewrite N.div_small by exact Ha. lia.
Qed.

Lemma bits_all a n : a < 2 ^ n -> bits a 0 n = a.
Proof. intros H. unfold bits. rewrite N.pow_0_r, N.div_1_r. apply N.mod_small, H. Qed.

Lemma bits_sub w lo n m k : m + k <= n -> bits (bits w lo n) m k = bits w (lo + m) k.
Proof.
  intros H. unfold bits. rewrite N.pow_add_r, <- N.div_div by (apply N.pow_nonzero; lia).
  set (x := w / 2 ^ lo). rewrite !div_mod_pow2, mod_mod_pow2 by exact H. reflexivity.
Qed.

Lemma bits_split w lo n m : bits w lo (n + m) = bits w lo n + 2 ^ n * bits w (lo + n) m.
Proof.
  unfold bits. rewrite (N.pow_add_r 2 n m), N.mod_mul_r by (apply N.pow_nonzero; lia).
  rewrite N.pow_add_r, <- N.div_div by (apply N.pow_nonzero; lia). reflexivity.
Qed.

Lemma word_split w k : w = bits w 0 k + 2 ^ k * (w / 2 ^ k).
Proof.
  unfold bits. rewrite N.pow_0_r, N.div_1_r.
  rewrite N.add_comm. apply N.div_mod, N.pow_nonzero. lia.
Qed.

Lemma bits_tail w k n : w < 2 ^ (k + n) -> bits w k n = w / 2 ^ k.
Proof.
  intros H. unfold bits. apply N.mod_small. apply N.div_lt_upper_bound.
  - apply N.pow_nonzero. lia.
  - rewrite <- N.pow_add_r. exact H.
Qed.

(** ** Conditions *)

Lemma cond_index c : Condition_variant_index c = spec_cond_number c.
Proof. destruct c; reflexivity. Qed.

Lemma cond_lt c : spec_cond_number c < 8.
Proof. destruct c; cbn; lia. Qed.

Lemma cond_of_number c : spec_condition (spec_cond_number c) = Some c.
Proof. destruct c; reflexivity. Qed.

Lemma lt8_cases (P : N -> Prop) :
  P 0 -> P 1 -> P 2 -> P 3 -> P 4 -> P 5 -> P 6 -> P 7 -> forall k, k < 8 -> P k.
Proof.
  intros. destruct k as [|p]; [assumption|].
  do 3 (destruct p as [p|p|]; try assumption); exfalso; lia.
Qed.

Lemma cond_materialize k :
  Condition_materialize_variant k =
  match spec_condition k with Some c => Ok c | None => Panic end.
Proof.
  destruct (N.lt_ge_cases k 8) as [H|H].
  - revert k H.
    apply (lt8_cases (fun k => Condition_materialize_variant k =
      match spec_condition k with Some c => Ok c | None => Panic end)); reflexivity.
  - unfold Condition_materialize_variant, spec_condition, Condition_NUM_VARIANTS.
    replace (k <? 8) with false by lia. cbn [assert_ bind].
    replace (nth_error _ _) with (@None Condition); [reflexivity|].
    symmetry. apply nth_error_None. cbn. lia.
Qed.

Lemma cond_number_of k c : spec_condition k = Some c -> spec_cond_number c = k.
Proof.
  intros H. destruct (N.lt_ge_cases k 8) as [Hk|Hk].
  - revert k Hk H.
    apply (lt8_cases (fun k => spec_condition k = Some c -> spec_cond_number c = k));
      intros H; vm_compute in H; injection H as <-; reflexivity.
  - exfalso. unfold spec_condition in H.
    rewrite (proj2 (nth_error_None _ _)) in H; [discriminate|]. cbn. lia.
Qed.

Lemma cond_defined k : k < 8 -> exists c, spec_condition k = Some c.
Proof.
  revert k. apply (lt8_cases (fun k => exists c, spec_condition k = Some c));
    eexists; reflexivity.
Qed.

(** ** The width assertions *)

Lemma range_sweep (p : N -> bool) n :
  forallb p (map N.of_nat (seq 0 n)) = true -> forall k, k < N.of_nat n -> p k = true.
Proof.
  intros H k Hk. rewrite forallb_forall in H. apply H.
  apply in_map_iff. exists (N.to_nat k). split; [lia|]. apply in_seq. lia.
Qed.

Lemma trailing_pow2 w k : trailing_zeros w (2 ^ k) = k.
Proof.
  induction k as [|k IH] using N.peano_ind; [reflexivity|].
  rewrite N.pow_succ_r by lia. assert (P := pow2_pos k).
  destruct (2 ^ k) as [|p]; [lia|].
  change (1 + trailing_zeros w (N.pos p) = N.succ k). rewrite IH. lia.
Qed.

(** The assertion on the number lets exactly the numbers up to 2048 pass. *)
Lemma width_check_iff n :
  (trailing_zeros 64 (next_power_of_two n) <=? OPCODES_TABLE_WIDTH) = (n <=? 2048).
Proof.
  unfold next_power_of_two. change OPCODES_TABLE_WIDTH with 11.
  destruct (n <=? 1) eqn:E; [cbn; lia|]. rewrite trailing_pow2.
  assert (H : N.log2 (n - 1) < 11 <-> n - 1 < 2 ^ 11) by (symmetry; apply N.log2_lt_pow2; lia).
  change (2 ^ 11) with 2048 in H. lia.
Qed.

Lemma width_check_number n :
  n < 2048 -> (trailing_zeros 64 (next_power_of_two n) <=? OPCODES_TABLE_WIDTH) = true.
Proof. intros H. rewrite width_check_iff. lia. Qed.

Lemma width_check_cond k :
  k < 8 -> (trailing_zeros 64 (next_power_of_two k) <=? CONDITIONAL_BITS_WIDTH) = true.
Proof.
  revert k. apply (lt8_cases (fun k =>
    (trailing_zeros 64 (next_power_of_two k) <=? CONDITIONAL_BITS_WIDTH) = true));
    reflexivity.
Qed.

(** ** Nibbles *)

Lemma split_as_u4_eq b : b < 2 ^ 8 -> split_as_u4 b = (bits b 0 4, bits b 4 4).
Proof.
  intros H. unfold split_as_u4. rewrite shr_div.
  change (shl 8 1 4 - 1) with (N.ones 4). rewrite N.land_ones.
  rewrite (bits_tail b 4 4) by exact H. unfold bits. rewrite N.pow_0_r, N.div_1_r. reflexivity.
Qed.

Lemma lor_lt a b k : a < 2 ^ k -> b < 2 ^ k -> N.lor a b < 2 ^ k.
Proof.
  intros Ha Hb. destruct (N.eq_dec (N.lor a b) 0) as [->|Hn]; [apply pow2_pos|].
  apply N.log2_lt_pow2; [lia|]. rewrite N.log2_lor.
  destruct (N.eq_dec a 0) as [->|Ha0]; destruct (N.eq_dec b 0) as [->|Hb0].
  - exfalso. apply Hn. reflexivity.
  - cbn [N.log2]. rewrite N.max_0_l. apply N.log2_lt_pow2; [lia|exact Hb].
  - cbn [N.log2]. rewrite N.max_0_r. apply N.log2_lt_pow2; [lia|exact Ha].
  - apply N.max_lub_lt; apply N.log2_lt_pow2; try lia; assumption.
Qed.

Lemma merge_small bld a b : a < 16 -> b < 16 -> merge_u4 bld a b = Ok (a + 16 * b).
Proof.
  intros Ha Hb. unfold merge_u4. replace (a <? 16) with true by lia.
  replace (b <? 16) with true by lia.
  replace (N.lor a (shl 8 b 4)) with (a + 16 * b).
  - destruct bld; reflexivity.
  - rewrite lor_shl; [|exact Ha|change (b * 16 < 256); lia].
    change (2 ^ 4) with 16. lia.
Qed.

Lemma merge_release a b : merge_u4 Release a b = Ok (N.lor a (b * 16 mod 256)).
Proof. unfold merge_u4. cbn [debug_assert_ bind]. rewrite shl_eq. reflexivity. Qed.

Lemma merge_debug_panic a b : merge_u4 Debug a b = Panic <-> 16 <= a \/ 16 <= b.
Proof.
  unfold merge_u4. cbn [debug_assert_].
  destruct (a <? 16) eqn:Ea; cbn [assert_ bind].
  - destruct (b <? 16) eqn:Eb; cbn [assert_ bind]; split; try discriminate; try lia; auto.
  - split; [lia|reflexivity].
Qed.

(** The merged byte, whatever the arguments *)
Lemma merge_byte bld a b m : a < 2 ^ 8 -> merge_u4 bld a b = Ok m -> m < 2 ^ 8.
Proof.
  intros Ha H. unfold merge_u4 in H.
  destruct (debug_assert_ bld (a <? 16)); cbn [bind] in H; [|discriminate].
  destruct (debug_assert_ bld (b <? 16)); cbn [bind] in H; [|discriminate].
  injection H as <-. apply lor_lt; [exact Ha|]. rewrite shl_eq. apply mod_pow2_lt.
Qed.

(** ** Encoding: one function for both modes *)

Definition gen_encode_with (M : res (list (OpcodeVariant * N))) (W iw : N) (bld : build)
    (d : DecodedOpcode) : res N :=
  let encoding := 0 in
  let* m := M in
  let* variant_bits := unwrap (map_get m (variant d)) in
  let* _ := assert_ (trailing_zeros 64 (next_power_of_two variant_bits)
                     <=? OPCODES_TABLE_WIDTH) in
  let encoding := N.lor encoding (variant_bits mod 2 ^ W) in
  let condition := Condition_variant_index (condition d) in
  let* _ := assert_ (trailing_zeros 64 (next_power_of_two condition)
                     <=? CONDITIONAL_BITS_WIDTH) in
  let encoding := N.lor encoding (shl W condition 13) in
  let* src_registers_byte := merge_u4 bld (src0_reg_idx d) (src1_reg_idx d) in
  let encoding := N.lor encoding (shl W src_registers_byte 16) in
  let* dst_registers_byte := merge_u4 bld (dst0_reg_idx d) (dst1_reg_idx d) in
  let encoding := N.lor encoding (shl W dst_registers_byte 24) in
  let encoding := N.lor encoding (shl W (imm_0 d) 32) in
  let encoding := N.lor encoding (shl W (imm_1 d) (32 + iw)) in
  Ok encoding.

Definition gen_encode : N -> N -> build -> DecodedOpcode -> res N :=
  gen_encode_with OPCODE_TO_CANONICAL_INDEX_LOOKUP_MAP.

Lemma prod_encode_gen_with M bld d :
  prod_encode_as_integer_with M bld d = gen_encode_with M 64 16 bld d.
Proof. reflexivity. Qed.

Lemma test_encode_gen_with M bld d :
  test_encode_as_integer_with M bld d = gen_encode_with M 128 32 bld d.
Proof. reflexivity. Qed.

Lemma prod_encode_gen bld d : prod_encode_as_integer bld d = gen_encode 64 16 bld d.
Proof. apply prod_encode_gen_with. Qed.

Lemma test_encode_gen bld d : test_encode_as_integer bld d = gen_encode 128 32 bld d.
Proof. apply test_encode_gen_with. Qed.

Lemma gen_encode_unknown W iw bld d :
  spec_number (variant d) = None -> gen_encode W iw bld d = Panic.
Proof.
  intros H. unfold gen_encode, gen_encode_with. destruct canonical_map_defined as (m & -> & Hm).
  cbn [bind]. rewrite Hm, H. reflexivity.
Qed.

Lemma gen_encode_known_with m W iw bld d n :
  iw <= 32 -> 32 + 2 * iw <= W ->
  map_get m (variant d) = Some n -> n <= 2048 -> typed iw d ->
  gen_encode_with (Ok m) W iw bld d =
  let* s := merge_u4 bld (src0_reg_idx d) (src1_reg_idx d) in
  let* t := merge_u4 bld (dst0_reg_idx d) (dst1_reg_idx d) in
  Ok (n + 2 ^ 13 * spec_cond_number (condition d) + 2 ^ 16 * s + 2 ^ 24 * t
      + 2 ^ 32 * imm_0 d + 2 ^ (32 + iw) * imm_1 d).
Proof.
  intros Hiw HW Hn Hb (Hs0 & Hs1 & Hd0 & Hd1 & Hi0 & Hi1).
  unfold gen_encode_with. cbn [bind]. rewrite Hn. cbn [unwrap bind].
  rewrite width_check_iff. replace (n <=? 2048) with true by lia. cbn [assert_ bind].
  rewrite cond_index. assert (Hc := cond_lt (condition d)).
  rewrite width_check_cond by exact Hc. cbn [assert_ bind].
  destruct (merge_u4 bld (src0_reg_idx d) (src1_reg_idx d)) as [s|] eqn:Es; [|reflexivity].
  cbn [bind].
  destruct (merge_u4 bld (dst0_reg_idx d) (dst1_reg_idx d)) as [t|] eqn:Et; [|reflexivity].
  cbn [bind]. f_equal.
  apply merge_byte in Es; [|exact Hs0]. apply merge_byte in Et; [|exact Hd0].
  change (N.lor 0 (n mod 2 ^ W)) with (n mod 2 ^ W).
  assert (H32 : 2 ^ 32 <= 2 ^ W) by (apply N.pow_le_mono_r; lia).
  assert (HWi : 2 ^ (32 + iw) <= 2 ^ W) by (apply N.pow_le_mono_r; lia).
  assert (HWii : 2 ^ (32 + iw + iw) <= 2 ^ W) by (apply N.pow_le_mono_r; lia).
  change (2 ^ 32) with 4294967296 in H32. change (2 ^ 8) with 256 in *.
  rewrite (N.mod_small n) by lia.
  rewrite (lor_shl W n) by (change (2 ^ 13) with 8192; lia).
  rewrite (lor_shl W _ s) by (change (2 ^ 13) with 8192; change (2 ^ 16) with 65536; lia).
  rewrite (lor_shl W _ t)
    by (change (2 ^ 13) with 8192; change (2 ^ 16) with 65536;
        change (2 ^ 24) with 16777216; lia).
  assert (Hlow : n + spec_cond_number (condition d) * 2 ^ 13 + s * 2 ^ 16 + t * 2 ^ 24 < 2 ^ 32).
  { change (2 ^ 13) with 8192; change (2 ^ 16) with 65536;
      change (2 ^ 24) with 16777216; change (2 ^ 32) with 4294967296; lia. }
  assert (Hm0 : imm_0 d * 2 ^ 32 < 2 ^ (32 + iw)).
  { rewrite N.pow_add_r, (N.mul_comm (2 ^ 32)). apply N.mul_lt_mono_pos_r; [apply pow2_pos|].
    exact Hi0. }
  assert (Hm1 : imm_1 d * 2 ^ (32 + iw) < 2 ^ W).
  { eapply N.lt_le_trans; [|exact HWii]. rewrite (N.pow_add_r 2 (32 + iw)).
    rewrite (N.mul_comm (2 ^ (32 + iw))). apply N.mul_lt_mono_pos_r; [apply pow2_pos|].
    exact Hi1. }
  rewrite (lor_shl W _ (imm_0 d)) by (try exact Hlow; eapply N.lt_le_trans; eassumption).
  assert (Hlow2 : n + spec_cond_number (condition d) * 2 ^ 13 + s * 2 ^ 16 + t * 2 ^ 24
                  + imm_0 d * 2 ^ 32 < 2 ^ (32 + iw)).
  { rewrite N.pow_add_r. assert (imm_0 d + 1 <= 2 ^ iw) by lia.
    assert ((imm_0 d + 1) * 2 ^ 32 <= 2 ^ iw * 2 ^ 32) by (apply N.mul_le_mono_r; assumption).
    lia. }
  rewrite (lor_shl W _ (imm_1 d)) by assumption.
  rewrite !(N.mul_comm (2 ^ _)). reflexivity.
Qed.

Lemma gen_encode_known W iw bld d n :
  iw <= 32 -> 32 + 2 * iw <= W ->
  spec_number (variant d) = Some n -> typed iw d ->
  gen_encode W iw bld d =
  let* s := merge_u4 bld (src0_reg_idx d) (src1_reg_idx d) in
  let* t := merge_u4 bld (dst0_reg_idx d) (dst1_reg_idx d) in
  Ok (n + 2 ^ 13 * spec_cond_number (condition d) + 2 ^ 16 * s + 2 ^ 24 * t
      + 2 ^ 32 * imm_0 d + 2 ^ (32 + iw) * imm_1 d).
Proof.
  intros Hiw HW Hn Ht. unfold gen_encode. destruct canonical_map_defined as (m & -> & Hm).
  assert (Hb := spec_number_bound _ _ Hn).
  apply gen_encode_known_with; try assumption; [rewrite Hm; exact Hn|lia].
Qed.

Lemma gen_encode_in_range W iw bld d n :
  iw <= 32 -> 32 + 2 * iw <= W ->
  spec_number (variant d) = Some n -> typed iw d -> regs_in_range d ->
  gen_encode W iw bld d = Ok (spec_word iw n d).
Proof.
  intros Hiw HW Hn Ht (H0 & H1 & H2 & H3).
  rewrite (gen_encode_known W iw bld d n) by assumption.
  rewrite !merge_small by assumption. cbn [bind]. unfold spec_word. f_equal.
  generalize (2 ^ (32 + iw) * imm_1 d). intros x.
  change (2 ^ 13) with 8192; change (2 ^ 16) with 65536; change (2 ^ 20) with 1048576;
    change (2 ^ 24) with 16777216; change (2 ^ 28) with 268435456;
    change (2 ^ 32) with 4294967296. lia.
Qed.

Lemma mode_encode_gen m bld d :
  encode_as_integer (mode_impl m) bld d = gen_encode (mode_word_bits m) (mode_imm_bits m) bld d.
Proof. destruct m; [apply prod_encode_gen | apply test_encode_gen]. Qed.

Lemma mode_sizes m : mode_imm_bits m <= 32 /\ 32 + 2 * mode_imm_bits m <= mode_word_bits m.
Proof. destruct m; cbn; lia. Qed.

(** ** Decoding *)

Lemma index_padded k : k < 2048 -> index padded_table k = Ok (spec_variant_at k).
Proof.
  intros H. unfold index, spec_variant_at, padded_table.
  destruct (Nat.lt_ge_cases (N.to_nat k) (List.length spec_table_v1)) as [Hl|Hl].
  - rewrite nth_error_app1 by exact Hl.
    destruct (nth_error spec_table_v1 (N.to_nat k)) eqn:E; [reflexivity|].
    apply nth_error_None in E. lia.
  - rewrite nth_error_app2 by exact Hl. rewrite spec_table_v1_length in *.
    rewrite (nth_error_repeat spec_invalid) by lia.
    rewrite (proj2 (nth_error_None spec_table_v1 (N.to_nat k)))
      by (rewrite spec_table_v1_length; lia).
    reflexivity.
Qed.

Lemma u64_word_fields_with t w :
  exists c, spec_condition (bits w 13 3) = Some c /\
  variant_and_condition_from_u64_word_with (Ok t) w
  = let* v := index t (bits w 0 11) in Ok (v, c, bits w 0 11).
Proof.
  destruct (cond_defined (bits w 13 3)) as [c Hc]; [apply (bits_lt w 13 3)|].
  exists c. split; [exact Hc|].
  unfold variant_and_condition_from_u64_word_with. cbn [bind].
  change prod_VARIANT_MASK with (N.ones 11). rewrite N.land_ones.
  replace (w mod 2 ^ 11) with (bits w 0 11)
    by (unfold bits; rewrite N.pow_0_r, N.div_1_r; reflexivity).
  destruct (index t (bits w 0 11)) as [v|]; [|reflexivity]. cbn [bind].
  change prod_CONDITION_MASK with (N.ones 3 * 2 ^ 13). rewrite land_mask_shift, shr_div.
  change CONDITIONAL_BITS_SHIFT with 13.
  rewrite N.div_mul by (apply N.pow_nonzero; lia).
  change ((w / 2 ^ 13) mod 2 ^ 3) with (bits w 13 3).
  rewrite cond_materialize, Hc. reflexivity.
Qed.

Lemma u64_word_fields w :
  exists c, spec_condition (bits w 13 3) = Some c /\
  variant_and_condition_from_u64_word w = Ok (spec_variant_at (bits w 0 11), c, bits w 0 11).
Proof.
  destruct (u64_word_fields_with padded_table w) as (c & Hc & H). exists c. split; [exact Hc|].
  unfold variant_and_condition_from_u64_word. rewrite OPCODES_TABLE_eq, H.
  rewrite index_padded by (apply (bits_lt w 0 11)). reflexivity.
Qed.

Lemma u128_word_is_u64_word_with T w :
  variant_and_condition_from_u128_word_with T w
  = variant_and_condition_from_u64_word_with T (as_u64 w).
Proof. reflexivity. Qed.

Lemma u128_word_is_u64_word w :
  variant_and_condition_from_u128_word w = variant_and_condition_from_u64_word (as_u64 w).
Proof. apply u128_word_is_u64_word_with. Qed.

Lemma as_bits_8 w lo : as_u8 (shr w lo) = bits w lo 8.
Proof. unfold as_u8, bits. rewrite shr_div. reflexivity. Qed.
Lemma as_bits_16 w lo : as_u16 (shr w lo) = bits w lo 16.
Proof. unfold as_u16, bits. rewrite shr_div. reflexivity. Qed.
Lemma as_bits_32 w lo : as_u32 (shr w lo) = bits w lo 32.
Proof. unfold as_u32, bits. rewrite shr_div. reflexivity. Qed.

Lemma as_u64_bits w : as_u64 w = bits w 0 64.
Proof. unfold as_u64, bits. rewrite N.pow_0_r, N.div_1_r. reflexivity. Qed.

(** The fields other than the variant. *)
Definition other_fields (iw w : N) (d : DecodedOpcode) : Prop :=
  spec_condition (bits w 13 3) = Some (condition d) /\
  src0_reg_idx d = bits w 16 4 /\ src1_reg_idx d = bits w 20 4 /\
  dst0_reg_idx d = bits w 24 4 /\ dst1_reg_idx d = bits w 28 4 /\
  imm_0 d = bits w 32 iw /\ imm_1 d = bits w (32 + iw) iw.

Lemma prod_parse_fields_with t w :
  match index t (bits w 0 11) with
  | Ok v => exists d, prod_parse_with (Ok t) w = Ok (d, mkVariantMonotonicNumber (bits w 0 11)) /\
              variant d = v /\ other_fields 16 w d
  | Panic => prod_parse_with (Ok t) w = Panic
  end.
Proof.
  destruct (u64_word_fields_with t w) as (c & Hc & Hv).
  unfold prod_parse_with. rewrite Hv. destruct (index t (bits w 0 11)) as [v|]; [|reflexivity].
  eexists. cbn [bind].
  change SRC_REGS_SHIFT with 16. change DST_REGS_SHIFT with 24.
  change prod_IMM0_SHIFT with 32. change prod_IMM1_SHIFT with 48.
  rewrite !as_bits_8, !as_bits_16.
  rewrite !split_as_u4_eq by apply bits_lt.
  rewrite !bits_sub by lia. split; [reflexivity|]. split; [reflexivity|].
  unfold other_fields; cbn [variant condition src0_reg_idx src1_reg_idx dst0_reg_idx
    dst1_reg_idx imm_0 imm_1].
  repeat split; exact Hc.
Qed.

Lemma test_parse_fields_with t w :
  match index t (bits w 0 11) with
  | Ok v => exists d, test_parse_with (Ok t) w = Ok (d, mkVariantMonotonicNumber (bits w 0 11)) /\
              variant d = v /\ other_fields 32 w d
  | Panic => test_parse_with (Ok t) w = Panic
  end.
Proof.
  destruct (u64_word_fields_with t (as_u64 w)) as (c & Hc & Hv).
  rewrite as_u64_bits in Hc, Hv. rewrite !bits_sub in Hc, Hv by lia.
  unfold test_parse_with. rewrite u128_word_is_u64_word_with, as_u64_bits, Hv.
  change (0 + 0) with 0.
  destruct (index t (bits w 0 11)) as [v|]; [|reflexivity].
  eexists. cbn [bind].
  change SRC_REGS_SHIFT with 16. change DST_REGS_SHIFT with 24.
  change test_IMM0_SHIFT with 32. change test_IMM1_SHIFT with 64.
  rewrite !as_bits_8, !as_bits_32.
  rewrite !split_as_u4_eq by apply bits_lt.
  rewrite !bits_sub by lia. split; [reflexivity|]. split; [reflexivity|].
  unfold other_fields; cbn [variant condition src0_reg_idx src1_reg_idx dst0_reg_idx
    dst1_reg_idx imm_0 imm_1].
  repeat split; exact Hc.
Qed.

Lemma prod_parse_fields w :
  exists d, prod_parse w = Ok (d, mkVariantMonotonicNumber (bits w 0 11)) /\
            spec_fields 16 w d.
Proof.
  assert (H := prod_parse_fields_with padded_table w).
  rewrite index_padded in H by (apply (bits_lt w 0 11)). destruct H as (d & H & Hv & Ho).
  exists d. unfold prod_parse. rewrite OPCODES_TABLE_eq. split; [exact H|split; assumption].
Qed.

Lemma test_parse_fields w :
  exists d, test_parse w = Ok (d, mkVariantMonotonicNumber (bits w 0 11)) /\
            spec_fields 32 w d.
Proof.
  assert (H := test_parse_fields_with padded_table w).
  rewrite index_padded in H by (apply (bits_lt w 0 11)). destruct H as (d & H & Hv & Ho).
  exists d. unfold test_parse. rewrite OPCODES_TABLE_eq. split; [exact H|split; assumption].
Qed.

Lemma mode_parse_fields m w :
  exists d, parse_preliminary_variant_and_absolute_number (mode_impl m) w
            = Ok (d, mkVariantMonotonicNumber (bits w 0 11)) /\
            spec_fields (mode_imm_bits m) w d.
Proof. destruct m; [apply prod_parse_fields | apply test_parse_fields]. Qed.

(** Decoded fields have the ranges of their types. *)
Lemma other_fields_typed iw w d : other_fields iw w d -> typed iw d /\ regs_in_range d.
Proof.
  intros (_ & H0 & H1 & H2 & H3 & H4 & H5). unfold typed, regs_in_range.
  rewrite H0, H1, H2, H3, H4, H5.
  assert (B : forall lo, bits w lo 4 < 16) by (intros lo; apply (bits_lt w lo 4)).
  assert (B0 := B 16). assert (B1 := B 20). assert (B2 := B 24). assert (B3 := B 28).
  change (2 ^ 8) with 256.
  repeat split; try apply bits_lt; try lia.
Qed.

Lemma fields_typed iw w d : spec_fields iw w d -> typed iw d /\ regs_in_range d.
Proof. intros [_ H]. exact (other_fields_typed _ _ _ H). Qed.

Lemma fields_unique iw w d d' : spec_fields iw w d -> spec_fields iw w d' -> d = d'.
Proof.
  destruct d as [v c a0 a1 b0 b1 i j], d' as [v' c' a0' a1' b0' b1' i' j'].
  unfold spec_fields; cbn.
  intros (-> & Hc & -> & -> & -> & -> & -> & ->) (-> & Hc' & -> & -> & -> & -> & -> & ->).
  f_equal. congruence.
Qed.

(** ** Round trip: decode after encode *)

Lemma bits_head a b k : a < 2 ^ k -> bits (a + 2 ^ k * b) 0 k = a.
Proof. intros H. rewrite bits_low by (try exact H; lia). apply bits_all, H. Qed.

Lemma spec_word_horner iw n d :
  spec_word iw n d =
  n + 2 ^ 13 * (spec_cond_number (condition d)
  + 2 ^ 3 * (src0_reg_idx d + 2 ^ 4 * (src1_reg_idx d
  + 2 ^ 4 * (dst0_reg_idx d + 2 ^ 4 * (dst1_reg_idx d
  + 2 ^ 4 * (imm_0 d + 2 ^ iw * imm_1 d)))))).
Proof.
  unfold spec_word. rewrite (N.pow_add_r 2 32 iw).
  change (2 ^ 13) with 8192; change (2 ^ 16) with 65536; change (2 ^ 20) with 1048576;
    change (2 ^ 24) with 16777216; change (2 ^ 28) with 268435456;
    change (2 ^ 32) with 4294967296; change (2 ^ 4) with 16; change (2 ^ 3) with 8. lia.
Qed.

Lemma other_word_fields iw n d :
  n < 2048 -> typed iw d -> regs_in_range d ->
  other_fields iw (spec_word iw n d) d /\ bits (spec_word iw n d) 0 11 = n /\
  bits (spec_word iw n d) 11 2 = 0.
Proof.
  intros Hb (_ & _ & _ & _ & Hi0 & Hi1) (H0 & H1 & H2 & H3). assert (Hc := cond_lt (condition d)).
  rewrite spec_word_horner.
  assert (Hb13 : n < 2 ^ 13) by (change (2 ^ 13) with 8192; lia).
  assert (Hb11 : n < 2 ^ 11) by (change (2 ^ 11) with 2048; lia).
  assert (Hnum : forall x, bits (n + 2 ^ 13 * x) 0 11 = n).
  { intros x. rewrite bits_low by (try exact Hb13; lia). apply bits_all, Hb11. }
  rewrite !Hnum.
  assert (Hgap : forall x, bits (n + 2 ^ 13 * x) 11 2 = 0).
  { intros x. rewrite bits_low by (try exact Hb13; lia). unfold bits.
    rewrite N.div_small by exact Hb11. reflexivity. }
  rewrite Hgap. split; [|split; reflexivity].
  unfold other_fields.
  assert (Hc3 : spec_cond_number (condition d) < 2 ^ 3) by exact Hc.
  split; [|repeat split].
  - change 13 with (13 + 0) at 2. rewrite bits_high by exact Hb13.
    rewrite bits_head by exact Hc3. apply cond_of_number.
  - change 16 with (13 + (3 + 0)) at 1. rewrite !bits_high by assumption.
    rewrite bits_head by exact H0. reflexivity.
  - change 20 with (13 + (3 + (4 + 0))). rewrite !bits_high by assumption.
    rewrite bits_head by exact H1. reflexivity.
  - change 24 with (13 + (3 + (4 + (4 + 0)))). rewrite !bits_high by assumption.
    rewrite bits_head by exact H2. reflexivity.
  - change 28 with (13 + (3 + (4 + (4 + (4 + 0))))). rewrite !bits_high by assumption.
    rewrite bits_head by exact H3. reflexivity.
  - change 32 with (13 + (3 + (4 + (4 + (4 + (4 + 0)))))). rewrite !bits_high by assumption.
    rewrite bits_head by exact Hi0. reflexivity.
  - replace (32 + iw) with (13 + (3 + (4 + (4 + (4 + (4 + (iw + 0))))))) by lia.
    rewrite !bits_high by assumption. symmetry. apply bits_all, Hi1.
Qed.

Lemma word_fields iw n d :
  spec_number (variant d) = Some n -> typed iw d -> regs_in_range d ->
  spec_fields iw (spec_word iw n d) d /\ bits (spec_word iw n d) 0 11 = n /\
  bits (spec_word iw n d) 11 2 = 0.
Proof.
  intros Hn Ht Hr. assert (Hb := spec_number_bound _ _ Hn).
  destruct (other_word_fields iw n d) as (Ho & Hk & Hg); [lia|assumption..|].
  split; [|split; assumption]. split; [|exact Ho]. rewrite Hk.
  unfold spec_variant_at. rewrite <- first_index_number in Hn.
  apply first_index_Some in Hn as [-> _]. reflexivity.
Qed.

Lemma roundtrip_decode m bld d n :
  spec_number (variant d) = Some n -> typed (mode_imm_bits m) d -> regs_in_range d ->
  encode_as_integer (mode_impl m) bld d = Ok (spec_word (mode_imm_bits m) n d) /\
  parse_preliminary_variant_and_absolute_number (mode_impl m)
    (spec_word (mode_imm_bits m) n d) = Ok (d, mkVariantMonotonicNumber n).
Proof.
  intros Hn Ht Hr. split.
  - rewrite mode_encode_gen. destruct (mode_sizes m) as [A B].
    apply gen_encode_in_range; assumption.
  - destruct (word_fields _ n d Hn Ht Hr) as (Hf & Hk & _).
    destruct (mode_parse_fields m (spec_word (mode_imm_bits m) n d)) as (d' & -> & Hf').
    rewrite Hk. rewrite (fields_unique _ _ _ _ Hf' Hf). reflexivity.
Qed.

(** ** Round trip: encode after decode *)

Lemma number_at k :
  k < 2048 -> spec_number (spec_variant_at k) = Some (if k <? spec_assigned then k else 0).
Proof.
  intros H.
  apply option_N_eqb_iff.
  apply (range_sweep (fun k => option_N_eqb (spec_number (spec_variant_at k))
           (Some (if k <? spec_assigned then k else 0))) 2048); [|lia].
  vm_compute. reflexivity.
Qed.

Lemma other_fields_word iw w d n :
  other_fields iw w d ->
  spec_word iw n d = n + 2 ^ 13 * bits w 13 (19 + 2 * iw).
Proof.
  intros (Hc & H0 & H1 & H2 & H3 & H4 & H5).
  rewrite spec_word_horner, H0, H1, H2, H3, H4, H5, (cond_number_of _ _ Hc).
  f_equal. f_equal.
  replace (19 + 2 * iw) with (3 + (4 + (4 + (4 + (4 + (iw + iw)))))) by lia.
  rewrite !bits_split. reflexivity.
Qed.

Lemma fields_word iw w d n :
  spec_fields iw w d ->
  spec_word iw n d = n + 2 ^ 13 * bits w 13 (19 + 2 * iw).
Proof. intros [_ H]. exact (other_fields_word _ _ _ _ H). Qed.

Lemma roundtrip_encode m bld w :
  exists d, parse_preliminary_variant_and_absolute_number (mode_impl m) w
            = Ok (d, mkVariantMonotonicNumber (bits w 0 11)) /\
            encode_as_integer (mode_impl m) bld d = Ok (spec_normalise (mode_imm_bits m) w).
Proof.
  destruct (mode_parse_fields m w) as (d & Hp & Hf). exists d. split; [exact Hp|].
  destruct (fields_typed _ _ _ Hf) as [Ht Hr].
  destruct (roundtrip_decode m bld d
              (if bits w 0 11 <? spec_assigned then bits w 0 11 else 0)) as [-> _];
    try assumption.
  - destruct Hf as [-> _]. apply number_at, (bits_lt w 0 11).
  - f_equal. apply fields_word, Hf.
Qed.

Lemma split_64 w : w < 2 ^ 64 ->
  w = bits w 0 11 + 2 ^ 11 * bits w 11 2 + 2 ^ 13 * bits w 13 51.
Proof.
  intros H. assert (E : bits w 0 64 = w) by (apply bits_all, H).
  change 64 with (11 + (2 + 51)) in E. rewrite !bits_split in E.
  change (0 + 11 + 2) with 13 in E. change (0 + 11) with 11 in E.
  change (2 ^ 11) with 2048 in *. change (2 ^ 2) with 4 in *. change (2 ^ 13) with 8192. lia.
Qed.

Lemma split_128 w : w < 2 ^ 128 ->
  w = bits w 0 11 + 2 ^ 11 * bits w 11 2 + 2 ^ 13 * bits w 13 83 + 2 ^ 96 * bits w 96 32.
Proof.
  intros H. assert (E : bits w 0 128 = w) by (apply bits_all, H).
  change 128 with (11 + (2 + (83 + 32))) in E. rewrite !bits_split in E.
  change (0 + 11 + 2 + 83) with 96 in E.
  change (0 + 11 + 2) with 13 in E. change (0 + 11) with 11 in E.
  change (2 ^ 96) with (2048 * (4 * 2 ^ 83)). change (2 ^ 83) with 9671406556917033397649408 in *.
  change (2 ^ 11) with 2048 in *. change (2 ^ 2) with 4 in *. change (2 ^ 13) with 8192. lia.
Qed.

Lemma prod_normalise_fixed w : w < 2 ^ 64 ->
  (spec_normalise 16 w = w <-> bits w 11 2 = 0 /\ bits w 0 11 < spec_assigned).
Proof.
  intros H. unfold spec_normalise, spec_assigned. assert (E := split_64 w H).
  change (19 + 2 * 16) with 51.
  assert (B := bits_lt w 0 11). change (2 ^ 11) with 2048 in *. change (2 ^ 13) with 8192 in *.
  destruct (N.ltb_spec (bits w 0 11) 1093); lia.
Qed.

Lemma test_normalise_fixed w : w < 2 ^ 128 ->
  (spec_normalise 32 w = w <->
   bits w 11 2 = 0 /\ bits w 96 32 = 0 /\ bits w 0 11 < spec_assigned).
Proof.
  intros H. unfold spec_normalise, spec_assigned. assert (E := split_128 w H).
  change (19 + 2 * 32) with 83.
  assert (B := bits_lt w 0 11). change (2 ^ 11) with 2048 in *. change (2 ^ 13) with 8192 in *.
  change (2 ^ 96) with 79228162514264337593543950336 in *.
  destruct (N.ltb_spec (bits w 0 11) 1093); lia.
Qed.
