(** * Proofs about the pointer width. *)

From Coq Require Import Arith NArith Lia ZArith List Bool String.
From Verif Require Import Machine Constants Operands OpcodeTrait Opcodes AllOpcodes Tables Decoding
  Target SpecIsa SpecFamilies SpecCodec.
From Coq Require Import ZifyBool ZifyNat ZifyN.
From Verif Require Import BitLemmas TableProofs TableProofs2 TableProofs3 CodecProofs ProofsTables.
Import ListNotations.
Open Scope N_scope.

Lemma pow_16 p : 16 <= p -> 65536 <= 2 ^ p.
Proof. intros H. change 65536 with (2 ^ 16). apply N.pow_le_mono_r; lia. Qed.

Lemma as_usize_small p x : 16 <= p -> x < 65536 -> as_usize p x = x.
Proof. intros Hp Hx. apply N.mod_small. apply pow_16 in Hp. lia. Qed.

Lemma u64_word_on p w : 16 <= p ->
  variant_and_condition_from_u64_word_on p w = variant_and_condition_from_u64_word w.
Proof.
  intros Hp. unfold variant_and_condition_from_u64_word_on, variant_and_condition_from_u64_word,
    variant_and_condition_from_u64_word_with.
  change prod_VARIANT_MASK with (N.ones 11). rewrite N.land_ones.
  change prod_CONDITION_MASK with (N.ones 3 * 2 ^ 13). rewrite land_mask_shift, shr_div.
  change CONDITIONAL_BITS_SHIFT with 13.
  rewrite N.div_mul by (apply N.pow_nonzero; lia).
  assert (B := mod_pow2_lt w 11). assert (C := mod_pow2_lt (w / 2 ^ 13) 3).
  change (2 ^ 11) with 2048 in *. change (2 ^ 3) with 8 in *.
  rewrite !as_usize_small by (assumption || lia). reflexivity.
Qed.

Lemma u128_word_on p w : 16 <= p ->
  variant_and_condition_from_u128_word_on p w = variant_and_condition_from_u128_word w.
Proof.
  intros Hp.
  transitivity (variant_and_condition_from_u64_word_on p (as_u64 w)).
  - unfold variant_and_condition_from_u128_word_on, variant_and_condition_from_u64_word_on.
    generalize OPCODES_TABLE. intros t. reflexivity.
  - etransitivity; [apply u64_word_on, Hp|]. symmetry. apply u128_word_is_u64_word.
Qed.

Lemma next_small n : n < 2048 -> next_power_of_two n <= 2048 /\ 0 < next_power_of_two n.
Proof.
  intros H.
  assert (E : (next_power_of_two n <=? 2048) && (0 <? next_power_of_two n) = true); [|lia].
  apply (range_sweep (fun n => (next_power_of_two n <=? 2048) && (0 <? next_power_of_two n)) 2048);
    [|lia].
  vm_compute. reflexivity.
Qed.

Lemma trailing_width p q n : 0 < n -> trailing_zeros p n = trailing_zeros q n.
Proof. destruct n; [lia|reflexivity]. Qed.

Lemma trailing_small n : n < 2048 -> trailing_zeros 64 (next_power_of_two n) < 65536.
Proof.
  intros H. assert (W := width_check_number n H). apply N.leb_le in W.
  change OPCODES_TABLE_WIDTH with 11 in W. lia.
Qed.

Lemma check_on bld p n : 16 <= p -> n < 2048 ->
  next_power_of_two_on bld p n = Ok (next_power_of_two n) /\
  as_usize p (trailing_zeros p (next_power_of_two n)) = trailing_zeros 64 (next_power_of_two n).
Proof.
  intros Hp H. destruct (next_small n H) as [L P]. split.
  - unfold next_power_of_two_on. apply pow_16 in Hp.
    replace (next_power_of_two n <? 2 ^ p) with true by lia. reflexivity.
  - rewrite (trailing_width p 64) by exact P. apply as_usize_small; [exact Hp|].
    apply trailing_small, H.
Qed.

Ltac encode_on Hp bld d m E :=
  destruct canonical_map_defined as (m & E & Hm); rewrite E, !bind_Ok, Hm;
  destruct (spec_number (variant d)) as [n|] eqn:Hn;
  [|cbn [unwrap bind]; reflexivity];
  assert (Hb := spec_number_bound _ _ Hn); cbn [unwrap]; rewrite !bind_Ok;
  destruct (check_on bld _ n Hp ltac:(lia)) as [E1 E2]; rewrite E1, bind_Ok, E2;
  rewrite width_check_number by lia; cbn [assert_]; rewrite !bind_Ok;
  assert (Hc := cond_lt (condition d)); rewrite !cond_index;
  rewrite (as_usize_small _ (spec_cond_number (condition d)) Hp) by lia;
  destruct (check_on bld _ (spec_cond_number (condition d)) Hp ltac:(lia)) as [E3 E4];
  rewrite E3, bind_Ok, E4; reflexivity.

Lemma prod_encode_on p bld d : 16 <= p ->
  prod_encode_as_integer_on p bld d = prod_encode_as_integer bld d.
Proof.
  intros Hp. unfold prod_encode_as_integer_on, prod_encode_as_integer, prod_encode_as_integer_with.
  encode_on Hp bld d m E.
Qed.

Lemma test_encode_on p bld d : 16 <= p ->
  test_encode_as_integer_on p bld d = test_encode_as_integer bld d.
Proof.
  intros Hp. unfold test_encode_as_integer_on, test_encode_as_integer, test_encode_as_integer_with.
  encode_on Hp bld d m E.
Qed.

(** ** C73 *)

(** On every target (Rust's pointers have at least 16 bits) both codecs are the same. *)
Lemma pf_C73_codec :
  forall p, 16 <= p ->
    (forall w, prod_parse_on p w
               = parse_preliminary_variant_and_absolute_number EncodingModeProduction w) /\
    (forall w, test_parse_on p w
               = parse_preliminary_variant_and_absolute_number EncodingModeTesting w) /\
    (forall bld d, prod_encode_as_integer_on p bld d
                   = encode_as_integer EncodingModeProduction bld d) /\
    (forall bld d, test_encode_as_integer_on p bld d
                   = encode_as_integer EncodingModeTesting bld d).
Proof.
  intros p Hp. split; [|split; [|split]].
  - intros w. unfold prod_parse_on. rewrite u64_word_on by exact Hp. reflexivity.
  - intros w. unfold test_parse_on. rewrite u128_word_on by exact Hp. reflexivity.
  - intros bld d. apply prod_encode_on, Hp.
  - intros bld d. apply test_encode_on, Hp.
Qed.

Lemma synthesize_on_eq p bld b v :
  synthesize_opcode_decoding_tables_on p bld b v =
  match shl_one bld p b with
  | Panic => Panic
  | Ok c => if spec_count v <=? c
            then Ok (spec_table v ++ repeat spec_invalid (N.to_nat (c - spec_count v)))
            else Panic
  end.
Proof.
  unfold synthesize_opcode_decoding_tables_on, synthesize_opcode_decoding_tables_of.
  change (set_objects current_set) with all_opcodes.
  change all_opcodes with (Ok (match all_opcodes with Ok a => a | Panic => [] end)).
  cbn [bind].
  change (check_unique_names _) with (Ok (match check_unique_names
    (match all_opcodes with Ok a => a | Panic => [] end) with Ok a => a | Panic => [] end)).
  cbn [bind]. destruct (shl_one bld p b) as [c|]; [|reflexivity]. cbn [bind].
  change (fun result version => _) with version_step.
  rewrite version_loop. cbn [bind]. rewrite spec_table_head. cbn [bind].
  change (OpcodeVariant_eqb spec_invalid INVALID_OPCODE_VARIANT) with true. cbn [assert_ bind].
  rewrite spec_table_len. destruct (spec_count v <=? c) eqn:E; [|reflexivity].
  cbn [assert_ bind]. rewrite resize_eq by (rewrite spec_table_len; lia).
  rewrite spec_table_len. reflexivity.
Qed.

Lemma legacy_on_eq p bld b v :
  synthesize_opcode_decoding_tables_legacy_on p bld b v =
  if v =? 0 then synthesize_opcode_decoding_tables_on p bld b v else Panic.
Proof.
  unfold synthesize_opcode_decoding_tables_legacy_on, synthesize_opcode_decoding_tables_legacy_of.
  change (set_objects current_set) with all_opcodes. rewrite synthesize_on_eq.
  change all_opcodes with (Ok (match all_opcodes with Ok a => a | Panic => [] end)).
  cbn [bind].
  change (check_unique_names _) with (Ok (match check_unique_names
    (match all_opcodes with Ok a => a | Panic => [] end) with Ok a => a | Panic => [] end)).
  cbn [bind]. destruct (shl_one bld p b) as [c|]; [|destruct (v =? 0); reflexivity]. cbn [bind].
  change (fun result version => _) with legacy_step.
  rewrite legacy_loop. destruct (v =? 0) eqn:Hv; [|reflexivity].
  apply N.eqb_eq in Hv. subst v. cbn [bind].
  change spec_table_v0 with (spec_table 0). rewrite spec_table_head. cbn [bind].
  change (OpcodeVariant_eqb spec_invalid INVALID_OPCODE_VARIANT) with true. cbn [assert_ bind].
  rewrite spec_table_len. destruct (spec_count 0 <=? c) eqn:H; [|reflexivity].
  cbn [assert_ bind]. rewrite resize_eq by (rewrite spec_table_len; lia).
  rewrite spec_table_len. reflexivity.
Qed.

Lemma shl_one_on bld p b : p <= 64 -> b < p -> shl_one bld p b = shl_one bld 64 b.
Proof.
  intros Hp Hb. unfold shl_one. replace (b <? p) with true by lia.
  replace (b <? 64) with true by lia. reflexivity.
Qed.

(** Table synthesis is the same for widths below the pointer width; from there on it panics
    with overflow checks, and without them takes the width modulo the pointer width. *)
Lemma pf_C73_tables :
  forall p, 16 <= p <= 64 ->
    (forall bld b v, b < p ->
       synthesize_opcode_decoding_tables_on p bld b v
       = synthesize_opcode_decoding_tables bld b v /\
       synthesize_opcode_decoding_tables_legacy_on p bld b v
       = synthesize_opcode_decoding_tables_legacy bld b v) /\
    (forall b v, p <= b ->
       synthesize_opcode_decoding_tables_on p Debug b v = Panic /\
       synthesize_opcode_decoding_tables_legacy_on p Debug b v = Panic /\
       synthesize_opcode_decoding_tables_on p Release b v
       = synthesize_opcode_decoding_tables Release (b mod p) v /\
       synthesize_opcode_decoding_tables_legacy_on p Release b v
       = synthesize_opcode_decoding_tables_legacy Release (b mod p) v) /\
    (forall bld, OPCODES_TABLE =
       let* t := synthesize_opcode_decoding_tables_on p bld OPCODES_TABLE_WIDTH
                   DEFAULT_ISA_VERSION in
       into_array (2 ^ OPCODES_TABLE_WIDTH) t).
Proof.
  intros p Hp.
  assert (A : forall bld b v, b < p -> synthesize_opcode_decoding_tables_on p bld b v
              = synthesize_opcode_decoding_tables bld b v).
  { intros bld b v Hb. rewrite synthesize_on_eq, synthesize_eq, shl_one_on by lia. reflexivity. }
  assert (D : forall b v, p <= b ->
     synthesize_opcode_decoding_tables_on p Debug b v = Panic /\
     synthesize_opcode_decoding_tables_on p Release b v
     = synthesize_opcode_decoding_tables Release (b mod p) v).
  { intros b v Hb. rewrite !synthesize_on_eq, synthesize_eq. unfold shl_one.
    assert (M : b mod p < p) by (apply N.mod_lt; lia).
    replace (b <? p) with false by lia. replace (b mod p <? 64) with true by lia.
    split; reflexivity. }
  split; [|split].
  - intros bld b v Hb. split; [apply A, Hb|].
    rewrite legacy_on_eq, legacy_eq. destruct (v =? 0); [apply A, Hb|reflexivity].
  - intros b v Hb. destruct (D b v Hb) as [D1 D2]. rewrite !legacy_on_eq, legacy_eq, D1, D2.
    split; [reflexivity|]. split; [destruct (v =? 0); reflexivity|]. split; reflexivity.
  - intros bld. rewrite A by (change OPCODES_TABLE_WIDTH with 11; lia).
    apply (proj2 pf_C18_build).
Qed.

(** Expected: a width below 64 gives the same table everywhere.  False from width 32 on: a
    32-bit release build takes width 34 as width 2, which does not fit the variants. *)
Lemma pf_C73_refuted :
  ~ (forall b v, b < 64 ->
       synthesize_opcode_decoding_tables_on 32 Release b v
       = synthesize_opcode_decoding_tables_on 64 Release b v).
Proof.
  intros H. specialize (H 34 1 ltac:(lia)). rewrite !synthesize_on_eq in H.
  change (shl_one Release 32 34) with (Ok 4) in H.
  change (shl_one Release 64 34) with (Ok (2 ^ 34)) in H.
  change (spec_count 1 <=? 4) with false in H.
  change (spec_count 1 <=? 2 ^ 34) with true in H. discriminate H.
Qed.

Example pf_C73_example :
  16 <= 32 <= 64 /\ 34 mod 32 = 2 /\
  exists d, prod_parse_on 32 0x0001FFFF07F3A06C = Ok (d, mkVariantMonotonicNumber 108) /\
    imm_0 d = 0xFFFF /\ src1_reg_idx d = 15.
Proof.
  split; [lia|]. split; [reflexivity|].
  destruct (mode_parse_fields ProductionMode 0x0001FFFF07F3A06C) as (d & E & F).
  exists d. split; [|split].
  - etransitivity; [exact (proj1 (pf_C73_codec 32 ltac:(lia)) _)|]. etransitivity; [exact E|].
    reflexivity.
  - destruct F as (_ & _ & _ & _ & _ & _ & -> & _). reflexivity.
  - destruct F as (_ & _ & _ & -> & _). reflexivity.
Qed.
