(** * Proofs of the register ABI and versioned hash properties (C38-C48). *)

From Coq Require Import Arith NArith Lia ZArith List Bool.
From Coq Require Import ZifyBool ZifyNat ZifyN.
From Verif Require Import Machine Decoding Abi VersionedHash SpecAbi.
From Verif Require Import BitLemmas.
Import ListNotations.
Open Scope N_scope.

(** ** Bits *)

Lemma sub_bits x k lo n m : lo + n <= m ->
  (x / 2 ^ (k + lo)) mod 2 ^ n = ((x / 2 ^ k) mod 2 ^ m / 2 ^ lo) mod 2 ^ n.
Proof.
  intros H. apply N.bits_inj. intros i.
  destruct (N.lt_ge_cases i n) as [Hi|Hi].
  - rewrite !N.mod_pow2_bits_low by exact Hi. rewrite !N.div_pow2_bits.
    rewrite N.mod_pow2_bits_low by lia. rewrite N.div_pow2_bits. f_equal. lia.
  - rewrite !N.mod_pow2_bits_high by exact Hi. reflexivity.
Qed.

Lemma limb_of v : u256_ok v ->
  (u256_value v / 2 ^ 0) mod 2 ^ 64 = limb0 v /\ (u256_value v / 2 ^ 64) mod 2 ^ 64 = limb1 v /\
  (u256_value v / 2 ^ 128) mod 2 ^ 64 = limb2 v /\ (u256_value v / 2 ^ 192) mod 2 ^ 64 = limb3 v.
Proof.
  intros (H0 & H1 & H2 & H3). destruct v as [a b c d]; cbn [limb0 limb1 limb2 limb3] in *.
  unfold u256_value; cbn [limb0 limb1 limb2 limb3].
  split; [|split; [|split]].
  - rewrite N.div_1_r.
    replace (a + 2 ^ 64 * b + 2 ^ 128 * c + 2 ^ 192 * d)
      with (a + (b + 2 ^ 64 * c + 2 ^ 128 * d) * 2 ^ 64) by lia.
    rewrite N.mod_add by discriminate. apply N.mod_small; exact H0.
  - replace (a + 2 ^ 64 * b + 2 ^ 128 * c + 2 ^ 192 * d)
      with (a + (b + (c + 2 ^ 64 * d) * 2 ^ 64) * 2 ^ 64) by lia.
    rewrite N.div_add by discriminate. rewrite N.div_small by exact H0.
    rewrite N.add_0_l, N.mod_add by discriminate. apply N.mod_small; exact H1.
  - replace (a + 2 ^ 64 * b + 2 ^ 128 * c + 2 ^ 192 * d)
      with ((a + 2 ^ 64 * b) + (c + d * 2 ^ 64) * 2 ^ 128) by lia.
    rewrite N.div_add by discriminate. rewrite N.div_small by lia.
    rewrite N.add_0_l, N.mod_add by discriminate. apply N.mod_small; exact H2.
  - replace (a + 2 ^ 64 * b + 2 ^ 128 * c + 2 ^ 192 * d)
      with ((a + 2 ^ 64 * b + 2 ^ 128 * c) + d * 2 ^ 192) by lia.
    rewrite N.div_add by discriminate. rewrite N.div_small by lia.
    rewrite N.add_0_l. apply N.mod_small; exact H3.
Qed.

Lemma field0 v lo n : u256_ok v -> lo + n <= 64 ->
  bit_field (u256_value v) lo n = (limb0 v / 2 ^ lo) mod 2 ^ n.
Proof.
  intros H L. unfold bit_field. change lo with (0 + lo) at 1.
  rewrite (sub_bits _ 0 lo n 64 L). rewrite (proj1 (limb_of v H)). reflexivity.
Qed.
Lemma field1 v lo n : u256_ok v -> lo + n <= 64 ->
  bit_field (u256_value v) (64 + lo) n = (limb1 v / 2 ^ lo) mod 2 ^ n.
Proof.
  intros H L. unfold bit_field.
  rewrite (sub_bits _ 64 lo n 64 L). rewrite (proj1 (proj2 (limb_of v H))). reflexivity.
Qed.
Lemma field2 v lo n : u256_ok v -> lo + n <= 64 ->
  bit_field (u256_value v) (128 + lo) n = (limb2 v / 2 ^ lo) mod 2 ^ n.
Proof.
  intros H L. unfold bit_field.
  rewrite (sub_bits _ 128 lo n 64 L). rewrite (proj1 (proj2 (proj2 (limb_of v H)))).
  reflexivity.
Qed.
Lemma field3 v lo n : u256_ok v -> lo + n <= 64 ->
  bit_field (u256_value v) (192 + lo) n = (limb3 v / 2 ^ lo) mod 2 ^ n.
Proof.
  intros H L. unfold bit_field.
  rewrite (sub_bits _ 192 lo n 64 L). rewrite (proj2 (proj2 (proj2 (limb_of v H)))).
  reflexivity.
Qed.

Lemma high_half a : a < 2 ^ 64 -> as_u32 (shr a 32) = a / 2 ^ 32.
Proof.
  intros H. unfold as_u32. rewrite shr_div. apply N.mod_small.
  apply N.div_lt_upper_bound; [discriminate|exact H].
Qed.

Lemma join_half a b : a < 2 ^ 32 -> b < 2 ^ 32 -> N.lor a (shl 64 b 32) = a + b * 2 ^ 32.
Proof. intros Ha Hb. apply lor_shl; lia. Qed.

Lemma join_lt a b : a < 2 ^ 32 -> b < 2 ^ 32 -> a + b * 2 ^ 32 < 2 ^ 64.
Proof. lia. Qed.

Lemma low_join a b : a < 2 ^ 32 -> as_u32 (a + b * 2 ^ 32) = a.
Proof. intros Ha. unfold as_u32. rewrite N.mod_add by discriminate. apply N.mod_small, Ha. Qed.

Lemma high_join a b : a < 2 ^ 32 -> b < 2 ^ 32 -> as_u32 (shr (a + b * 2 ^ 32) 32) = b.
Proof.
  intros Ha Hb. rewrite high_half by (apply join_lt; assumption).
  rewrite N.div_add by discriminate. rewrite N.div_small by exact Ha. reflexivity.
Qed.

Lemma split_half a : a < 2 ^ 64 ->
  a = as_u32 a + as_u32 (shr a 32) * 2 ^ 32 /\ as_u32 a < 2 ^ 32 /\ as_u32 (shr a 32) < 2 ^ 32.
Proof.
  intros H. rewrite high_half by exact H. unfold as_u32.
  split; [rewrite N.mul_comm, N.add_comm; apply N.div_mod; discriminate|].
  split; [apply mod_pow2_lt|]. apply N.div_lt_upper_bound; [discriminate|exact H].
Qed.

Lemma le_byte_field x i : le_byte x i = bit_field x (8 * i) 8.
Proof. unfold le_byte, bit_field. rewrite N.pow_mul_r. reflexivity. Qed.

Lemma u256_inj v v' : u256_ok v -> u256_ok v' -> u256_value v = u256_value v' -> v = v'.
Proof.
  intros H H' E. assert (L := limb_of v H). assert (L' := limb_of v' H'). rewrite E in L.
  destruct L as (A & B & C & D), L' as (A' & B' & C' & D').
  destruct v, v'; cbn in *. congruence.
Qed.

Lemma radix_inj b a a' x x' : a < b -> a' < b -> a + b * x = a' + b * x' -> a = a' /\ x = x'.
Proof.
  intros Ha Hb E. rewrite (N.add_comm a), (N.add_comm a') in E.
  destruct (N.div_mod_unique b x x' a a' Ha Hb E) as [-> ->]. split; reflexivity.
Qed.

Ltac lim := cbn [limb0 limb1 limb2 limb3].

(** ** C38 *)

(** Packing then unpacking, and the packed value. *)
Lemma pf_C38_pack :
  forall p, fat_pointer_ok p ->
    FatPointer_from_u256 (FatPointer_to_u256 p) = p /\
    u256_ok (FatPointer_to_u256 p) /\
    u256_value (FatPointer_to_u256 p) =
      fp_offset p + 2 ^ 32 * fp_memory_page p + 2 ^ 64 * fp_start p + 2 ^ 96 * fp_length p /\
    u256_value (FatPointer_to_u256 p) < 2 ^ FAT_POINTER_PACKED_WIDTH.
Proof.
  intros [o g s l] (Ho & Hg & Hs & Hl);
  cbn [fp_offset fp_memory_page fp_start fp_length] in *.
  unfold FatPointer_to_u256, u256_ok, u256_value; cbn [fp_offset fp_memory_page fp_start
    fp_length]; lim.
  rewrite !join_half by assumption.
  split; [|split; [|split]].
  - unfold FatPointer_from_u256; lim.
    rewrite !low_join, !high_join by assumption. reflexivity.
  - assert (J := join_lt o g Ho Hg). assert (J' := join_lt s l Hs Hl).
    repeat split; assumption || reflexivity.
  - lia.
  - unfold FAT_POINTER_PACKED_WIDTH. lia.
Qed.

(** Unpacking reads four 32-bit fields of the lower half; packing again gives that half. *)
Lemma pf_C38_unpack :
  forall v, u256_ok v ->
    let p := FatPointer_from_u256 v in
    fat_pointer_ok p /\
    fp_offset p = bit_field (u256_value v) 0 32 /\
    fp_memory_page p = bit_field (u256_value v) 32 32 /\
    fp_start p = bit_field (u256_value v) 64 32 /\
    fp_length p = bit_field (u256_value v) 96 32 /\
    u256_value (FatPointer_to_u256 p) = u256_value v mod 2 ^ 128.
Proof.
  intros v H p.
  assert (Hp : fat_pointer_ok p).
  { destruct H as (H0 & H1 & _). unfold fat_pointer_ok, p, FatPointer_from_u256.
    cbn [fp_offset fp_memory_page fp_start fp_length].
    repeat split; apply mod_pow2_lt. }
  split; [exact Hp|].
  assert (F0 := field0 v 0 32 H ltac:(lia)). assert (F1 := field0 v 32 32 H ltac:(lia)).
  assert (F2 := field1 v 0 32 H ltac:(lia)). assert (F3 := field1 v 32 32 H ltac:(lia)).
  change (64 + 0) with 64 in F2. change (64 + 32) with 96 in F3.
  rewrite F0, F1, F2, F3. unfold p at 1 2 3 4, FatPointer_from_u256.
  cbn [fp_offset fp_memory_page fp_start fp_length]. unfold as_u32. rewrite !shr_div, !N.div_1_r.
  do 4 (split; [reflexivity|]).
  destruct (pf_C38_pack p Hp) as (_ & _ & -> & _).
  unfold p, FatPointer_from_u256. cbn [fp_offset fp_memory_page fp_start fp_length].
  destruct H as (H0 & H1 & _).
  destruct (split_half _ H0) as (E0 & _). destruct (split_half _ H1) as (E1 & _).
  unfold u256_value.
  replace (limb0 v + 2 ^ 64 * limb1 v + 2 ^ 128 * limb2 v + 2 ^ 192 * limb3 v)
    with ((limb0 v + 2 ^ 64 * limb1 v) + (limb2 v + 2 ^ 64 * limb3 v) * 2 ^ 128) by lia.
  rewrite N.mod_add by discriminate. rewrite N.mod_small by lia.
  rewrite E0 at 3. rewrite E1 at 3. lia.
Qed.

(** Exactly the lower half matters, and packing is injective. *)
Lemma pf_C38_injective :
  (forall v v', u256_ok v -> u256_ok v' ->
     (FatPointer_from_u256 v = FatPointer_from_u256 v' <->
      u256_value v mod 2 ^ 128 = u256_value v' mod 2 ^ 128)) /\
  (forall p p', fat_pointer_ok p -> fat_pointer_ok p' ->
     FatPointer_to_u256 p = FatPointer_to_u256 p' -> p = p').
Proof.
  split.
  - intros v v' H H'. split; intros E.
    + destruct (pf_C38_unpack v H) as (_ & _ & _ & _ & _ & <-).
      destruct (pf_C38_unpack v' H') as (_ & _ & _ & _ & _ & <-). rewrite E. reflexivity.
    + destruct (pf_C38_unpack v H) as (O & _ & _ & _ & _ & A).
      destruct (pf_C38_unpack v' H') as (O' & _ & _ & _ & _ & A').
      assert (K : FatPointer_to_u256 (FatPointer_from_u256 v)
                  = FatPointer_to_u256 (FatPointer_from_u256 v')).
      { apply u256_inj; [apply pf_C38_pack, O|apply pf_C38_pack, O'|congruence]. }
      rewrite <- (proj1 (pf_C38_pack _ O)), <- (proj1 (pf_C38_pack _ O')), K. reflexivity.
  - intros p p' H H' E. rewrite <- (proj1 (pf_C38_pack _ H)), <- (proj1 (pf_C38_pack _ H')), E.
    reflexivity.
Qed.

(** The empty pointer is the reading of zero, and trivial. *)
Lemma pf_C38_empty :
  FatPointer_empty = FatPointer_from_u256 U256_zero /\
  FatPointer_to_u256 FatPointer_empty = U256_zero /\
  FatPointer_is_trivial FatPointer_empty = true /\ FAT_POINTER_PACKED_WIDTH = 128.
Proof. repeat split. Qed.

Example pf_C38_example :
  fat_pointer_ok (mkFatPointer 7 11 (2 ^ 32 - 1) 5) /\
  u256_ok (mkU256 (7 + 2 ^ 32 * 11) (2 ^ 32 - 1 + 2 ^ 32 * 5) 1 2) /\
  FatPointer_to_u256 (mkFatPointer 7 11 (2 ^ 32 - 1) 5)
  = mkU256 (7 + 2 ^ 32 * 11) (2 ^ 32 - 1 + 2 ^ 32 * 5) 0 0 /\
  FatPointer_from_u256 (mkU256 (7 + 2 ^ 32 * 11) (2 ^ 32 - 1 + 2 ^ 32 * 5) 1 2)
  = mkFatPointer 7 11 (2 ^ 32 - 1) 5.
Proof. repeat split. Qed.

(** ** C39 *)

(** Exactly which exceptions are reported. *)
Lemma pf_C39_validate :
  forall p fresh, fat_pointer_ok p ->
    FatPointer_validate p fresh =
      (if fresh && (0 <? fp_offset p) then OFFSET_IS_NOT_ZERO_WHEN_EXPECTED else 0) +
      (if 2 ^ 32 <=? fp_start p + fp_length p then DEREF_BEYOND_HEAP_RANGE else 0) /\
    OFFSET_IS_NOT_ZERO_WHEN_EXPECTED = 1 /\ DEREF_BEYOND_HEAP_RANGE = 2.
Proof.
  intros p fresh _. split; [|split; reflexivity].
  unfold FatPointer_validate, overflowing_add_w.
  replace (negb (fp_offset p =? 0)) with (0 <? fp_offset p) by lia.
  destruct (fresh && (0 <? fp_offset p)), (2 ^ 32 <=? fp_start p + fp_length p); reflexivity.
Qed.

(** A pointer without exceptions and with an offset in bounds addresses a byte inside its
    range, without overflow; a pointer that is a slice addresses at most the end. *)
Lemma pf_C39_safety :
  forall p fresh, fat_pointer_ok p -> FatPointer_validate p fresh = 0 ->
    fp_start p + fp_length p < 2 ^ 32 /\ (fresh = true -> fp_offset p = 0) /\
    (FatPointer_validate_in_bounds p = true ->
       fp_start p + fp_offset p < fp_start p + fp_length p) /\
    (FatPointer_validate_as_slice p = true ->
       fp_start p + fp_offset p <= fp_start p + fp_length p).
Proof.
  intros p fresh H E. destruct (pf_C39_validate p fresh H) as (V & W1 & W2). rewrite E, W1, W2 in V.
  destruct (2 ^ 32 <=? fp_start p + fp_length p) eqn:B; [destruct (fresh && (0 <? fp_offset p));
    discriminate|].
  unfold FatPointer_validate_in_bounds, FatPointer_validate_as_slice.
  split; [lia|]. split; [|split; lia].
  intros ->. cbn in V. destruct (0 <? fp_offset p) eqn:O; [discriminate|lia].
Qed.

(** The three simple tests and how they relate. *)
Lemma pf_C39_tests :
  forall p,
    (FatPointer_validate_in_bounds p = true <-> fp_offset p < fp_length p) /\
    (FatPointer_validate_as_slice p = true <-> fp_offset p <= fp_length p) /\
    (FatPointer_is_trivial p = true <-> fp_offset p = 0 /\ fp_length p = 0) /\
    (FatPointer_validate_in_bounds p = true -> FatPointer_validate_as_slice p = true) /\
    (FatPointer_is_trivial p = true -> FatPointer_validate_as_slice p = true /\
       FatPointer_validate_in_bounds p = false).
Proof.
  intros p.
  unfold FatPointer_validate_in_bounds, FatPointer_validate_as_slice, FatPointer_is_trivial.
  lia.
Qed.

Example pf_C39_example :
  fat_pointer_ok (mkFatPointer 1 0 (2 ^ 32 - 5) 5) /\
  fat_pointer_ok (mkFatPointer 4 0 (2 ^ 32 - 5) 4) /\
  FatPointer_validate (mkFatPointer 1 0 (2 ^ 32 - 5) 5) true = 3 /\
  FatPointer_validate (mkFatPointer 1 0 (2 ^ 32 - 5) 4) false = 0 /\
  FatPointer_validate_in_bounds (mkFatPointer 4 0 (2 ^ 32 - 5) 4) = false /\
  FatPointer_validate_as_slice (mkFatPointer 4 0 (2 ^ 32 - 5) 4) = true.
Proof. repeat split. Qed.

(** ** C40 *)

Lemma upper_byte v k : u256_ok v -> (k < 4)%nat ->
  nth k (to_le_bytes 4 (as_u32 (shr (limb3 v) 32))) 0
  = le_byte (u256_value v) (28 + N.of_nat k).
Proof.
  intros H Hk. assert (H3 := proj2 (proj2 (proj2 H))).
  rewrite high_half by exact H3. rewrite le_byte_field.
  replace (8 * (28 + N.of_nat k)) with (192 + (32 + 8 * N.of_nat k)) by lia.
  rewrite field3 by (exact H || lia).
  rewrite N.pow_add_r, <- N.div_div by (apply N.pow_nonzero; lia).
  set (x := limb3 v / 2 ^ 32).
  destruct k as [|[|[|[|k]]]]; [| | | |lia].
  - change (N.of_nat 0) with 0. rewrite N.mul_0_r, N.div_1_r. reflexivity.
  - reflexivity.
  - cbn [to_le_bytes nth]. rewrite N.div_div by discriminate. reflexivity.
  - cbn [to_le_bytes nth]. rewrite !N.div_div by discriminate. reflexivity.
Qed.

Lemma le_byte_lt x i : le_byte x i < 256.
Proof. apply N.mod_lt. discriminate. Qed.

(** The fields of the far-call ABI. *)
Lemma pf_C40_layout :
  forall v, u256_ok v ->
    let x := u256_value v in
    let a := FarCallABI_from_u256 v in
    fc_memory_quasi_fat_pointer a =
      mkFatPointer (bit_field x 0 32) (bit_field x 32 32) (bit_field x 64 32) (bit_field x 96 32) /\
    fc_ergs_passed a = bit_field x 192 32 /\
    fc_forwarding_mode a =
      (if le_byte x FAR_CALL_FORWARDING_MODE_BYTE_IDX =? 1 then FarCall_ForwardFatPointer
       else if le_byte x FAR_CALL_FORWARDING_MODE_BYTE_IDX =? 2 then FarCall_UseAuxHeap
       else FarCall_UseHeap) /\
    fc_shard_id a = le_byte x FAR_CALL_SHARD_ID_BYTE_IDX /\
    (fc_constructor_call a = true <-> le_byte x FAR_CALL_CONSTRUCTOR_CALL_BYTE_IDX <> 0) /\
    (fc_to_system a = true <-> le_byte x FAR_CALL_SYSTEM_CALL_BYTE_IDX <> 0).
Proof.
  intros v H x a. subst x a. unfold FarCallABI_from_u256.
  cbn [fc_memory_quasi_fat_pointer fc_ergs_passed fc_forwarding_mode fc_shard_id
       fc_constructor_call fc_to_system].
  assert (B0 := upper_byte v 0 H ltac:(lia)). assert (B1 := upper_byte v 1 H ltac:(lia)).
  assert (B2 := upper_byte v 2 H ltac:(lia)). assert (B3 := upper_byte v 3 H ltac:(lia)).
  rewrite B0, B1, B2, B3.
  change (28 + N.of_nat 0) with FAR_CALL_FORWARDING_MODE_BYTE_IDX.
  change (28 + N.of_nat 1) with FAR_CALL_SHARD_ID_BYTE_IDX.
  change (28 + N.of_nat 2) with FAR_CALL_CONSTRUCTOR_CALL_BYTE_IDX.
  change (28 + N.of_nat 3) with FAR_CALL_SYSTEM_CALL_BYTE_IDX.
  split; [|split; [|split; [|split; [|split]]]].
  - destruct (pf_C38_unpack v H) as (_ & <- & <- & <- & <- & _).
    destruct (FatPointer_from_u256 v). reflexivity.
  - assert (F := field3 v 0 32 H ltac:(lia)). change (192 + 0) with 192 in F. rewrite F.
    rewrite N.div_1_r. reflexivity.
  - generalize (le_byte (u256_value v) FAR_CALL_FORWARDING_MODE_BYTE_IDX) as m.
    intros [|[m|[m|m|]|]]; reflexivity.
  - reflexivity.
  - lia.
  - lia.
Qed.

(** The exported byte indices, and the bits that are ignored. *)
Lemma pf_C40_ignored :
  FAR_CALL_FORWARDING_MODE_BYTE_IDX = 28 /\ FAR_CALL_SHARD_ID_BYTE_IDX = 29 /\
  FAR_CALL_CONSTRUCTOR_CALL_BYTE_IDX = 30 /\ FAR_CALL_SYSTEM_CALL_BYTE_IDX = 31 /\
  forall v v', u256_ok v -> u256_ok v' ->
    bit_field (u256_value v) 0 128 = bit_field (u256_value v') 0 128 ->
    bit_field (u256_value v) 192 64 = bit_field (u256_value v') 192 64 ->
    FarCallABI_from_u256 v = FarCallABI_from_u256 v'.
Proof.
  do 4 (split; [reflexivity|]). intros v v' H H' E0 E3.
  assert (F := field3 v 0 64 H ltac:(lia)). assert (F' := field3 v' 0 64 H' ltac:(lia)).
  change (192 + 0) with 192 in *. rewrite F, F' in E3. rewrite !N.div_1_r in E3.
  rewrite (N.mod_small (limb3 v)) in E3 by apply H.
  rewrite (N.mod_small (limb3 v')) in E3 by apply H'.
  assert (P : FatPointer_from_u256 v = FatPointer_from_u256 v').
  { apply (proj1 pf_C38_injective); [exact H|exact H'|].
    unfold bit_field in E0. rewrite !N.div_1_r in E0. exact E0. }
  unfold FarCallABI_from_u256. rewrite P, E3. reflexivity.
Qed.

Example pf_C40_example :
  let v := mkU256 3 0 99 (1000 + 2 ^ 32 * (2 + 256 * 7 + 65536 * 0 + 16777216 * 9)) in
  let v' := mkU256 3 0 5 (1000 + 2 ^ 32 * (2 + 256 * 7 + 65536 * 0 + 16777216 * 9)) in
  u256_ok v /\ u256_ok v' /\ v <> v' /\
  bit_field (u256_value v) 0 128 = bit_field (u256_value v') 0 128 /\
  bit_field (u256_value v) 192 64 = bit_field (u256_value v') 192 64 /\
  FarCallABI_from_u256 v
  = mkFarCallABI (mkFatPointer 3 0 0 0) 1000 7 FarCall_UseAuxHeap false true.
Proof. cbv zeta. repeat split. discriminate. Qed.

(** ** C41 *)

(** The fields of the ret ABI. *)
Lemma pf_C41_layout :
  forall v, u256_ok v ->
    let x := u256_value v in
    let a := RetABI_from_u256 v in
    ret_memory_quasi_fat_pointer a =
      mkFatPointer (bit_field x 0 32) (bit_field x 32 32) (bit_field x 64 32) (bit_field x 96 32) /\
    ret_page_forwarding_mode a =
      (if le_byte x RET_FORWARDING_MODE_BYTE_IDX =? 1 then Ret_ForwardFatPointer
       else if le_byte x RET_FORWARDING_MODE_BYTE_IDX =? 2 then Ret_UseAuxHeap
       else Ret_UseHeap) /\
    RET_FORWARDING_MODE_BYTE_IDX = 28.
Proof.
  intros v H x a. subst x a. unfold RetABI_from_u256.
  cbn [ret_memory_quasi_fat_pointer ret_page_forwarding_mode].
  assert (B0 := upper_byte v 0 H ltac:(lia)). rewrite B0.
  change (28 + N.of_nat 0) with RET_FORWARDING_MODE_BYTE_IDX.
  split; [|split; [|reflexivity]].
  - destruct (pf_C38_unpack v H) as (_ & <- & <- & <- & <- & _).
    destruct (FatPointer_from_u256 v). reflexivity.
  - generalize (le_byte (u256_value v) RET_FORWARDING_MODE_BYTE_IDX) as m.
    intros [|[m|[m|m|]|]]; reflexivity.
Qed.

(** Far call and ret read the same pointer and the same mode, and nothing else matters to
    ret. *)
Lemma pf_C41_agreement :
  (forall v, u256_ok v ->
     ret_memory_quasi_fat_pointer (RetABI_from_u256 v)
       = fc_memory_quasi_fat_pointer (FarCallABI_from_u256 v) /\
     (ret_page_forwarding_mode (RetABI_from_u256 v) = Ret_UseHeap <->
        fc_forwarding_mode (FarCallABI_from_u256 v) = FarCall_UseHeap) /\
     (ret_page_forwarding_mode (RetABI_from_u256 v) = Ret_ForwardFatPointer <->
        fc_forwarding_mode (FarCallABI_from_u256 v) = FarCall_ForwardFatPointer) /\
     (ret_page_forwarding_mode (RetABI_from_u256 v) = Ret_UseAuxHeap <->
        fc_forwarding_mode (FarCallABI_from_u256 v) = FarCall_UseAuxHeap)) /\
  (forall v v', u256_ok v -> u256_ok v' ->
     bit_field (u256_value v) 0 128 = bit_field (u256_value v') 0 128 ->
     bit_field (u256_value v) 224 8 = bit_field (u256_value v') 224 8 ->
     RetABI_from_u256 v = RetABI_from_u256 v').
Proof.
  split.
  - intros v H. destruct (pf_C41_layout v H) as (-> & -> & _).
    destruct (pf_C40_layout v H) as (-> & _ & -> & _). split; [reflexivity|].
    change RET_FORWARDING_MODE_BYTE_IDX with FAR_CALL_FORWARDING_MODE_BYTE_IDX.
    destruct (le_byte (u256_value v) FAR_CALL_FORWARDING_MODE_BYTE_IDX =? 1),
      (le_byte (u256_value v) FAR_CALL_FORWARDING_MODE_BYTE_IDX =? 2);
      repeat split; intros K; try discriminate K; reflexivity.
  - intros v v' H H' E0 E.
    destruct (pf_C41_layout v H) as (_ & A & _). destruct (pf_C41_layout v' H') as (_ & B & _).
    rewrite le_byte_field in A, B. change (8 * RET_FORWARDING_MODE_BYTE_IDX) with 224 in *.
    assert (P : FatPointer_from_u256 v = FatPointer_from_u256 v').
    { apply (proj1 pf_C38_injective); [exact H|exact H'|].
      unfold bit_field in E0. rewrite !N.div_1_r in E0. exact E0. }
    rewrite E, <- B in A. unfold RetABI_from_u256 in *.
    cbn [ret_page_forwarding_mode] in A. rewrite P, A. reflexivity.
Qed.

Example pf_C41_example :
  let v := mkU256 0 (2 ^ 32) 99 (2 ^ 32 * (1 + 256 * 7)) in
  let v' := mkU256 0 (2 ^ 32) 5 (6 + 2 ^ 32 * 1) in
  u256_ok v /\ u256_ok v' /\ v <> v' /\
  bit_field (u256_value v) 0 128 = bit_field (u256_value v') 0 128 /\
  bit_field (u256_value v) 224 8 = bit_field (u256_value v') 224 8 /\
  RetABI_from_u256 v = mkRetABI (mkFatPointer 0 0 0 1) Ret_ForwardFatPointer.
Proof. cbv zeta. repeat split. discriminate. Qed.

(** ** C42 *)

(** Near call: the low 32 bits. *)
Lemma pf_C42_layout :
  forall v, u256_ok v -> nc_ergs_passed (NearCallABI_from_u256 v) = u256_value v mod 2 ^ 32.
Proof.
  intros v H. assert (F := field0 v 0 32 H ltac:(lia)). unfold bit_field in F.
  rewrite !N.div_1_r in F. rewrite F. reflexivity.
Qed.

Example pf_C42_example :
  u256_ok (mkU256 (2 ^ 32 + 5) 1 1 1) /\
  nc_ergs_passed (NearCallABI_from_u256 (mkU256 (2 ^ 32 + 5) 1 1 1)) = 5.
Proof. repeat split. Qed.

(** ** C43 *)

(** The inner ABI packs and unpacks exactly. *)
Lemma pf_C43_inner :
  (forall p, inner_ok p ->
     PrecompileCallInnerABI_from_u256 (PrecompileCallInnerABI_to_u256 p) = p /\
     u256_ok (PrecompileCallInnerABI_to_u256 p) /\
     u256_value (PrecompileCallInnerABI_to_u256 p) =
       pi_input_memory_offset p + 2 ^ 32 * pi_input_memory_length p +
       2 ^ 64 * pi_output_memory_offset p + 2 ^ 96 * pi_output_memory_length p +
       2 ^ 128 * pi_memory_page_to_read p + 2 ^ 160 * pi_memory_page_to_write p +
       2 ^ 192 * pi_precompile_interpreted_data p) /\
  (forall v, u256_ok v ->
     inner_ok (PrecompileCallInnerABI_from_u256 v) /\
     PrecompileCallInnerABI_to_u256 (PrecompileCallInnerABI_from_u256 v) = v).
Proof.
  split.
  - intros [a b c d e f g] (Ha & Hb & Hc & Hd & He & Hf & Hg).
    cbn [pi_input_memory_offset pi_input_memory_length pi_output_memory_offset
      pi_output_memory_length pi_memory_page_to_read pi_memory_page_to_write
      pi_precompile_interpreted_data] in *.
    unfold PrecompileCallInnerABI_to_u256, u256_ok, u256_value.
    cbn [pi_input_memory_offset pi_input_memory_length pi_output_memory_offset
      pi_output_memory_length pi_memory_page_to_read pi_memory_page_to_write
      pi_precompile_interpreted_data]. lim.
    rewrite !join_half by assumption.
    split; [|split].
    + unfold PrecompileCallInnerABI_from_u256; lim.
      rewrite !low_join, !high_join by assumption. reflexivity.
    + assert (J := join_lt a b Ha Hb). assert (J' := join_lt c d Hc Hd).
      assert (J'' := join_lt e f He Hf). repeat split; assumption.
    + lia.
  - intros [a b c d] (Ha & Hb & Hc & Hd); cbn [limb0 limb1 limb2 limb3] in Ha, Hb, Hc, Hd.
    destruct (split_half a Ha) as (Ea & La & Ma). destruct (split_half b Hb) as (Eb & Lb & Mb).
    destruct (split_half c Hc) as (Ec & Lc & Mc).
    unfold PrecompileCallInnerABI_from_u256; lim.
    split; [repeat split; assumption|].
    unfold PrecompileCallInnerABI_to_u256.
    cbn [pi_input_memory_offset pi_input_memory_length pi_output_memory_offset
      pi_output_memory_length pi_memory_page_to_read pi_memory_page_to_write
      pi_precompile_interpreted_data].
    rewrite !join_half by assumption. rewrite <- Ea, <- Eb, <- Ec. reflexivity.
Qed.

(** The outer ABI is the inner one without the pages. *)
Lemma pf_C43_outer :
  (forall v, let a := PrecompileCallABI_from_u256 v in
     let i := PrecompileCallInnerABI_from_u256 v in
     pc_input_memory_offset a = pi_input_memory_offset i /\
     pc_input_memory_length a = pi_input_memory_length i /\
     pc_output_memory_offset a = pi_output_memory_offset i /\
     pc_output_memory_length a = pi_output_memory_length i /\
     pc_per_precompile_interpreted a = pi_precompile_interpreted_data i) /\
  (forall v, u256_ok v ->
     let x := u256_value v in
     PrecompileCallABI_from_u256 v =
       mkPrecompileCallABI (bit_field x 0 32) (bit_field x 32 32) (bit_field x 64 32)
         (bit_field x 96 32) (bit_field x 192 64)) /\
  (forall p r w,
     PrecompileCallABI_from_u256 (PrecompileCallInnerABI_to_u256
       (mkPrecompileCallInnerABI (pi_input_memory_offset p) (pi_input_memory_length p)
          (pi_output_memory_offset p) (pi_output_memory_length p) r w
          (pi_precompile_interpreted_data p))) =
     PrecompileCallABI_from_u256 (PrecompileCallInnerABI_to_u256 p)).
Proof.
  split; [intros v; repeat split|]. split.
  - intros v H x. subst x.
    assert (F0 := field0 v 0 32 H ltac:(lia)). assert (F1 := field0 v 32 32 H ltac:(lia)).
    assert (F2 := field1 v 0 32 H ltac:(lia)). assert (F3 := field1 v 32 32 H ltac:(lia)).
    assert (F4 := field3 v 0 64 H ltac:(lia)).
    change (64 + 0) with 64 in F2. change (64 + 32) with 96 in F3. change (192 + 0) with 192 in F4.
    rewrite F0, F1, F2, F3, F4. unfold PrecompileCallABI_from_u256, as_u32.
    rewrite !shr_div, !N.div_1_r.
    rewrite (N.mod_small (limb3 v)) by apply H. reflexivity.
  - intros p r w. reflexivity.
Qed.

Example pf_C43_example :
  inner_ok (mkPrecompileCallInnerABI 1 2 3 4 5 6 7) /\
  u256_ok (mkU256 (1 + 2 ^ 32 * 2) (3 + 2 ^ 32 * 4) (5 + 2 ^ 32 * 6) 7) /\
  PrecompileCallInnerABI_from_u256 (mkU256 (1 + 2 ^ 32 * 2) (3 + 2 ^ 32 * 4) (5 + 2 ^ 32 * 6) 7)
  = mkPrecompileCallInnerABI 1 2 3 4 5 6 7.
Proof. repeat split. Qed.

(** ** C44 *)

(** The packed value; nothing is lost. *)
Lemma pf_C44_layout :
  forall p, meta_ok p ->
    u256_ok (VmMetaParameters_to_u256 p) /\
    u256_value (VmMetaParameters_to_u256 p) =
      ergs_per_pubdata_byte p + 2 ^ 64 * heap_size p + 2 ^ 96 * aux_heap_size p +
      2 ^ 224 * this_shard_id p + 2 ^ 232 * caller_shard_id p + 2 ^ 240 * code_shard_id p.
Proof.
  intros [e h a t c d] (He & Hh & Ha & Ht & Hc & Hd).
  cbn [ergs_per_pubdata_byte heap_size aux_heap_size this_shard_id caller_shard_id code_shard_id]
    in *.
  unfold VmMetaParameters_to_u256, u256_ok, u256_value.
  cbn [ergs_per_pubdata_byte heap_size aux_heap_size this_shard_id caller_shard_id code_shard_id].
  lim. rewrite join_half by assumption.
  assert (E : N.lor (N.lor t (shl 64 c 8)) (shl 64 d 16) = t + c * 2 ^ 8 + d * 2 ^ 16).
  { rewrite (lor_shl 64 t c 8) by lia. apply lor_shl; lia. }
  rewrite E, shl_small by lia. split; [lia|lia].
Qed.

(** Packing is injective. *)
Lemma pf_C44_injective :
  forall p p', meta_ok p -> meta_ok p' ->
    VmMetaParameters_to_u256 p = VmMetaParameters_to_u256 p' -> p = p'.
Proof.
  intros p p' H H' E.
  destruct (pf_C44_layout p H) as (O & V). destruct (pf_C44_layout p' H') as (O' & V').
  rewrite E in V. rewrite V' in V. clear V' O O' E.
  destruct p as [e h a t c d], p' as [e' h' a' t' c' d'].
  destruct H as (He & Hh & Ha & Ht & Hc & Hd), H' as (He' & Hh' & Ha' & Ht' & Hc' & Hd').
  cbn [ergs_per_pubdata_byte heap_size aux_heap_size this_shard_id caller_shard_id code_shard_id]
    in *.
  replace (e + 2 ^ 64 * h + 2 ^ 96 * a + 2 ^ 224 * t + 2 ^ 232 * c + 2 ^ 240 * d)
    with (e + 2 ^ 64 * (h + 2 ^ 32 * (a + 2 ^ 128 * (t + 2 ^ 8 * (c + 2 ^ 8 * d))))) in V by lia.
  replace (e' + 2 ^ 64 * h' + 2 ^ 96 * a' + 2 ^ 224 * t' + 2 ^ 232 * c' + 2 ^ 240 * d')
    with (e' + 2 ^ 64 * (h' + 2 ^ 32 * (a' + 2 ^ 128 * (t' + 2 ^ 8 * (c' + 2 ^ 8 * d'))))) in V
    by lia.
  apply radix_inj in V as [V0 V]; [|lia|lia]. apply radix_inj in V as [V1 V]; [|lia|lia].
  apply radix_inj in V as [V2 V]; [|lia|lia]. apply radix_inj in V as [V3 V]; [|lia|lia].
  apply radix_inj in V as [V4 V5]; [|lia|lia]. congruence.
Qed.

Example pf_C44_example :
  meta_ok (mkVmMetaParameters 1 2 3 4 5 6) /\
  VmMetaParameters_to_u256 (mkVmMetaParameters 1 2 3 4 5 6)
  = mkU256 1 (2 + 2 ^ 32 * 3) 0 (2 ^ 32 * (4 + 256 * 5 + 65536 * 6)).
Proof. repeat split; reflexivity. Qed.

(** ** C45 *)

Lemma list28 {A} (l : list A) : List.length l = 28%nat ->
  exists a0 a1 a2 a3 a4 a5 a6 a7 a8 a9 b0 b1 b2 b3 b4 b5 b6 b7 b8 b9 c0 c1 c2 c3 c4 c5 c6 c7,
  l = [a0;a1;a2;a3;a4;a5;a6;a7;a8;a9;b0;b1;b2;b3;b4;b5;b6;b7;b8;b9;c0;c1;c2;c3;c4;c5;c6;c7].
Proof.
  intros H.
  do 28 (destruct l as [|? l]; [discriminate H|]). destruct l; [|discriminate H].
  repeat eexists.
Qed.

Lemma serialize_eq s : List.length (partial_hash s) = 28%nat ->
  ContractCodeSha256_serialize s =
  Ok (Some ([1; extra_marker s; (code_length_in_words s / 256) mod 256;
             code_length_in_words s mod 256] ++ partial_hash s)).
Proof.
  destruct s as [n m h]; cbn [partial_hash]. intros H.
  apply list28 in H.
  repeat match goal with H : exists _, _ |- _ => destruct H as [? H] end. subst h. reflexivity.
Qed.

Lemma serialize_stored_eq s : List.length (partial_hash s) = 28%nat ->
  ContractCodeSha256_serialize_to_stored s =
  Ok (Some ([1; 0; (code_length_in_words s / 256) mod 256;
             code_length_in_words s mod 256] ++ partial_hash s)).
Proof.
  destruct s as [n m h]; cbn [partial_hash]. intros H.
  apply list28 in H.
  repeat match goal with H : exists _, _ |- _ => destruct H as [? H] end. subst h. reflexivity.
Qed.

Lemma deserialize_eq b m hi lo h : List.length h = 28%nat ->
  ContractCodeSha256_try_deserialize ([b; m; hi; lo] ++ h) =
  if b =? 1 then Ok (Some (mkContractCodeSha256Storage (hi * 256 + lo) m h)) else Ok None.
Proof.
  intros H. unfold ContractCodeSha256_try_deserialize, ContractCodeSha256_VERSION_BYTE.
  cbn [app]. change (index (b :: m :: hi :: lo :: h) 0) with (Ok b).
  change (index (b :: m :: hi :: lo :: h) 1) with (Ok m).
  change (index (b :: m :: hi :: lo :: h) 2) with (Ok hi).
  change (index (b :: m :: hi :: lo :: h) 3) with (Ok lo).
  cbn [bind]. destruct (b =? 1); [|reflexivity]. cbn [negb].
  unfold len. cbn [List.length]. rewrite H. cbn [skipn].
  replace (firstn 28 h) with h by (rewrite <- H; symmetry; apply firstn_all).
  reflexivity.
Qed.

Lemma bytes32_split b : byte_array 32 b -> exists v m hi lo h,
  b = [v; m; hi; lo] ++ h /\ List.length h = 28%nat /\
  v < 256 /\ m < 256 /\ hi < 256 /\ lo < 256 /\ Forall (fun x => x < 256) h.
Proof.
  intros [L F]. do 4 (destruct b as [|? b]; [discriminate L|]).
  inversion F as [|? ? F0 F']; subst. inversion F' as [|? ? F1 F'']; subst.
  inversion F'' as [|? ? F2 F''']; subst. inversion F''' as [|? ? F3 F'''']; subst.
  do 5 eexists. split; [reflexivity|]. split; [injection L as L; exact L|]. auto.
Qed.

(** The bytes a contract-code hash serializes to. *)
Lemma pf_C45_serialize :
  forall h, storage_ok (data h) ->
    VersionedHash_serialize ContractCodeSha256 h =
      Ok (Some (hash_bytes (extra_marker (data h)) (code_length_in_words (data h))
                  (partial_hash (data h)))) /\
    byte_array 32 (hash_bytes (extra_marker (data h)) (code_length_in_words (data h))
                     (partial_hash (data h))).
Proof.
  intros [[n m h]] (Hn & Hm & Hl & Hf).
    cbn [data code_length_in_words extra_marker partial_hash] in *.
  assert (n / 256 < 256) by (apply N.div_lt_upper_bound; [discriminate|lia]).
  split.
  - unfold VersionedHash_serialize, ContractCodeSha256. cbn [def_serialize data].
    rewrite serialize_eq by exact Hl. cbn [code_length_in_words extra_marker partial_hash].
    rewrite (N.mod_small (n / 256)) by assumption. reflexivity.
  - unfold hash_bytes. split; [cbn; rewrite Hl; reflexivity|].
    repeat apply Forall_cons; assumption || lia.
Qed.

(** Parsing: total on 32 bytes, succeeds exactly when the first byte is 1. *)
Lemma pf_C45_parse :
  forall b, byte_array 32 b ->
    (hd 0 b <> 1 -> VersionedHash_try_create_from_raw ContractCodeSha256 b = Ok None) /\
    (hd 0 b = 1 -> exists h, VersionedHash_try_create_from_raw ContractCodeSha256 b = Ok (Some h) /\
       storage_ok (VersionedHash_layout_ref h) /\
       VersionedHash_serialize ContractCodeSha256 h = Ok (Some b)).
Proof.
  intros b Hb. destruct (bytes32_split b Hb) as (v & m & hi & lo & h & -> & Hl & Hv & Hm & Hhi &
    Hlo & Hf).
  unfold VersionedHash_try_create_from_raw, ContractCodeSha256 at 1 2. cbn [def_try_deserialize].
  rewrite deserialize_eq by exact Hl. cbn [hd app].
  split; intros E.
  - replace (v =? 1) with false by lia. reflexivity.
  - subst v. cbn [N.eqb Pos.eqb bind]. eexists. split; [reflexivity|].
    assert (S : storage_ok (mkContractCodeSha256Storage (hi * 256 + lo) m h)).
    { repeat split; cbn; try assumption; lia. }
    split; [exact S|].
    rewrite (proj1 (pf_C45_serialize (mkVersionedHashGeneric _) S)).
    cbn [data extra_marker code_length_in_words partial_hash]. unfold hash_bytes.
    rewrite N.div_add_l by discriminate. rewrite (N.div_small lo) by exact Hlo.
    rewrite N.add_0_r. rewrite N.add_comm, N.mod_add by discriminate.
    rewrite N.mod_small by exact Hlo. reflexivity.
Qed.

(** Parsing what was serialized. *)
Lemma pf_C45_roundtrip :
  forall h b, storage_ok (data h) -> VersionedHash_serialize ContractCodeSha256 h = Ok (Some b) ->
    VersionedHash_try_create_from_raw ContractCodeSha256 b = Ok (Some h).
Proof.
  intros [[n m h]] b S E. rewrite (proj1 (pf_C45_serialize _ S)) in E. injection E as <-.
  cbn [data extra_marker code_length_in_words partial_hash].
  unfold VersionedHash_try_create_from_raw, ContractCodeSha256. cbn [def_try_deserialize].
  unfold hash_bytes. rewrite deserialize_eq by apply S. cbn [N.eqb Pos.eqb bind].
  replace (n / 256 * 256 + n mod 256) with n; [reflexivity|].
  rewrite N.mul_comm. apply N.div_mod. discriminate.
Qed.

Lemma byte_array_b n l : (Nat.eqb (List.length l) n && forallb (fun b => b <? 256) l) = true ->
  byte_array n l.
Proof.
  intros H. apply andb_prop in H as [H F]. apply Nat.eqb_eq in H. split; [exact H|].
  apply Forall_forall. rewrite forallb_forall in F. intros x Hx. specialize (F x Hx). lia.
Qed.

Example pf_C45_example :
  storage_ok (mkContractCodeSha256Storage 515 1 (repeat 255 28)) /\
  VersionedHash_serialize ContractCodeSha256
    (mkVersionedHashGeneric (mkContractCodeSha256Storage 515 1 (repeat 255 28)))
  = Ok (Some ([1; 1; 2; 3] ++ repeat 255 28)).
Proof.
  split; [|reflexivity]. split; [reflexivity|]. split; [reflexivity|].
  apply byte_array_b. reflexivity.
Qed.

(** ** C46 *)

(** The stored form: the same bytes with marker zero, which parses back to the same hash at
    rest. *)
Lemma pf_C46_stored :
  forall h, storage_ok (data h) ->
    let s := hash_bytes CODE_AT_REST_MARKER (code_length_in_words (data h))
               (partial_hash (data h)) in
    let rest := mkVersionedHashGeneric (mkContractCodeSha256Storage
      (code_length_in_words (data h)) CODE_AT_REST_MARKER (partial_hash (data h))) in
    VersionedHash_serialize_to_stored ContractCodeSha256 h = Ok (Some s) /\
    VersionedHash_try_create_from_raw ContractCodeSha256 s = Ok (Some rest) /\
    VersionedHash_serialize ContractCodeSha256 rest = Ok (Some s) /\
    VersionedHash_serialize_to_stored ContractCodeSha256 rest = Ok (Some s) /\
    (extra_marker (data h) = CODE_AT_REST_MARKER <->
     VersionedHash_serialize ContractCodeSha256 h
       = VersionedHash_serialize_to_stored ContractCodeSha256 h).
Proof.
  intros h S s rest.
  assert (A : forall h, storage_ok (data h) ->
    VersionedHash_serialize_to_stored ContractCodeSha256 h =
    Ok (Some (hash_bytes CODE_AT_REST_MARKER (code_length_in_words (data h))
                (partial_hash (data h))))).
  { intros [[n m x]] (Hn & Hm & Hl & Hf).
    cbn [data code_length_in_words extra_marker partial_hash] in *.
    assert (n / 256 < 256) by (apply N.div_lt_upper_bound; [discriminate|lia]).
    unfold VersionedHash_serialize_to_stored, ContractCodeSha256.
    cbn [def_serialize_to_stored data]. rewrite serialize_stored_eq by exact Hl.
    cbn [code_length_in_words extra_marker partial_hash].
    rewrite (N.mod_small (n / 256)) by assumption. reflexivity. }
  assert (R : storage_ok (data rest)).
  { destruct S as (Hn & Hm & Hh). split; [exact Hn|]. split; [reflexivity|exact Hh]. }
  assert (B := proj1 (pf_C45_serialize rest R)).
  split; [apply A, S|]. split; [apply (pf_C45_roundtrip rest s R B)|].
  split; [exact B|]. split; [exact (A rest R)|].
  rewrite (A h S), (proj1 (pf_C45_serialize h S)). split; intros E.
  - rewrite E. reflexivity.
  - injection E as E. exact E.
Qed.

(** Two hashes have the same stored form exactly when they differ at most in the marker. *)
Lemma pf_C46_same_stored :
  forall h h', storage_ok (data h) -> storage_ok (data h') ->
    (VersionedHash_serialize_to_stored ContractCodeSha256 h
       = VersionedHash_serialize_to_stored ContractCodeSha256 h' <->
     code_length_in_words (data h) = code_length_in_words (data h') /\
     partial_hash (data h) = partial_hash (data h')).
Proof.
  intros h h' S S'. destruct (pf_C46_stored h S) as (-> & _).
  destruct (pf_C46_stored h' S') as (-> & _). split.
  - intros E. injection E as E1 E2 E3. split; [|exact E3].
    rewrite (N.div_mod (code_length_in_words (data h)) 256) by discriminate.
    rewrite (N.div_mod (code_length_in_words (data h')) 256) by discriminate.
    rewrite E1, E2. reflexivity.
  - intros [-> ->]. reflexivity.
Qed.

(** The two markers. *)
Lemma pf_C46_markers :
  CODE_AT_REST_MARKER = 0 /\ YET_CONSTRUCTED_MARKER = 1 /\ VERSION_BYTE ContractCodeSha256 = 1.
Proof. repeat split. Qed.

Example pf_C46_example :
  let h := mkVersionedHashGeneric (mkContractCodeSha256Storage 515 1 (repeat 255 28)) in
  let h' := mkVersionedHashGeneric (mkContractCodeSha256Storage 515 0 (repeat 255 28)) in
  storage_ok (data h) /\ storage_ok (data h') /\ h <> h' /\
  VersionedHash_serialize_to_stored ContractCodeSha256 h
  = Ok (Some ([1; 0; 2; 3] ++ repeat 255 28)) /\
  VersionedHash_serialize_to_stored ContractCodeSha256 h'
  = VersionedHash_serialize_to_stored ContractCodeSha256 h.
Proof.
  cbv zeta. split; [|split; [|split; [discriminate|split; reflexivity]]];
    (split; [reflexivity|]); (split; [reflexivity|]); apply byte_array_b; reflexivity.
Qed.

(** ** C47 *)

Lemma concat_fold (ws : list (list N)) acc :
  fold_left (fun state w => state ++ w) ws acc = acc ++ List.concat ws.
Proof.
  revert acc. induction ws as [|w r IH]; intros acc; cbn.
  - rewrite app_nil_r. reflexivity.
  - rewrite IH, app_assoc. reflexivity.
Qed.

Lemma copy_all {A} (z : A) n src : List.length src = n -> copy_into (repeat z n) 0 src = Ok src.
Proof.
  intros H. unfold copy_into. rewrite repeat_length, H. cbn [plus]. rewrite Nat.leb_refl.
  cbn [firstn app]. rewrite skipn_all2, app_nil_r; [reflexivity|]. rewrite repeat_length. lia.
Qed.

Lemma from_digest_eq d n : List.length d = 32%nat ->
  from_digest_and_preimage_num_words d n
  = Ok (mkVersionedHashGeneric (mkContractCodeSha256Storage n 0 (skipn 4 d))).
Proof.
  intros H. unfold from_digest_and_preimage_num_words.
  assert (L : List.length (skipn 4 d) = 28%nat) by (rewrite skipn_length, H; reflexivity).
  unfold len. rewrite L. cbn [N.of_nat N.eqb Pos.of_succ_nat Pos.succ Pos.eqb assert_ bind].
  rewrite copy_all by exact L. reflexivity.
Qed.

Lemma code_hash_eq sha256 E ws : digest_function sha256 -> len ws < 2 ^ 64 ->
  bytecode_to_code_hash_for_mode sha256 E ws =
  Ok (if negb (len ws mod 2 =? 1) || (pc_as_u64 (PcOrImm E) (pc_max (PcOrImm E)) <? len ws)
      then None
      else Some (hash_bytes 0 (len ws mod 2 ^ 16) (skipn 4 (sha256 (List.concat ws))))).
Proof.
  intros D L. unfold bytecode_to_code_hash_for_mode.
  destruct (negb (len ws mod 2 =? 1)); [reflexivity|]. cbn [orb].
  unfold as_u64. rewrite N.mod_small by exact L.
  destruct (pc_as_u64 (PcOrImm E) (pc_max (PcOrImm E)) <? len ws); [reflexivity|].
  rewrite concat_fold, app_nil_l.
  destruct (D (List.concat ws)) as [D1 D2].
  replace (len (sha256 (List.concat ws)) =? 32) with true by (unfold len; rewrite D1; reflexivity).
  cbn [assert_ bind]. rewrite copy_all by exact D1. cbn [bind].
  rewrite from_digest_eq by exact D1. cbn [bind].
  assert (S : storage_ok (mkContractCodeSha256Storage (as_u16 (len ws)) 0
                            (skipn 4 (sha256 (List.concat ws))))).
  { split; [apply mod_pow2_lt|]. split; [reflexivity|]. split.
    - cbn [partial_hash]. rewrite skipn_length, D1. reflexivity.
    - cbn [partial_hash]. rewrite <- (firstn_skipn 4 (sha256 (List.concat ws))) in D2.
      apply Forall_app in D2. apply D2. }
  rewrite (proj1 (pf_C45_serialize (mkVersionedHashGeneric _) S)). reflexivity.
Qed.

(** The production code hash of every bytecode. *)
Lemma pf_C47_hash :
  forall sha256 ws, digest_function sha256 -> len ws < 2 ^ 64 ->
    ((N.even (len ws) = true \/ 65535 < len ws) -> bytecode_to_code_hash sha256 ws = Ok None) /\
    (N.odd (len ws) = true -> len ws <= 65535 ->
       let b := hash_bytes 0 (len ws) (skipn 4 (sha256 (List.concat ws))) in
       bytecode_to_code_hash sha256 ws = Ok (Some b) /\
       byte_array 32 b /\
       exists h, VersionedHash_try_create_from_raw ContractCodeSha256 b = Ok (Some h) /\
         code_length_in_words (VersionedHash_layout_ref h) = len ws /\
         extra_marker (VersionedHash_layout_ref h) = CODE_AT_REST_MARKER /\
         partial_hash (VersionedHash_layout_ref h) = skipn 4 (sha256 (List.concat ws))).
Proof.
  intros sha256 ws D L. unfold bytecode_to_code_hash. rewrite code_hash_eq by assumption.
  change (pc_as_u64 (PcOrImm EncodingModeProduction) (pc_max (PcOrImm EncodingModeProduction)))
    with 65535.
  assert (P : (len ws mod 2 =? 1) = N.odd (len ws)).
  { assert (B := N.bit0_mod (len ws)). rewrite N.bit0_odd in B. rewrite <- B.
    destruct (N.odd (len ws)); reflexivity. }
  rewrite P. split.
  - intros [H|H].
    + rewrite <- N.negb_even, H. reflexivity.
    + replace (65535 <? len ws) with true by lia. rewrite orb_true_r. reflexivity.
  - intros O H. rewrite O. replace (65535 <? len ws) with false by lia. cbn [negb orb].
    rewrite N.mod_small by lia. split; [reflexivity|].
    assert (S : storage_ok (mkContractCodeSha256Storage (len ws) 0
                              (skipn 4 (sha256 (List.concat ws))))).
    { destruct (D (List.concat ws)) as [D1 D2].
      split; [cbn [code_length_in_words]; lia|]. split; [reflexivity|]. split.
      - cbn [partial_hash]. rewrite skipn_length, D1. reflexivity.
      - cbn [partial_hash]. rewrite <- (firstn_skipn 4 (sha256 (List.concat ws))) in D2.
        apply Forall_app in D2. apply D2. }
    destruct (pf_C45_serialize (mkVersionedHashGeneric _) S) as [A B].
    split; [exact B|]. eexists. split; [exact (pf_C45_roundtrip (mkVersionedHashGeneric _) _ S A)|]. repeat split.
Qed.

(** Equal code hashes mean equal lengths and equal truncated digests. *)
Lemma pf_C47_collisions :
  forall sha256 ws ws' b, digest_function sha256 -> len ws < 2 ^ 64 -> len ws' < 2 ^ 64 ->
    bytecode_to_code_hash sha256 ws = Ok (Some b) ->
    bytecode_to_code_hash sha256 ws' = Ok (Some b) ->
    len ws = len ws' /\
    skipn 4 (sha256 (List.concat ws)) = skipn 4 (sha256 (List.concat ws')).
Proof.
  intros sha256 ws ws' b D L L' H H'.
  assert (Q : forall ws, len ws < 2 ^ 64 -> bytecode_to_code_hash sha256 ws = Ok (Some b) ->
    len ws <= 65535 /\ b = hash_bytes 0 (len ws) (skipn 4 (sha256 (List.concat ws)))).
  { clear - D. intros ws L H. destruct (pf_C47_hash sha256 ws D L) as [A B].
    destruct (N.even (len ws)) eqn:E; [rewrite A in H by (left; reflexivity); discriminate|].
    destruct (N.lt_ge_cases 65535 (len ws)) as [G|G];
      [rewrite A in H by (right; exact G); discriminate|].
    split; [exact G|]. assert (O : N.odd (len ws) = true) by (rewrite <- N.negb_even, E; reflexivity).
    destruct (B O G) as (K & _). rewrite K in H. injection H as <-. reflexivity. }
  destruct (Q ws L H) as [_ ->]. destruct (Q ws' L' H') as [_ E].
  injection E as E1 E2 E3. split; [|exact E3].
  rewrite (N.div_mod (len ws) 256) by discriminate.
  rewrite (N.div_mod (len ws') 256) by discriminate. rewrite E1, E2. reflexivity.
Qed.

(** Two different bytecodes share a code hash only if two different messages of the same
    length share the last 28 bytes of their digest. *)
Lemma pf_C47_distinct :
  forall sha256 ws ws' b, digest_function sha256 -> len ws < 2 ^ 64 -> len ws' < 2 ^ 64 ->
    Forall (byte_array 32) ws -> Forall (byte_array 32) ws' -> ws <> ws' ->
    bytecode_to_code_hash sha256 ws = Ok (Some b) ->
    bytecode_to_code_hash sha256 ws' = Ok (Some b) ->
    List.concat ws <> List.concat ws' /\
    List.length (List.concat ws) = List.length (List.concat ws') /\
    skipn 4 (sha256 (List.concat ws)) = skipn 4 (sha256 (List.concat ws')).
Proof.
  intros sha256 ws ws' b D L L' F F' Hne H H'.
  destruct (pf_C47_collisions sha256 ws ws' b D L L' H H') as [E S].
  assert (I : forall ws ws' : list (list N), Forall (byte_array 32) ws ->
    Forall (byte_array 32) ws' -> List.length ws = List.length ws' ->
    List.length (List.concat ws) = List.length (List.concat ws') /\
    (List.concat ws = List.concat ws' -> ws = ws')).
  { clear. induction ws as [|w ws IH]; intros [|w' ws'] F F' E; try discriminate E.
    - split; reflexivity.
    - inversion F as [|? ? [Lw _] Fs]; subst. inversion F' as [|? ? [Lw' _] Fs']; subst.
      destruct (IH ws' Fs Fs' ltac:(injection E as E; exact E)) as [A B].
      cbn [List.concat]. rewrite !app_length, Lw, Lw', A. split; [reflexivity|].
      intros K. assert (K1 := f_equal (firstn 32) K). assert (K2 := f_equal (skipn 32) K).
      rewrite !firstn_app, Lw, Lw', Nat.sub_diag, !firstn_O, !app_nil_r in K1.
      rewrite !firstn_all2 in K1 by lia.
      rewrite !skipn_app, Lw, Lw', Nat.sub_diag, !skipn_O in K2.
      rewrite !skipn_all2 in K2 by lia. cbn [app] in K2.
      rewrite K1, (B K2). reflexivity. }
  destruct (I ws ws' F F') as [A B]; [unfold len in E; lia|].
  split; [intros K; apply Hne, B, K|]. split; [exact A|exact S].
Qed.

Example pf_C47_example :
  digest_function (fun _ => repeat 7 32) /\
  bytecode_to_code_hash (fun _ => repeat 7 32) [repeat 0 32; repeat 1 32; repeat 2 32]
  = Ok (Some ([1; 0; 0; 3] ++ repeat 7 28)) /\
  bytecode_to_code_hash (fun _ => repeat 7 32) [repeat 0 32; repeat 1 32] = Ok None /\
  Forall (byte_array 32) [repeat 0 32] /\ Forall (byte_array 32) [repeat 1 32] /\
  [repeat 0 32] <> [repeat 1 32] /\
  bytecode_to_code_hash (fun _ => repeat 7 32) [repeat 0 32]
  = bytecode_to_code_hash (fun _ => repeat 7 32) [repeat 1 32].
Proof.
  split; [intros x; apply byte_array_b; reflexivity|].
  split; [reflexivity|]. split; [reflexivity|].
  split; [constructor; [apply byte_array_b; reflexivity|constructor]|].
  split; [constructor; [apply byte_array_b; reflexivity|constructor]|].
  split; [discriminate|reflexivity].
Qed.

(** ** C48 *)

(** Testing mode: the stored length is the length modulo 65536, right exactly for lengths
    below 65536. *)
Lemma pf_C48_actual :
  forall sha256 ws, digest_function sha256 -> len ws < 2 ^ 64 ->
    ((N.even (len ws) = true \/ 2 ^ 32 - 1 < len ws) ->
       bytecode_to_code_hash_for_mode sha256 EncodingModeTesting ws = Ok None) /\
    (N.odd (len ws) = true -> len ws <= 2 ^ 32 - 1 ->
       exists b h,
       bytecode_to_code_hash_for_mode sha256 EncodingModeTesting ws = Ok (Some b) /\
       b = hash_bytes 0 (len ws mod 65536) (skipn 4 (sha256 (List.concat ws))) /\
       VersionedHash_try_create_from_raw ContractCodeSha256 b = Ok (Some h) /\
       (code_length_in_words (VersionedHash_layout_ref h) = len ws <-> len ws <= 65535)).
Proof.
  intros sha256 ws D L. rewrite code_hash_eq by assumption.
  change (pc_as_u64 (PcOrImm EncodingModeTesting) (pc_max (PcOrImm EncodingModeTesting)))
    with (2 ^ 32 - 1).
  assert (P : (len ws mod 2 =? 1) = N.odd (len ws)).
  { assert (B := N.bit0_mod (len ws)). rewrite N.bit0_odd in B. rewrite <- B.
    destruct (N.odd (len ws)); reflexivity. }
  rewrite P. split.
  - intros [H|H].
    + rewrite <- N.negb_even, H. reflexivity.
    + replace (2 ^ 32 - 1 <? len ws) with true by lia. rewrite orb_true_r. reflexivity.
  - intros O H. rewrite O. replace (2 ^ 32 - 1 <? len ws) with false by lia. cbn [negb orb].
    assert (S : storage_ok (mkContractCodeSha256Storage (len ws mod 2 ^ 16) 0
                              (skipn 4 (sha256 (List.concat ws))))).
    { destruct (D (List.concat ws)) as [D1 D2].
      split; [apply mod_pow2_lt|]. split; [reflexivity|]. split.
      - cbn [partial_hash]. rewrite skipn_length, D1. reflexivity.
      - cbn [partial_hash]. rewrite <- (firstn_skipn 4 (sha256 (List.concat ws))) in D2.
        apply Forall_app in D2. apply D2. }
    destruct (pf_C45_serialize (mkVersionedHashGeneric _) S) as [A B].
    do 2 eexists. split; [reflexivity|]. split; [reflexivity|].
    split; [exact (pf_C45_roundtrip (mkVersionedHashGeneric _) _ S A)|]. cbn [VersionedHash_layout_ref data
      code_length_in_words].
    change (2 ^ 16) with 65536. split; intros K.
    + assert (len ws mod 65536 < 65536) by (apply N.mod_lt; discriminate). lia.
    + apply N.mod_small. lia.
Qed.

(** Any encoding mode, also one defined outside the crate: only its largest program counter
    matters, as the limit on the length. *)
Lemma pf_C48_any_mode :
  forall sha256 E ws, digest_function sha256 -> len ws < 2 ^ 64 ->
    let limit := pc_as_u64 (PcOrImm E) (pc_max (PcOrImm E)) in
    (bytecode_to_code_hash_for_mode sha256 E ws = Ok None <->
       N.even (len ws) = true \/ limit < len ws) /\
    (N.odd (len ws) = true -> len ws <= limit ->
       bytecode_to_code_hash_for_mode sha256 E ws
       = Ok (Some (hash_bytes 0 (len ws mod 65536) (skipn 4 (sha256 (List.concat ws)))))).
Proof.
  intros sha256 E ws D L limit. rewrite code_hash_eq by assumption. fold limit.
  assert (P : (len ws mod 2 =? 1) = N.odd (len ws)).
  { assert (B := N.bit0_mod (len ws)). rewrite N.bit0_odd in B. rewrite <- B.
    destruct (N.odd (len ws)); reflexivity. }
  rewrite P, <- N.negb_even.
  destruct (N.even (len ws)); cbn [negb orb].
  - split; [split; [left; reflexivity|reflexivity]|discriminate].
  - destruct (limit <? len ws) eqn:Q.
    + split; [split; [right; lia|reflexivity]|lia].
    + split; [split; [discriminate|intros [H|H]; [discriminate|lia]]|reflexivity].
Qed.

(** Expected: the recorded length is the bytecode's.  False for 65537 words. *)
Lemma pf_C48_refuted :
  ~ (forall sha256 ws b h, digest_function sha256 -> Forall (byte_array 32) ws ->
       len ws < 2 ^ 64 ->
       bytecode_to_code_hash_for_mode sha256 EncodingModeTesting ws = Ok (Some b) ->
       VersionedHash_try_create_from_raw ContractCodeSha256 b = Ok (Some h) ->
       code_length_in_words (VersionedHash_layout_ref h) = len ws).
Proof.
  intros C.
  pose (ws := repeat (repeat 0 32) (N.to_nat 65537)).
  assert (L : len ws = 65537) by (unfold len, ws; rewrite repeat_length; apply N2Nat.id).
  assert (D : digest_function (fun _ => repeat 7 32)) by (intros x; apply byte_array_b; reflexivity).
  destruct (pf_C48_actual (fun _ => repeat 7 32) ws D) as [_ A]; [rewrite L; reflexivity|].
  destruct A as (b & h & E1 & _ & E2 & E3); [rewrite L; reflexivity|rewrite L; discriminate|].
  assert (K : len ws <= 65535).
  { apply E3. apply (C (fun _ => repeat 7 32) ws b h); try assumption.
    - apply Forall_forall. intros w Hw. apply repeat_spec in Hw. subst w.
      apply byte_array_b. reflexivity.
    - rewrite L. reflexivity. }
  rewrite L in K. apply K. reflexivity.
Qed.

(** A 3-word program in the testing mode: accepted, with the right recorded length;
    and a mode with two-bit program counters. *)
Example pf_C48_example :
  digest_function (fun _ => repeat 7 32) /\
  bytecode_to_code_hash_for_mode (fun _ => repeat 7 32) EncodingModeTesting
    [repeat 0 32; repeat 1 32; repeat 2 32]
  = Ok (Some ([1; 0; 0; 3] ++ repeat 7 28)) /\
  bytecode_to_code_hash_for_mode (fun _ => repeat 7 32) EncodingModeTesting
    [repeat 0 32; repeat 1 32] = Ok None /\
  (let E := mkVmEncodingMode 8 (mkAllowedPcOrImm (fun x => x mod 4) (fun x => x) N.add N.sub 3)
              (fun _ => Panic) (fun _ => Panic) (fun _ => Panic) (fun _ _ => Panic)
              (fun _ _ => Panic) (fun x => (x, 0)) (fun _ _ => Panic) (fun _ => true) in
   bytecode_to_code_hash_for_mode (fun _ => repeat 7 32) E (repeat (repeat 0 32) 3)
   = Ok (Some ([1; 0; 0; 3] ++ repeat 7 28)) /\
   bytecode_to_code_hash_for_mode (fun _ => repeat 7 32) E (repeat (repeat 0 32) 5) = Ok None).
Proof.
  split; [|split; [reflexivity|split; [reflexivity|split; reflexivity]]]. intros x. apply byte_array_b. reflexivity.
Qed.
