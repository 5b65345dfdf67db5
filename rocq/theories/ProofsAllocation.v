(** * Proofs about the vectors allocated up front. *)

From Coq Require Import Arith NArith Lia ZArith List Bool String.
From Verif Require Import Machine Constants Operands OpcodeTrait Opcodes AllOpcodes Tables Decoding
  Target Allocation SpecIsa SpecFamilies SpecCodec.
From Coq Require Import ZifyBool ZifyNat ZifyN.
From Verif Require Import BitLemmas TableProofs TableProofs2 TableProofs3 CodecProofs ProofsTables
  ProofsTarget.
Import ListNotations.
Open Scope N_scope.

Lemma with_capacity_eq {A} p size n :
  with_capacity p size n = if n * size <=? 2 ^ (p - 1) - 1 then Ok (@nil A) else Panic.
Proof. reflexivity. Qed.

Lemma all_variants_alloc_eq I p size v :
  all_variants_in_version_alloc I p size v =
  if 2048 * size <=? 2 ^ (p - 1) - 1 then all_variants_in_version_of I v else Panic.
Proof.
  unfold all_variants_in_version_alloc, all_variants_in_version_of, with_capacity.
  change (2 ^ 11) with 2048.
  destruct (set_objects I) as [os|]; cbn [bind]; [|destruct (_ <=? _); reflexivity].
  destruct (check_unique_names os) as [?|]; cbn [bind]; [|destruct (_ <=? _); reflexivity].
  destruct (2048 * size <=? 2 ^ (p - 1) - 1); reflexivity.
Qed.

Lemma for_each_congr {A S} (f g : S -> A -> res S) l :
  (forall s x, f s x = g s x) -> forall s, for_each f l s = for_each g l s.
Proof.
  intros H. induction l as [|x l IH]; intros s; [reflexivity|]. cbn. rewrite H.
  destruct (g s x); cbn; [apply IH|reflexivity].
Qed.

(** Current synthesis of an arbitrary instruction set: the answer of Tables.v when both vectors
    can be asked for, otherwise a panic. *)
Lemma synthesize_alloc_eq I p size bld b v :
  synthesize_opcode_decoding_tables_alloc I p size bld b v =
  match shl_one bld p b with
  | Panic => Panic
  | Ok c =>
      if (c * size <=? 2 ^ (p - 1) - 1) && (2048 * size <=? 2 ^ (p - 1) - 1)
      then synthesize_opcode_decoding_tables_of I p bld b v
      else Panic
  end.
Proof.
  unfold synthesize_opcode_decoding_tables_alloc, synthesize_opcode_decoding_tables_of.
  destruct (set_objects I) as [os|]; cbn [bind];
    [|destruct (shl_one bld p b); [destruct (_ && _)|]; reflexivity].
  destruct (check_unique_names os) as [?|]; cbn [bind];
    [|destruct (shl_one bld p b); [destruct (_ && _)|]; reflexivity].
  destruct (shl_one bld p b) as [c|]; [|reflexivity]. cbn [bind]. unfold with_capacity.
  destruct (c * size <=? 2 ^ (p - 1) - 1); [|reflexivity]. cbn [bind andb].
  destruct (2048 * size <=? 2 ^ (p - 1) - 1) eqn:F.
  - erewrite for_each_congr; [reflexivity|]. intros s x. rewrite all_variants_alloc_eq, F.
    reflexivity.
  - destruct (versions_until_break (set_versions I) v) as [|x l]; [reflexivity|].
    cbn [for_each]. rewrite all_variants_alloc_eq, F. reflexivity.
Qed.

Lemma legacy_alloc_eq I p size bld b v :
  synthesize_opcode_decoding_tables_legacy_alloc I p size bld b v =
  match shl_one bld p b with
  | Panic => Panic
  | Ok c =>
      if c * size <=? 2 ^ (p - 1) - 1
      then synthesize_opcode_decoding_tables_legacy_of I p bld b v
      else Panic
  end.
Proof.
  unfold synthesize_opcode_decoding_tables_legacy_alloc, synthesize_opcode_decoding_tables_legacy_of.
  destruct (set_objects I) as [os|]; cbn [bind];
    [|destruct (shl_one bld p b); [destruct (_ <=? _)|]; reflexivity].
  destruct (check_unique_names os) as [?|]; cbn [bind];
    [|destruct (shl_one bld p b); [destruct (_ <=? _)|]; reflexivity].
  destruct (shl_one bld p b) as [c|]; [|reflexivity]. cbn [bind]. unfold with_capacity.
  destruct (c * size <=? 2 ^ (p - 1) - 1); reflexivity.
Qed.

(** For every width, version, build, target and element size: the table of C18 if the variants
    fit the table and the table (and the list of 2048 entries in which a version is enumerated)
    is less than half the address space; a panic otherwise.  A width of at least the pointer
    width panics with overflow checks and is taken modulo the pointer width without. *)
Lemma pf_C81_synthesis :
  forall p size bld b v,
    16 <= p <= 64 ->
    (b < p ->
     synthesize_opcode_decoding_tables_alloc current_set p size bld b v =
       if (spec_count v <=? 2 ^ b) && (2 ^ b * size <? 2 ^ (p - 1)) && (2048 * size <? 2 ^ (p - 1))
       then Ok (spec_table v ++ repeat spec_invalid (N.to_nat (2 ^ b - spec_count v)))
       else Panic) /\
    (p <= b ->
     synthesize_opcode_decoding_tables_alloc current_set p size Debug b v = Panic /\
     synthesize_opcode_decoding_tables_alloc current_set p size Release b v
       = synthesize_opcode_decoding_tables_alloc current_set p size Release (b mod p) v).
Proof.
  intros p size bld b v Hp.
  assert (P : 0 < 2 ^ (p - 1)) by (apply N.neq_0_lt_0, N.pow_nonzero; lia).
  assert (L : forall x, (x <=? 2 ^ (p - 1) - 1) = (x <? 2 ^ (p - 1))) by (intros x; lia).
  split; intros Hb.
  - rewrite synthesize_alloc_eq.
    change (synthesize_opcode_decoding_tables_of current_set p)
      with (synthesize_opcode_decoding_tables_on p).
    rewrite synthesize_on_eq. unfold shl_one. replace (b <? p) with true by lia.
    rewrite !L.
    destruct (spec_count v <=? 2 ^ b), (2 ^ b * size <? 2 ^ (p - 1)),
      (2048 * size <? 2 ^ (p - 1)); reflexivity.
  - rewrite !synthesize_alloc_eq.
    change (synthesize_opcode_decoding_tables_of current_set p)
      with (synthesize_opcode_decoding_tables_on p).
    rewrite !synthesize_on_eq. unfold shl_one.
    assert (M : b mod p < p) by (apply N.mod_lt; lia).
    replace (b <? p) with false by lia. replace (b mod p <? p) with true by lia.
    split; reflexivity.
Qed.

(** The legacy synthesis gives the same table for version 0, also where only the enumeration
    of the current one would not fit, and panics for every other version. *)
Lemma pf_C81_legacy :
  forall p size bld b v,
    16 <= p <= 64 -> b < p ->
    synthesize_opcode_decoding_tables_legacy_alloc current_set p size bld b v =
      if (v =? 0) && (spec_count 0 <=? 2 ^ b) && (2 ^ b * size <? 2 ^ (p - 1))
      then Ok (spec_table 0 ++ repeat spec_invalid (N.to_nat (2 ^ b - spec_count 0)))
      else Panic.
Proof.
  intros p size bld b v Hp Hb.
  assert (P : 0 < 2 ^ (p - 1)) by (apply N.neq_0_lt_0, N.pow_nonzero; lia).
  assert (L : forall x, (x <=? 2 ^ (p - 1) - 1) = (x <? 2 ^ (p - 1))) by (intros x; lia).
  rewrite legacy_alloc_eq.
  change (synthesize_opcode_decoding_tables_legacy_of current_set p)
    with (synthesize_opcode_decoding_tables_legacy_on p).
  rewrite legacy_on_eq, synthesize_on_eq. unfold shl_one. replace (b <? p) with true by lia.
  rewrite !L. destruct (v =? 0) eqn:Hv.
  - apply N.eqb_eq in Hv. subst v.
    destruct (spec_count 0 <=? 2 ^ b), (2 ^ b * size <? 2 ^ (p - 1)); reflexivity.
  - destruct (2 ^ b * size <? 2 ^ (p - 1)); reflexivity.
Qed.

(** Expected: a width at which the variants fit and the shift does not overflow gives a table.
    False of the last width on every target, whatever the size of an entry. *)
Lemma pf_C81_refuted :
  forall p size bld v, 16 <= p <= 64 -> 1 <= size ->
    spec_count v <= 2 ^ (p - 1) /\ p - 1 < p /\
    synthesize_opcode_decoding_tables_alloc current_set p size bld (p - 1) v = Panic /\
    synthesize_opcode_decoding_tables_legacy_alloc current_set p size bld (p - 1) v = Panic.
Proof.
  intros p size bld v Hp Hs.
  assert (G : 2 ^ 15 <= 2 ^ (p - 1)) by (apply N.pow_le_mono_r; lia).
  change (2 ^ 15) with 32768 in G.
  assert (C : spec_count v <= 1093)
    by (rewrite (proj1 (proj2 (pf_C18_counts v))); destruct (v =? 0); lia).
  assert (N1 : (2 ^ (p - 1) * size <? 2 ^ (p - 1)) = false) by (apply N.ltb_ge; nia).
  split; [lia|]. split; [lia|].
  rewrite (proj1 (pf_C81_synthesis p size bld (p - 1) v Hp)) by lia.
  rewrite (pf_C81_legacy p size bld (p - 1) v Hp) by lia.
  rewrite N1, !andb_false_r. split; reflexivity.
Qed.

(** The bit descriptions of a slice: those of C22 when eight bytes for each can be asked for;
    always so when the slice itself fits and an entry takes at least eight bytes. *)
Lemma pf_C81_bits :
  forall p bld l v, 1 <= p ->
    synthesize_bit_decomposition_table_alloc current_set p bld l v =
      (if len l * 8 <? 2 ^ (p - 1) then synthesize_bit_decomposition_table bld l v else Panic) /\
    (forall size, 8 <= size -> len l * size < 2 ^ (p - 1) ->
       synthesize_bit_decomposition_table_alloc current_set p bld l v
       = synthesize_bit_decomposition_table bld l v).
Proof.
  intros p bld l v Hp.
  assert (P : 0 < 2 ^ (p - 1)) by (apply N.neq_0_lt_0, N.pow_nonzero; lia).
  assert (E : synthesize_bit_decomposition_table_alloc current_set p bld l v =
      if len l * 8 <? 2 ^ (p - 1) then synthesize_bit_decomposition_table bld l v else Panic).
  { unfold synthesize_bit_decomposition_table_alloc, synthesize_bit_decomposition_table,
      synthesize_bit_decomposition_table_of.
    change (set_objects current_set) with all_opcodes.
    change all_opcodes with (Ok (match all_opcodes with Ok a => a | Panic => [] end)).
    rewrite !bind_Ok.
    change (len _ =? OPCODE_TYPE_BITS) with true.
    change (ImmMemHandlerFlags_num_src_variants =? OPCODE_INPUT_VARIANT_FLAGS) with true.
    change (ImmMemHandlerFlags_num_dst_variants =? OPCODE_OUTPUT_VARIANT_FLAGS) with true.
    cbn [assert_ bind]. unfold with_capacity.
    replace (len l * 8 <=? 2 ^ (p - 1) - 1) with (len l * 8 <? 2 ^ (p - 1)) by lia.
    destruct (len l * 8 <? 2 ^ (p - 1)); reflexivity. }
  split; [exact E|]. intros size H8 Hl. rewrite E.
  replace (len l * 8 <? 2 ^ (p - 1)) with true; [reflexivity|].
  symmetry. apply N.ltb_lt. nia.
Qed.

(** The statics exist on every target with pointers of at least 32 bits, for entries of up to
    a megabyte. *)
Lemma pf_C81_statics :
  forall p size bld, 32 <= p <= 64 -> size < 2 ^ 20 ->
    OPCODES_TABLE =
      (let* t := synthesize_opcode_decoding_tables_alloc current_set p size bld
                   OPCODES_TABLE_WIDTH DEFAULT_ISA_VERSION in
       into_array (2 ^ OPCODES_TABLE_WIDTH) t) /\
    OPCODES_PROPS_INTEGER_BITMASKS =
      (let* table := OPCODES_TABLE in
       let* t := synthesize_bit_decomposition_table_alloc current_set p bld table
                   DEFAULT_ISA_VERSION in
       into_array (2 ^ OPCODES_TABLE_WIDTH) t) /\
    OPCODES_PRICES = OPCODES_PRICES_alloc p.
Proof.
  intros p size bld Hp Hs.
  assert (G : 2 ^ 31 <= 2 ^ (p - 1)) by (apply N.pow_le_mono_r; lia).
  change (2 ^ 31) with 2147483648 in G. change (2 ^ 20) with 1048576 in Hs.
  split; [|split].
  - rewrite (proj1 (pf_C81_synthesis p size bld _ _ ltac:(lia)))
      by (change OPCODES_TABLE_WIDTH with 11; lia).
    rewrite (proj2 pf_C18_build bld).
    rewrite (proj1 (pf_C18_synthesis bld OPCODES_TABLE_WIDTH DEFAULT_ISA_VERSION))
      by (change OPCODES_TABLE_WIDTH with 11; lia).
    change (2 ^ OPCODES_TABLE_WIDTH) with 2048.
    replace (2048 * size <? 2 ^ (p - 1)) with true by lia.
    change (2048 <? spec_count DEFAULT_ISA_VERSION) with false.
    change (spec_count DEFAULT_ISA_VERSION <=? 2048) with true. reflexivity.
  - rewrite (proj2 pf_C22_build bld).
    destruct pf_C22_static as (t & ms & E & _ & _). rewrite E, !bind_Ok.
    rewrite (proj1 (pf_C81_bits p bld t DEFAULT_ISA_VERSION ltac:(lia))).
    replace (len t * 8 <? 2 ^ (p - 1)) with true; [reflexivity|]. symmetry. apply N.ltb_lt.
    assert (T : len t = 2048).
    { revert E. rewrite (proj2 pf_C18_build Debug). destruct (synthesize_opcode_decoding_tables _ _ _) as [x|];
        [|discriminate]. rewrite bind_Ok. unfold into_array.
      change (2 ^ OPCODES_TABLE_WIDTH) with 2048. destruct (len x =? 2048) eqn:Q; [|discriminate].
      intros H. injection H as <-. lia. }
    lia.
  - unfold OPCODES_PRICES_alloc, OPCODES_PRICES, with_capacity.
    change (2 ^ OPCODES_TABLE_WIDTH) with 2048.
    replace (2048 * 4 <=? 2 ^ (p - 1) - 1) with true by lia. rewrite bind_Ok. reflexivity.
Qed.

(** On a 64-bit target with entries of eight bytes, width 59 can be asked for and width 60
    panics in both builds. *)
Example pf_C81_example :
  (spec_count 1 <=? 2 ^ 59) && (2 ^ 59 * 8 <? 2 ^ (64 - 1)) && (2048 * 8 <? 2 ^ (64 - 1)) = true /\
  (forall bld, synthesize_opcode_decoding_tables_alloc current_set 64 8 bld 60 1 = Panic).
Proof.
  split; [vm_compute; reflexivity|]. intros bld.
  rewrite (proj1 (pf_C81_synthesis 64 8 bld 60 1 ltac:(lia))) by lia. vm_compute. reflexivity.
Qed.
