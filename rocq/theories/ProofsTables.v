(** * Proofs of the table and bitmask properties (C12-C23, C27, C28). *)

From Coq Require Import NArith Lia ZArith List Bool String.
From Coq Require Import ZifyBool ZifyNat ZifyN.
From Verif Require Import Machine Constants Operands OpcodeTrait Opcodes AllOpcodes Tables
  Decoding PricingGen Display SpecIsa SpecFamilies.
From Verif Require Import BitLemmas TableProofs TableProofs2 TableProofs3.
Import ListNotations.
Open Scope N_scope.

(** ** C12 *)

(** The opcode table: 2048 entries, the invalid variant at 0, distinct other variants at
    1..1092, padding above; it contains the legal variants of version 1 and nothing else. *)
Lemma pf_C12_table :
  exists t, OPCODES_TABLE = Ok t /\
    List.length t = N.to_nat 2048 /\
    nth_error t 0 = Some spec_invalid /\
    (forall i, 1 <= i < 1093 ->
       exists x, nth_error t (N.to_nat i) = Some x /\ spec_is_invalid (opcode x) = false) /\
    (forall i j, i < 1093 -> j < 1093 ->
       nth_error t (N.to_nat i) = nth_error t (N.to_nat j) -> i = j) /\
    (forall i, 1093 <= i < 2048 -> nth_error t (N.to_nat i) = Some spec_invalid) /\
    (forall x, In x t <-> spec_well_formed 1 x = true).
Proof.
  exists padded_table. split; [apply OPCODES_TABLE_eq|].
  assert (Hsome : forall i, i < 1093 -> exists x, nth_error padded_table (N.to_nat i) = Some x
                    /\ spec_number x = Some i).
  { intros i Hi. rewrite padded_nth. replace (N.to_nat i <? 1093)%nat with true by lia.
    destruct (nth_error spec_table_v1 (N.to_nat i)) as [x|] eqn:Hx.
    - exists x. split; [reflexivity|]. apply table_nth_number in Hx. rewrite Hx. f_equal. lia.
    - apply nth_error_None in Hx. rewrite spec_table_v1_length in Hx. lia. }
  split; [apply padded_length|]. split; [reflexivity|]. split; [|split; [|split]].
  - intros i Hi. destruct (Hsome i) as (x & Hx & Hn); [lia|]. exists x. split; [exact Hx|].
    destruct (spec_is_invalid (opcode x)) eqn:Hinv; [|reflexivity]. exfalso.
    unfold spec_number in Hn. destruct (spec_well_formed 1 x) eqn:Hw; [|discriminate].
    destruct x as [o s d f]. cbn in *. destruct o; try discriminate Hinv.
    destruct f as [f0 f1]. cbn in Hn. injection Hn as Hn. lia.
  - intros i j Hi Hj H. destruct (Hsome i Hi) as (x & Hx & Hn).
    destruct (Hsome j Hj) as (y & Hy & Hm). congruence.
  - intros i Hi. rewrite padded_nth. replace (N.to_nat i <? 1093)%nat with false by lia.
    replace (N.to_nat i <? 2048)%nat with true by lia. reflexivity.
  - apply padded_In.
Qed.

(** The table written out in full. *)
Lemma pf_C12_exact :
  OPCODES_TABLE = Ok (spec_table_v1 ++ repeat spec_invalid (N.to_nat 955)).
Proof. exact OPCODES_TABLE_eq. Qed.

Example pf_C12_example :
  spec_well_formed 1 (mkOpcodeVariant (Op_Sub SubOpcode_Sub) (Full UseCodePage)
    (Full UseStackWithPushPop) (true, true)) = true /\
  spec_well_formed 1 (mkOpcodeVariant (Op_Sub SubOpcode_Sub) (Full UseCodePage)
    (Full UseCodePage) (true, true)) = false /\
  spec_well_formed 1 (mkOpcodeVariant (Op_Add AddOpcode_Add) (Full UseCodePage)
    (Full UseRegOnly) (false, true)) = false.
Proof. repeat split. Qed.

(** ** C13 *)

(** The canonical map gives the first position in the table, is undefined elsewhere, and its
    value is the mixed-radix opcode number. *)
Lemma pf_C13_canonical :
  exists t m, OPCODES_TABLE = Ok t /\ OPCODE_TO_CANONICAL_INDEX_LOOKUP_MAP = Ok m /\
    (forall x i, map_get m x = Some i <->
       nth_error t (N.to_nat i) = Some x /\
       (forall j, j < i -> nth_error t (N.to_nat j) <> Some x)) /\
    (forall x, map_get m x = None <-> ~ In x t) /\
    (forall x, map_get m x = spec_number x).
Proof.
  destruct canonical_map_defined as (m & Hm & Hg).
  exists padded_table, m. split; [apply OPCODES_TABLE_eq|]. split; [exact Hm|].
  split; [|split].
  - intros x i. rewrite Hg, <- padded_first_index. apply first_index_Some.
  - intros x. rewrite Hg, <- padded_first_index. apply first_index_None.
  - exact Hg.
Qed.

Example pf_C13_example :
  spec_number (mkOpcodeVariant (Op_Shift ShiftOpcode_Rol) (Full UseImm16Only)
    (Full UseStackWithOffset) (true, false)) = Some (655 + (4 * 4 + 2) * 4 + 2) /\
  spec_number (mkOpcodeVariant (Op_UMA UMAOpcode_AuxHeapRead) (RegOrImm RI_UseImm16Only)
    RegOnly (true, false)) = Some 1090 /\
  spec_number (mkOpcodeVariant (Op_UMA UMAOpcode_AuxHeapRead) RegOnly RegOnly (true, false))
    = None.
Proof. repeat split. Qed.

(** ** C14 *)

(** Both map builders, on any table: they panic exactly when a variant other than the
    invalid one repeats, and otherwise look up the first position. *)
Lemma pf_C14_any_table :
  forall t,
    (canonical_map_of_table t = Panic <-> spec_repeats t) /\
    (monotonic_map_of_table t = Panic <-> spec_repeats t) /\
    (forall m, canonical_map_of_table t = Ok m ->
       forall x, map_get m x = first_index t x) /\
    (forall m, monotonic_map_of_table t = Ok m ->
       forall x, map_get m x = option_map mkVariantMonotonicNumber (first_index t x)).
Proof.
  intros t. rewrite monotonic_map_eq.
  destruct (canonical_map_spec t) as [(m & -> & Hg & Hr)|[-> Hr]]; cbn [bind].
  - split; [split; [discriminate|contradiction]|].
    split; [split; [discriminate|contradiction]|].
    split; intros m' E; injection E as <-; intros x; [apply Hg|].
    rewrite map_get_wrap, Hg. reflexivity.
  - split; [tauto|]. split; [tauto|]. split; discriminate.
Qed.

(** [first_index] is what its name says. *)
Lemma pf_C14_first_index :
  forall t x i,
    first_index t x = Some i <->
    nth_error t (N.to_nat i) = Some x /\ (forall j, j < i -> nth_error t (N.to_nat j) <> Some x).
Proof. intros. apply first_index_Some. Qed.

(** The two statics agree on every variant. *)
Lemma pf_C14_agree :
  exists m m', OPCODE_TO_CANONICAL_INDEX_LOOKUP_MAP = Ok m /\
    OPCODE_TO_MONOTONIC_INDEX_NUMBER_MAP = Ok m' /\
    (forall x, option_map VariantMonotonicNumber_into_usize (map_get m' x) = map_get m x) /\
    (forall x, contains_key m' x = contains_key m x).
Proof.
  destruct canonical_map_defined as (m & Hm & Hg).
  exists m, (wrap_map m). split; [exact Hm|]. split.
  - rewrite monotonic_static_eq, Hm. reflexivity.
  - split; intros x; unfold contains_key; rewrite map_get_wrap;
      destruct (map_get m x); reflexivity.
Qed.

(** A table with a repeated variant makes both builders panic; repeating the invalid variant
    does not. *)
Example pf_C14_example :
  spec_repeats [spec_invalid; OpcodeVariant_default; spec_invalid; OpcodeVariant_default] /\
  ~ spec_repeats [spec_invalid; OpcodeVariant_default; spec_invalid].
Proof.
  split.
  - exists 1, 3, OpcodeVariant_default. repeat split. discriminate.
  - intros H. apply (proj1 (pf_C14_any_table _)) in H. vm_compute in H. discriminate.
Qed.

(** ** C17 *)

(** Semantic equality is equality up to the two spellings of a register source. *)
Lemma pf_C17_meaning :
  forall a b, semantically_equal a b = true <-> spec_equivalent a b.
Proof. intros a b. rewrite semantically_equal_b. apply equivalentb_iff. Qed.

(** It is an equivalence relation. *)
Lemma pf_C17_equivalence :
  (forall a, semantically_equal a a = true) /\
  (forall a b, semantically_equal a b = semantically_equal b a) /\
  (forall a b c, semantically_equal a b = true -> semantically_equal b c = true ->
     semantically_equal a c = true).
Proof.
  split; [|split]; intros; rewrite ?semantically_equal_b in *.
  - apply eqv_refl.
  - apply eqv_sym.
  - rewrite (eqv_trans a b c); assumption.
Qed.

(** Equivalent variants cannot be told apart by bitmask, price or attributes. *)
Lemma pf_C17_observations :
  forall a b, semantically_equal a b = true ->
    (forall bld v, opcode_as_integer_bitmask bld a v = opcode_as_integer_bitmask bld b v) /\
    OpcodeVariant_ergs_price a = OpcodeVariant_ergs_price b /\
    OpcodeVariant_requires_kernel_mode a = OpcodeVariant_requires_kernel_mode b /\
    OpcodeVariant_can_be_used_in_static_context a
      = OpcodeVariant_can_be_used_in_static_context b /\
    OpcodeVariant_is_explicit_panic a = OpcodeVariant_is_explicit_panic b /\
    OpcodeVariant_swap_operands a = OpcodeVariant_swap_operands b.
Proof.
  intros a b H. apply pf_C17_meaning in H. split.
  - intros bld v. rewrite !bitmask_eq, (eqv_mask a b H). reflexivity.
  - destruct H as (H1 & H2 & _).
    unfold OpcodeVariant_ergs_price, OpcodeVariant_requires_kernel_mode,
      OpcodeVariant_can_be_used_in_static_context, OpcodeVariant_is_explicit_panic,
      OpcodeVariant_swap_operands. rewrite H1, H2. repeat split.
Qed.

(** The derived equality of variants is equality. *)
Lemma pf_C17_derived_equality :
  forall a b, OpcodeVariant_eqb a b = true <-> a = b.
Proof. exact eqb_iff. Qed.

Example pf_C17_example :
  let reg := mkOpcodeVariant (Op_UMA UMAOpcode_HeapRead) RegOnly RegOnly (true, false) in
  let ri := mkOpcodeVariant (Op_UMA UMAOpcode_HeapRead) (RegOrImm RI_UseRegOnly) RegOnly
              (true, false) in
  let imm := mkOpcodeVariant (Op_UMA UMAOpcode_HeapRead) (RegOrImm RI_UseImm16Only) RegOnly
              (true, false) in
  semantically_equal reg ri = true /\ reg <> ri /\ semantically_equal reg imm = false.
Proof. repeat split. discriminate. Qed.

(** ** C15 *)

Lemma retype_equivalent x : spec_equivalent x (spec_retype x).
Proof.
  unfold spec_retype, spec_equivalent. destruct x as [o s d f]. cbn.
  destruct (spec_addressing 1 o); destruct s; cbn; repeat split.
Qed.

Lemma shl_capacity bld b c : shl_one bld 64 b = Ok c -> exists k, k < 64 /\ c = 2 ^ k.
Proof.
  unfold shl_one. destruct (b <? 64) eqn:Hb.
  - intros H. injection H as <-. exists b. split; [lia|reflexivity].
  - destruct bld; [discriminate|]. intros H. injection H as <-.
    exists (b mod 64). split; [apply N.mod_lt; discriminate|reflexivity].
Qed.

Lemma synthesized_nth bld b v t i :
  synthesize_opcode_decoding_tables bld b v = Ok t ->
  nth_error t (N.to_nat i) =
  if i <? spec_count v then nth_error (spec_table v) (N.to_nat i)
  else if i <? len t then Some spec_invalid else None.
Proof.
  rewrite synthesize_eq. destruct (shl_one bld 64 b) as [c|]; [|discriminate].
  destruct (spec_count v <=? c) eqn:Hc; [|discriminate]. intros H. injection H as <-.
  assert (L := spec_table_len v). unfold len in *.
  rewrite app_length, repeat_length.
  destruct (i <? spec_count v) eqn:Hi.
  - apply nth_error_app1. lia.
  - rewrite nth_error_app2 by lia.
    destruct (i <? N.of_nat (_ + _)) eqn:Hi'.
    + apply nth_error_repeat. lia.
    + apply nth_error_None. rewrite repeat_length. lia.
Qed.

(** Version 1 extends version 0: at every number below 1085 it holds an equivalent variant
    (with the same mask, price and attributes), the numbers 1085..1092 are new, everything
    above is invalid in both.  Widths and builds are arbitrary. *)
Lemma pf_C15_extension :
  forall bld0 bld1 b0 b1 t0 t1,
    synthesize_opcode_decoding_tables bld0 b0 0 = Ok t0 ->
    synthesize_opcode_decoding_tables bld1 b1 1 = Ok t1 ->
    (forall i x, i < 1085 -> nth_error t0 (N.to_nat i) = Some x ->
       exists y, nth_error t1 (N.to_nat i) = Some y /\
         spec_equivalent x y /\
         opcode y = opcode x /\ flags y = flags x /\ dst0_operand_type y = dst0_operand_type x /\
         (forall bld v, opcode_as_integer_bitmask bld y v = opcode_as_integer_bitmask bld x v) /\
         OpcodeVariant_ergs_price y = OpcodeVariant_ergs_price x /\
         OpcodeVariant_requires_kernel_mode y = OpcodeVariant_requires_kernel_mode x /\
         OpcodeVariant_can_be_used_in_static_context y
           = OpcodeVariant_can_be_used_in_static_context x) /\
    (forall i y, 1085 <= i < 1093 -> nth_error t1 (N.to_nat i) = Some y ->
       src0_operand_type y = RegOrImm RI_UseImm16Only /\ spec_is_uma (opcode y) = true /\
       (forall x, nth_error t0 (N.to_nat i) = Some x -> x = spec_invalid)) /\
    (forall i x, 1093 <= i -> nth_error t0 (N.to_nat i) = Some x -> x = spec_invalid) /\
    (forall i y, 1093 <= i -> nth_error t1 (N.to_nat i) = Some y -> y = spec_invalid).
Proof.
  intros bld0 bld1 b0 b1 t0 t1 H0 H1.
  assert (N0 := fun i => synthesized_nth _ _ _ _ i H0).
  assert (N1 := fun i => synthesized_nth _ _ _ _ i H1).
  change (spec_count 0) with 1085 in N0. change (spec_count 1) with 1093 in N1.
  change (spec_table 0) with spec_table_v0 in N0. change (spec_table 1) with spec_table_v1 in N1.
  split; [|split; [|split]].
  - intros i x Hi Hx. rewrite N0 in Hx. replace (i <? 1085) with true in Hx by lia.
    exists (spec_retype x). assert (Eq := retype_equivalent x). split.
    + rewrite N1. replace (i <? 1093) with true by lia. unfold spec_table_v1.
      rewrite nth_error_app1.
      2:{ rewrite map_length, spec_table_v0_length. lia. }
      rewrite nth_error_map', Hx. reflexivity.
    + split; [exact Eq|]. assert (Eq' := Eq). destruct Eq' as (E1 & E2 & E3 & _).
      split; [congruence|]. split; [congruence|]. split; [congruence|].
      apply pf_C17_meaning in Eq. apply pf_C17_observations in Eq.
      destruct Eq as (M & P & K & S & _).
      split; [intros; symmetry; apply M|]. repeat split; symmetry; assumption.
  - intros i y Hi Hy. rewrite N1 in Hy. replace (i <? 1093) with true in Hy by lia.
    unfold spec_table_v1 in Hy. rewrite nth_error_app2 in Hy.
    2:{ rewrite map_length, spec_table_v0_length. lia. }
    apply nth_error_In, filter_In in Hy as [Hy Himm].
    unfold spec_is_imm_heap_access in Himm. split; [|split].
    + destruct (src0_operand_type y) as [|[]|]; try discriminate. reflexivity.
    + apply (proj1 (enumeration_In 1 y)) in Hy.
      unfold spec_well_formed in Hy. apply andb_prop in Hy as [Hy _].
      destruct (src0_operand_type y) as [|[]|]; try discriminate Himm.
      destruct y as [o s d f]. cbn in *. destruct o as [| | | | | | | | | | | | | | |[]];
        try discriminate Hy; reflexivity.
    + intros x Hx. rewrite N0 in Hx. replace (i <? 1085) with false in Hx by lia.
      destruct (i <? len t0); congruence.
  - intros i x Hi Hx. rewrite N0 in Hx. replace (i <? 1085) with false in Hx by lia.
    destruct (i <? len t0); congruence.
  - intros i y Hi Hy. rewrite N1 in Hy. replace (i <? 1093) with false in Hy by lia.
    destruct (i <? len t1); congruence.
Qed.

(** Both tables exist at the default width. *)
Example pf_C15_example :
  exists t0 t1, synthesize_opcode_decoding_tables Debug 11 0 = Ok t0 /\
    synthesize_opcode_decoding_tables Debug 11 1 = Ok t1 /\
    nth_error t0 (N.to_nat 1076)
      = Some (mkOpcodeVariant (Op_UMA UMAOpcode_HeapRead) RegOnly RegOnly (true, false)) /\
    nth_error t1 (N.to_nat 1076)
      = Some (mkOpcodeVariant (Op_UMA UMAOpcode_HeapRead) (RegOrImm RI_UseRegOnly) RegOnly
                (true, false)).
Proof.
  eexists. eexists. split; [rewrite synthesize_eq; reflexivity|].
  split; [rewrite synthesize_eq; reflexivity|]. split.
  - rewrite nth_error_app1 by (change (spec_table 0) with spec_table_v0;
      rewrite spec_table_v0_length; lia). reflexivity.
  - rewrite nth_error_app1 by (change (spec_table 1) with spec_table_v1;
      rewrite spec_table_v1_length; lia). apply number_table_nth. reflexivity.
Qed.

(** ** C16 *)

Lemma existsb_eqv n l :
  existsb (spec_equivalentb n) l = true <-> exists o, In o l /\ spec_equivalent n o.
Proof.
  rewrite existsb_exists. split; intros (o & Ho & H); exists o; (split; [exact Ho|]);
    apply equivalentb_iff; exact H.
Qed.

Lemma Forall2_len {A B} (R : A -> B -> Prop) l l' :
  Forall2 R l l' -> List.length l = List.length l'.
Proof. intros H. induction H; cbn; congruence. Qed.

(** The test used below decides equivalence. *)
Lemma pf_C16_test :
  forall a b, spec_equivalentb a b = true <-> spec_equivalent a b.
Proof. exact equivalentb_iff. Qed.

(** Extending any list of old variants by any list of new ones. *)
Lemma pf_C16_extension :
  forall old new,
    (find_new_opcodes old new = Panic <->
     exists o, In o old /\ forall n, In n new -> ~ spec_equivalent o n) /\
    (forall old' added, find_new_opcodes old new = Ok (old', added) ->
       List.length old' = List.length old /\
       (forall i o o', nth_error old i = Some o -> nth_error old' i = Some o' ->
          spec_equivalent o o') /\
       (forall i o, nth_error old i = Some o ->
          (forall p, In p (firstn i old) -> ~ spec_equivalent o p) ->
          nth_error old' i = Some (last (filter (spec_equivalentb o) new) o)) /\
       (forall i o p, nth_error old i = Some o ->
          In p (firstn i old) -> spec_equivalent o p -> nth_error old' i = Some o) /\
       added = filter (fun n => negb (existsb (spec_equivalentb n) old)) new /\
       (forall n, In n new -> exists o, In o (old' ++ added) /\ spec_equivalent n o)).
Proof.
  intros old new. rewrite find_new_eq. split.
  - destruct (forallb (fun o => existsb (spec_equivalentb o) new) old) eqn:F.
    + split; [discriminate|]. intros (o & Ho & H). exfalso.
      rewrite forallb_forall in F. specialize (F o Ho). apply existsb_eqv in F as (n & Hn & E).
      exact (H n Hn E).
    + split; [intros _|reflexivity].
      assert (X : existsb (fun o => negb (existsb (spec_equivalentb o) new)) old = true).
      { clear - F. induction old as [|o r IH]; cbn in *; [discriminate|].
        destruct (existsb (spec_equivalentb o) new); cbn in *; [apply IH, F|reflexivity]. }
      apply existsb_exists in X as (o & Ho & X). exists o. split; [exact Ho|].
      intros n Hn E. apply negb_true_iff in X.
      assert (existsb (spec_equivalentb o) new = true); [|congruence].
      apply existsb_eqv. exists n. split; assumption.
  - intros old' added H.
    destruct (forallb (fun o => existsb (spec_equivalentb o) new) old); [|discriminate].
    injection H as <- <-.
    assert (P := after_pointwise new old).
    split; [symmetry; eapply Forall2_len; exact P|]. split; [|split; [|split; [|split]]].
    + intros i o o' Ho Ho'. clear - P Ho Ho'. revert i Ho Ho'.
      induction P as [|a b l l' Hab P IH]; intros [|i] Ho Ho'; try discriminate; cbn in *.
      * injection Ho as <-. injection Ho' as <-. apply equivalentb_iff, Hab.
      * exact (IH i Ho Ho').
    + intros i o Ho H. rewrite after_nth, Ho.
      destruct (existsb (spec_equivalentb o) (firstn i old)) eqn:X; [|reflexivity].
      apply existsb_eqv in X as (p & Hp & E). destruct (H p Hp E).
    + intros i o p Ho Hp E. rewrite after_nth, Ho.
      replace (existsb (spec_equivalentb o) (firstn i old)) with true; [reflexivity|].
      symmetry. apply existsb_eqv. exists p. split; assumption.
    + reflexivity.
    + intros n Hn. destruct (existsb (spec_equivalentb n) old) eqn:X.
      * rewrite (pointwise_existsb n _ _ P) in X. apply existsb_eqv in X as (o & Ho & E).
        exists o. split; [apply in_or_app; left; exact Ho|exact E].
      * exists n. split; [|repeat split]. apply in_or_app. right. apply filter_In.
        split; [exact Hn|]. rewrite X. reflexivity.
Qed.

(** A permuted and extended list: positions are kept, one source is re-typed, one variant is
    added; and an old variant that disappeared. *)
Example pf_C16_example :
  let a := mkOpcodeVariant (Op_UMA UMAOpcode_HeapRead) RegOnly RegOnly (true, false) in
  let a' := mkOpcodeVariant (Op_UMA UMAOpcode_HeapRead) (RegOrImm RI_UseRegOnly) RegOnly
              (true, false) in
  let b := OpcodeVariant_default in
  let c := mkOpcodeVariant (Op_UMA UMAOpcode_HeapRead) (RegOrImm RI_UseImm16Only) RegOnly
              (true, false) in
  find_new_opcodes [a; b] [c; b; a'] = Ok ([a'; b], [c]) /\
  find_new_opcodes [a; b] [c; a'] = Panic.
Proof. split; reflexivity. Qed.

(** ** C18 *)

(** Synthesis for every width: below 64 the version's variants padded to [2^b], or a panic
    when they do not fit.  A width of 64 or more panics when overflow checks are on; without
    them the shift is taken modulo 64. *)
Lemma pf_C18_synthesis :
  forall bld b v,
    (b < 64 ->
     synthesize_opcode_decoding_tables bld b v =
       if 2 ^ b <? spec_count v then Panic
       else Ok (spec_table v ++ repeat spec_invalid (N.to_nat (2 ^ b - spec_count v)))) /\
    (64 <= b ->
     synthesize_opcode_decoding_tables Debug b v = Panic /\
     synthesize_opcode_decoding_tables Release b v
       = synthesize_opcode_decoding_tables Release (b mod 64) v).
Proof.
  intros bld b v. split; intros Hb.
  - rewrite synthesize_eq. unfold shl_one. replace (b <? 64) with true by lia.
    rewrite N.ltb_antisym. destruct (spec_count v <=? 2 ^ b); reflexivity.
  - rewrite !synthesize_eq. unfold shl_one.
    assert (M : b mod 64 < 64) by (apply N.mod_lt; discriminate).
    replace (b <? 64) with false by lia. replace (b mod 64 <? 64) with true by lia.
    split; reflexivity.
Qed.

(** The version's variants: 1085 of them in version 0, 1093 in version 1, and version 1 again
    for every later version. *)
Lemma pf_C18_counts :
  forall v, List.length (spec_table v) = N.to_nat (spec_count v) /\
    spec_count v = (if v =? 0 then 1085 else 1093) /\
    (1 <= v -> spec_table v = spec_table 1).
Proof.
  intros v. split; [|split; [reflexivity|]].
  - assert (L := spec_table_len v). unfold len in L. lia.
  - intros H. unfold spec_table. destruct (v =? 0) eqn:E; [lia|reflexivity].
Qed.

(** The table has [2^b] entries, and widening it only appends invalid entries. *)
Lemma pf_C18_widening :
  forall bld b b' v t,
    b <= b' -> b' < 64 ->
    synthesize_opcode_decoding_tables bld b v = Ok t ->
    len t = 2 ^ b /\
    synthesize_opcode_decoding_tables bld b' v
      = Ok (t ++ repeat spec_invalid (N.to_nat (2 ^ b' - 2 ^ b))).
Proof.
  intros bld b b' v t Hbb Hb' H.
  rewrite (proj1 (pf_C18_synthesis bld b v)) in H by lia.
  rewrite (proj1 (pf_C18_synthesis bld b' v)) by lia.
  destruct (2 ^ b <? spec_count v) eqn:Hc; [discriminate|]. injection H as <-.
  assert (L := spec_table_len v). unfold len in *.
  assert (P : 2 ^ b <= 2 ^ b') by (apply N.pow_le_mono_r; lia).
  split; [rewrite app_length, repeat_length; lia|].
  replace (2 ^ b' <? spec_count v) with false by lia.
  rewrite <- app_assoc, <- repeat_app. do 3 f_equal. lia.
Qed.

(** The build profile does not matter below width 64, so the table static is the same in
    both. *)
Lemma pf_C18_build :
  (forall b v, b < 64 ->
     synthesize_opcode_decoding_tables Debug b v = synthesize_opcode_decoding_tables Release b v) /\
  (forall bld,
     OPCODES_TABLE =
     let* t := synthesize_opcode_decoding_tables bld OPCODES_TABLE_WIDTH DEFAULT_ISA_VERSION in
     into_array (2 ^ OPCODES_TABLE_WIDTH) t).
Proof.
  assert (H : forall b v, b < 64 ->
     synthesize_opcode_decoding_tables Debug b v = synthesize_opcode_decoding_tables Release b v).
  { intros b v Hb. rewrite !(proj1 (pf_C18_synthesis _ b v)) by exact Hb. reflexivity. }
  split; [exact H|]. intros bld. rewrite OPCODES_TABLE_eq, table_any_build. reflexivity.
Qed.

(** The smallest width that fits is 11 in both versions. *)
Example pf_C18_example :
  (2 ^ 10 <? spec_count 0) = true /\ (2 ^ 11 <? spec_count 0) = false /\
  (2 ^ 10 <? spec_count 1) = true /\ (2 ^ 11 <? spec_count 7) = false.
Proof. repeat split. Qed.

(** ** C19 *)

(** The legacy synthesis equals the current one for version 0 and panics for all others. *)
Lemma pf_C19_legacy :
  forall bld b v,
    synthesize_opcode_decoding_tables_legacy bld b v =
    if v =? 0 then synthesize_opcode_decoding_tables bld b 0 else Panic.
Proof.
  intros bld b v. rewrite legacy_eq. destruct (v =? 0) eqn:E; [|reflexivity].
  apply N.eqb_eq in E. subst v. reflexivity.
Qed.

Example pf_C19_example :
  exists t, synthesize_opcode_decoding_tables_legacy Debug 11 0 = Ok t /\
    nth_error t (N.to_nat 1084)
      = Some (mkOpcodeVariant (Op_UMA UMAOpcode_FatPointerRead) RegOnly RegOnly (true, false)).
Proof.
  eexists. split; [rewrite pf_C19_legacy; cbn [N.eqb]; rewrite synthesize_eq; reflexivity|].
  rewrite nth_error_app1 by (change (spec_table 0) with spec_table_v0;
    rewrite spec_table_v0_length; lia). reflexivity.
Qed.

(** ** C20 *)

(** Enumeration of a known version: no duplicates, exactly the legal variants, as many as
    the density formula says; both panic on every other version. *)
Lemma pf_C20_enumeration :
  forall v,
    (v <= 1 -> exists l n, all_variants_in_version v = Ok l /\
       compute_encoding_density v = Ok n /\
       NoDup l /\ len l = n /\ n = (if v =? 0 then 1085 else 1093) /\
       (forall x, In x l <-> spec_well_formed v x = true) /\
       l = spec_enumeration v) /\
    (1 < v -> all_variants_in_version v = Panic /\ compute_encoding_density v = Panic).
Proof.
  intros v. rewrite enumeration_eq, density_eq. split; intros Hv.
  - replace (v <=? 1) with true by lia. exists (spec_enumeration v), (spec_count v).
    split; [reflexivity|]. split; [reflexivity|]. split; [apply NoDup_enumeration|].
    split; [|split; [reflexivity|split; [apply enumeration_In|reflexivity]]].
    destruct (version_cases v) as [->|[->|H]]; [vm_compute; reflexivity|vm_compute; reflexivity|lia].
  - replace (v <=? 1) with false by lia. split; reflexivity.
Qed.

Example pf_C20_example :
  nth_error (spec_enumeration 1) (N.to_nat 1078)
    = Some (mkOpcodeVariant (Op_UMA UMAOpcode_HeapRead) (RegOrImm RI_UseImm16Only) RegOnly
              (true, false)) /\
  spec_well_formed 0 (mkOpcodeVariant (Op_UMA UMAOpcode_HeapRead) (RegOrImm RI_UseImm16Only)
                        RegOnly (true, false)) = false.
Proof. split; reflexivity. Qed.

(** ** C21 *)

(** Every bit of the circuit bitmask; unsupported versions panic. *)
Lemma pf_C21_bits :
  forall bld x v,
    (v <= 1 -> exists m, opcode_as_integer_bitmask bld x v = Ok m /\
       (forall i, N.testbit m i = spec_mask_bit x i) /\ m < 2 ^ 51) /\
    (1 < v -> opcode_as_integer_bitmask bld x v = Panic).
Proof.
  intros bld x v. rewrite bitmask_eq. split; intros Hv.
  - replace (v <=? 1) with true by lia. exists (mask_value x). split; [reflexivity|].
    split; [apply mask_bits|apply mask_lt].
  - replace (v <=? 1) with false by lia. reflexivity.
Qed.

(** For a legal destination the fields are one-hot and nothing else is set. *)
Lemma pf_C21_one_hot :
  forall bld x v m,
    spec_operand_mode (dst0_operand_type x) < 4 ->
    opcode_as_integer_bitmask bld x v = Ok m ->
    (forall i, i < 16 -> N.testbit m i = true <-> i = spec_family (opcode x)) /\
    (forall i, i < 10 -> N.testbit m (16 + i) = true <-> i = spec_sub (opcode x)) /\
    N.testbit m 26 = fst (flags x) /\
    N.testbit m 27 = snd (flags x) /\
    (forall i, i < 6 -> N.testbit m (28 + i) = true
       <-> i = spec_operand_mode (src0_operand_type x)) /\
    (forall i, i < 4 -> N.testbit m (34 + i) = true
       <-> i = spec_operand_mode (dst0_operand_type x)) /\
    (forall i, 38 <= i < 48 -> N.testbit m i = false) /\
    N.testbit m 48 = spec_kernel (opcode x) /\
    N.testbit m 49 = negb (spec_not_static (opcode x)) /\
    N.testbit m 50 = spec_is_invalid (opcode x) /\
    (forall i, 51 <= i -> N.testbit m i = false) /\
    spec_family (opcode x) < 16 /\ spec_sub (opcode x) < 10 /\
    spec_operand_mode (src0_operand_type x) < 6.
Proof.
  intros bld x v m Hd Hm. rewrite bitmask_eq in Hm. destruct (v <=? 1); [|discriminate].
  injection Hm as <-. rewrite !mask_bits.
  assert (S := sub_lt (opcode x)). assert (S' := sub_count_le (opcode x)).
  assert (B : forall i, N.testbit (mask_value x) i = spec_mask_bit x i) by apply mask_bits.
  unfold spec_mask_bit in *.
  repeat match goal with |- _ /\ _ => split end; try reflexivity;
    try apply family_lt; try apply operand_mode_lt; try lia;
    intros i Hi; rewrite B;
    repeat match goal with |- context [if ?b then _ else _] => destruct b eqn:? end;
    try discriminate; try lia.
Qed.

(** On legal variants of one version, and on the table, the bitmask determines the variant. *)
Lemma pf_C21_injective :
  (forall bld bld' v x y, v <= 1 ->
     spec_well_formed v x = true -> spec_well_formed v y = true ->
     opcode_as_integer_bitmask bld x v = opcode_as_integer_bitmask bld' y v -> x = y) /\
  (exists t ms, OPCODES_TABLE = Ok t /\ OPCODES_PROPS_INTEGER_BITMASKS = Ok ms /\
     List.length ms = List.length t /\
     forall i j x y m, nth_error t i = Some x -> nth_error t j = Some y ->
       nth_error ms i = Some m -> nth_error ms j = Some m -> x = y).
Proof.
  split.
  - intros bld bld' v x y Hv Hx Hy H. rewrite !bitmask_eq in H.
    replace (v <=? 1) with true in H by lia. injection H as H.
    exact (mask_inj_wf v x y Hx Hy H).
  - exists padded_table, (map mask_value padded_table).
    split; [apply OPCODES_TABLE_eq|]. split; [apply bitmasks_eq|].
    split; [apply map_length|]. intros i j x y m Hx Hy Hi Hj.
    rewrite nth_error_map', Hx in Hi. rewrite nth_error_map', Hy in Hj.
    cbn in Hi, Hj. injection Hi as <-. injection Hj as H.
    apply (mask_inj_wf 1); [apply padded_In; eapply nth_error_In; exact Hx
      |apply padded_In; eapply nth_error_In; exact Hy|congruence].
Qed.

(** [log.event first] : family 12, sub-opcode 3, flag 0, register operands, kernel only,
    not static. *)
Example pf_C21_example :
  opcode_as_integer_bitmask Debug
    (mkOpcodeVariant (Op_Log LogOpcode_Event) RegOnly RegOnly (true, false)) 1
  = Ok (2 ^ 12 + 2 ^ 19 + 2 ^ 26 + 2 ^ 28 + 2 ^ 34 + 2 ^ 48).
Proof. rewrite bitmask_eq. reflexivity. Qed.

(** ** C22 *)

(** Decomposition of any slice is element-wise. *)
Lemma pf_C22_slices :
  forall bld l v,
    (v <= 1 -> exists ms, synthesize_bit_decomposition_table bld l v = Ok ms /\
       Forall2 (fun x m => opcode_as_integer_bitmask bld x v = Ok m) l ms) /\
    (1 < v -> synthesize_bit_decomposition_table bld l v =
              match l with [] => Ok [] | _ :: _ => Panic end).
Proof.
  intros bld l v. rewrite decomposition_eq. split; intros Hv.
  - replace (v <=? 1) with true by lia. exists (map mask_value l). split; [reflexivity|].
    induction l as [|x l IH]; cbn [map]; constructor; [|exact IH].
    rewrite bitmask_eq. replace (v <=? 1) with true by lia. reflexivity.
  - replace (v <=? 1) with false by lia. destruct l; reflexivity.
Qed.

(** The static is the decomposition of the table, entry by entry. *)
Lemma pf_C22_static :
  exists t ms, OPCODES_TABLE = Ok t /\ OPCODES_PROPS_INTEGER_BITMASKS = Ok ms /\
    Forall2 (fun x m => forall i, N.testbit m i = spec_mask_bit x i) t ms.
Proof.
  exists padded_table, (map mask_value padded_table).
  split; [apply OPCODES_TABLE_eq|]. split; [apply bitmasks_eq|].
  induction padded_table as [|x l IH]; cbn [map]; constructor; [|exact IH].
  apply mask_bits.
Qed.

(** The build profile does not matter. *)
Lemma pf_C22_build :
  (forall l v, synthesize_bit_decomposition_table Debug l v
               = synthesize_bit_decomposition_table Release l v) /\
  (forall bld, OPCODES_PROPS_INTEGER_BITMASKS =
     let* table := OPCODES_TABLE in
     let* t := synthesize_bit_decomposition_table bld table DEFAULT_ISA_VERSION in
     into_array (2 ^ OPCODES_TABLE_WIDTH) t).
Proof.
  assert (H : forall l v, synthesize_bit_decomposition_table Debug l v
               = synthesize_bit_decomposition_table Release l v).
  { intros. rewrite !decomposition_eq. reflexivity. }
  split; [exact H|]. intros bld. rewrite bitmasks_eq, OPCODES_TABLE_eq. cbn [bind].
  rewrite decomposition_eq. change (DEFAULT_ISA_VERSION <=? 1) with true. cbn [bind].
  symmetry. apply into_array_ok. unfold len. rewrite map_length, padded_length. reflexivity.
Qed.

Example pf_C22_example :
  synthesize_bit_decomposition_table Debug [spec_invalid; spec_invalid] 0
  = Ok [2 ^ 0 + 2 ^ 16 + 2 ^ 28 + 2 ^ 34 + 2 ^ 49 + 2 ^ 50;
        2 ^ 0 + 2 ^ 16 + 2 ^ 28 + 2 ^ 34 + 2 ^ 49 + 2 ^ 50].
Proof. rewrite decomposition_eq. reflexivity. Qed.

(** ** C23 *)

(** Widths of the description, per version. *)
Lemma pf_C23_widths :
  forall v,
    (v <= 1 ->
     max_num_variants_for_version v = Ok 10 /\ max_num_flags_for_version v = Ok 2 /\
     total_description_bits_for_version v = Ok 38 /\
     total_description_bits_rounded_for_version v = Ok 48 /\
     total_opcode_description_and_aux_bits_for_version v = Ok 51) /\
    (1 < v ->
     max_num_variants_for_version v = Panic /\ max_num_flags_for_version v = Ok 2 /\
     total_description_bits_for_version v = Panic /\
     total_description_bits_rounded_for_version v = Panic /\
     total_opcode_description_and_aux_bits_for_version v = Panic).
Proof.
  intros v. rewrite max_num_variants_eq, max_num_flags_eq, total_bits_eq, rounded_bits_eq,
    aux_bits_eq.
  split; intros H; [replace (v <=? 1) with true by lia|replace (v <=? 1) with false by lia];
    repeat split.
Qed.

(** The rounded width is the least multiple of 16 holding the description, and everything
    fits 64 bits. *)
Lemma pf_C23_rounding :
  forall v t r a,
    total_description_bits_for_version v = Ok t ->
    total_description_bits_rounded_for_version v = Ok r ->
    total_opcode_description_and_aux_bits_for_version v = Ok a ->
    (forall k, t <= 16 * k <-> r <= 16 * k) /\ r mod 16 = 0 /\ a = r + 3 /\ a <= 64.
Proof.
  intros v t r a. rewrite total_bits_eq, rounded_bits_eq, aux_bits_eq.
  destruct (v <=? 1); [|discriminate]. intros Ht Hr Ha.
  injection Ht as <-. injection Hr as <-. injection Ha as <-.
  split; [intros k; lia|]. split; [reflexivity|]. split; [reflexivity|lia].
Qed.

(** The text of the format description. *)
Lemma pf_C23_format :
  forall v, compute_decoding_format v =
    if v <=? 1 then
      Ok ("38 bits in total." ++ String (ascii_of_N 10) "" ++
          "16 bit flags for opcode|10 bit flags for variant|2 bit flags for flags|"
          ++ "6 bits flags for input type|4 bit flags for output type")%string
    else Panic.
Proof.
  intros v. unfold compute_decoding_format, compute_decoding_format_of.
  change (max_num_variants_for_version_of current_set v) with (max_num_variants_for_version v).
  change (max_num_flags_for_version_of current_set v) with (max_num_flags_for_version v).
  rewrite max_num_variants_eq. destruct (v <=? 1); [|reflexivity]. cbn [bind].
  rewrite max_num_flags_eq. reflexivity.
Qed.

(** The compile-time counts agree with the trait implementations. *)
Lemma pf_C23_constants :
  exists ops, OPCODE_PROTOTYPES = Ok ops /\ len ops = OPCODE_TYPE_BITS /\
    NUM_LOGICAL_OPCODES = Ok OPCODE_TYPE_BITS /\ OPCODE_TYPE_BITS = 16 /\
    NUM_INPUT_VARIANTS = OPCODE_INPUT_VARIANT_FLAGS /\ OPCODE_INPUT_VARIANT_FLAGS = 6 /\
    NUM_OUTPUT_VARIANTS = OPCODE_OUTPUT_VARIANT_FLAGS /\ OPCODE_OUTPUT_VARIANT_FLAGS = 4 /\
    WIDTH_MULTIPLE = 16 /\ TOTAL_AUX_BITS = 3.
Proof. eexists. split; [reflexivity|]. repeat split. Qed.

Example pf_C23_example :
  total_description_bits_rounded_for_version 0 = Ok 48 /\
  total_description_bits_rounded_for_version 2 = Panic.
Proof. rewrite !rounded_bits_eq. split; reflexivity. Qed.

(** ** C27 *)

(** The price table holds the price of each table entry. *)
Lemma pf_C27_table :
  exists t p, OPCODES_TABLE = Ok t /\ OPCODES_PRICES = Ok p /\
    List.length p = List.length t /\
    forall i x, nth_error t i = Some x ->
      nth_error p i = Some (spec_price (opcode x)) /\
      nth_error p i = Some (OpcodeVariant_ergs_price x).
Proof.
  exists padded_table. eexists. split; [apply OPCODES_TABLE_eq|]. split; [apply prices_eq|].
  split; [apply map_length|]. intros i x Hx. rewrite nth_error_map', Hx.
  cbn [option_map]. split; [reflexivity|]. unfold OpcodeVariant_ergs_price.
  rewrite <- price_eq. reflexivity.
Qed.

(** Prices per opcode: the maximal [u32] for the invalid opcode, 5 to 156250 otherwise. *)
Lemma pf_C27_prices :
  forall x,
    OpcodeVariant_ergs_price x = spec_price (opcode x) /\
    Opcode_ergs_price (opcode x) = spec_price (opcode x) /\
    spec_price (opcode x) < 2 ^ 32 /\
    (spec_is_invalid (opcode x) = true -> spec_price (opcode x) = 2 ^ 32 - 1) /\
    (spec_is_invalid (opcode x) = false -> 5 <= spec_price (opcode x) <= 156250).
Proof.
  intros x. unfold OpcodeVariant_ergs_price.
  split; [apply price_eq|]. split; [apply price_eq|].
  destruct x as [o s d f]. cbn [opcode]. clear.
  each_opcode o; cbn; repeat split; try discriminate; intros; lia.
Qed.

Example pf_C27_example :
  spec_price (Op_Log LogOpcode_ToL1Message) = 156250 /\ spec_price (Op_Ret RetOpcode_Ok) = 5.
Proof. split; reflexivity. Qed.

(** ** C28 *)

(** Kernel-only and static-forbidden opcodes. *)
Lemma pf_C28_attributes :
  forall x,
    OpcodeVariant_requires_kernel_mode x = spec_kernel (opcode x) /\
    OpcodeVariant_can_be_used_in_static_context x = negb (spec_not_static (opcode x)) /\
    OpcodeVariant_is_explicit_panic x = spec_is_invalid (opcode x) /\
    Opcode_requires_kernel_mode (opcode x) = spec_kernel (opcode x) /\
    Opcode_can_be_used_in_static_context (opcode x) = negb (spec_not_static (opcode x)).
Proof.
  intros [o s d f]. unfold OpcodeVariant_requires_kernel_mode,
    OpcodeVariant_can_be_used_in_static_context, OpcodeVariant_is_explicit_panic.
  cbn [opcode]. rewrite !kernel_eq, !static_eq.
  split; [reflexivity|]. split; [reflexivity|]. split; [destruct o; reflexivity|].
  split; reflexivity.
Qed.

(** The attribute bits of the bitmask table. *)
Lemma pf_C28_bits :
  exists t ms, OPCODES_TABLE = Ok t /\ OPCODES_PROPS_INTEGER_BITMASKS = Ok ms /\
    forall i x m, nth_error t i = Some x -> nth_error ms i = Some m ->
      N.testbit m 48 = spec_kernel (opcode x) /\
      N.testbit m 49 = negb (spec_not_static (opcode x)) /\
      N.testbit m 50 = spec_is_invalid (opcode x).
Proof.
  exists padded_table, (map mask_value padded_table).
  split; [apply OPCODES_TABLE_eq|]. split; [apply bitmasks_eq|].
  intros i x m Hx Hm. rewrite nth_error_map', Hx in Hm. cbn in Hm. injection Hm as <-.
  rewrite !mask_bits. split; [|split]; reflexivity.
Qed.

Example pf_C28_example :
  spec_kernel (Op_FarCall FarCallOpcode_Mimic) = true /\
  spec_not_static (Op_FarCall FarCallOpcode_Mimic) = false /\
  spec_kernel (Op_Log LogOpcode_StorageWrite) = false /\
  spec_not_static (Op_Log LogOpcode_StorageWrite) = true.
Proof. repeat split. Qed.
