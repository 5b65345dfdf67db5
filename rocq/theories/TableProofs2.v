(** * Facts about the synthesis functions, the extension procedure and the bitmasks. *)

From Coq Require Import NArith Lia ZArith List Bool String.
From Coq Require Import ZifyBool ZifyNat ZifyN.
From Verif Require Import Machine Constants Operands OpcodeTrait Opcodes AllOpcodes Tables
  SpecIsa SpecFamilies BitLemmas TableProofs.
Import ListNotations.
Open Scope N_scope.

(** ** Attributes of single opcodes *)

Ltac each_opcode o :=
  destruct o as [[]|[]|[]|[]|[]|[]|[]|[]|[]|[]|[]|[]|[]|[]|[]|[]].

Lemma family_eq o : Opcode_variant_idx o = spec_family o.
Proof. each_opcode o; reflexivity. Qed.

Lemma sub_eq o : Opcode_materialize_subvariant_idx o = spec_sub o.
Proof. each_opcode o; reflexivity. Qed.

Lemma price_eq o : Opcode_ergs_price o = spec_price o.
Proof. each_opcode o; reflexivity. Qed.

Lemma kernel_eq o : Opcode_requires_kernel_mode o = spec_kernel o.
Proof. each_opcode o; reflexivity. Qed.

Lemma static_eq o : Opcode_can_be_used_in_static_context o = negb (spec_not_static o).
Proof. each_opcode o; reflexivity. Qed.

Lemma family_lt o : spec_family o < 16.
Proof. each_opcode o; reflexivity. Qed.

Lemma sub_lt o : spec_sub o < spec_sub_count o.
Proof. each_opcode o; reflexivity. Qed.

Lemma sub_count_le o : spec_sub_count o <= 10.
Proof. each_opcode o; discriminate. Qed.

Lemma opcode_by_numbers o o' :
  spec_family o = spec_family o' -> spec_sub o = spec_sub o' -> o = o'.
Proof. each_opcode o; each_opcode o'; intros; try discriminate; reflexivity. Qed.

Lemma operand_idx_eq s : Operand_variant_idx s = spec_operand_mode s.
Proof. destruct s as [|[]|[]]; reflexivity. Qed.

Lemma operand_mode_lt s : spec_operand_mode s < 6.
Proof. destruct s as [|[]|[]]; reflexivity. Qed.

(** ** Width accounting *)

Lemma version_cases (v : N) : v = 0 \/ v = 1 \/ 1 < v.
Proof. lia. Qed.

Lemma max_num_variants_eq v :
  max_num_variants_for_version v = if v <=? 1 then Ok 10 else Panic.
Proof. destruct v as [|[p|p|]]; vm_compute; reflexivity. Qed.

(** The highest flag count over all known versions not above [v] ([u8] versions above 1
    included). *)
Lemma max_num_flags_eq v : max_num_flags_for_version v = Ok 2.
Proof. destruct v as [|[p|p|]]; vm_compute; reflexivity. Qed.

Lemma NUM_LOGICAL_OPCODES_eq : NUM_LOGICAL_OPCODES = Ok 16.
Proof. reflexivity. Qed.

Lemma total_bits_eq v : total_description_bits_for_version v = if v <=? 1 then Ok 38 else Panic.
Proof.
  unfold total_description_bits_for_version, total_description_bits_for_version_of.
  fold max_num_variants_for_version max_num_flags_for_version. rewrite max_num_variants_eq.
  destruct (v <=? 1); [|reflexivity]. cbn [bind]. rewrite max_num_flags_eq. reflexivity.
Qed.

Lemma rounded_bits_eq v :
  total_description_bits_rounded_for_version v = if v <=? 1 then Ok 48 else Panic.
Proof.
  unfold total_description_bits_rounded_for_version, total_description_bits_rounded_for_version_of.
  fold max_num_variants_for_version max_num_flags_for_version. rewrite max_num_variants_eq.
  destruct (v <=? 1); [|reflexivity]. cbn [bind]. rewrite max_num_flags_eq. reflexivity.
Qed.

Lemma aux_bits_eq v :
  total_opcode_description_and_aux_bits_for_version v = if v <=? 1 then Ok 51 else Panic.
Proof.
  unfold total_opcode_description_and_aux_bits_for_version. rewrite rounded_bits_eq.
  destruct (v <=? 1); reflexivity.
Qed.

(** ** The bitmask *)

Definition bit_if (b : bool) (k : N) : N := if b then 2 ^ k else 0.

Definition mask_value (x : OpcodeVariant) : N :=
  N.lor (N.lor (N.lor (N.lor (N.lor (N.lor (N.lor (N.lor
    (2 ^ spec_family (opcode x))
    (2 ^ (16 + spec_sub (opcode x))))
    (bit_if (fst (flags x)) 26))
    (bit_if (snd (flags x)) 27))
    (2 ^ (28 + spec_operand_mode (src0_operand_type x))))
    (2 ^ (34 + spec_operand_mode (dst0_operand_type x))))
    (bit_if (spec_kernel (opcode x)) 48))
    (bit_if (negb (spec_not_static (opcode x))) 49))
    (bit_if (spec_is_invalid (opcode x)) 50).

Lemma shl_one_ok bld k : k < 64 -> shl_one bld 64 k = Ok (2 ^ k).
Proof. intros H. unfold shl_one. apply N.ltb_lt in H. rewrite H. reflexivity. Qed.

Lemma lor_bit_if (e : N) (b : bool) (k : N) :
  (if b then Ok (N.lor e (2 ^ k)) else Ok e) = Ok (N.lor e (bit_if b k)).
Proof. destruct b; cbn [bit_if]; [reflexivity|]. rewrite N.lor_0_r. reflexivity. Qed.

Lemma bitmask_eq bld x v :
  opcode_as_integer_bitmask bld x v = if v <=? 1 then Ok (mask_value x) else Panic.
Proof.
  unfold opcode_as_integer_bitmask, opcode_as_integer_bitmask_of.
  fold max_num_variants_for_version max_num_flags_for_version
    total_description_bits_rounded_for_version. rewrite max_num_variants_eq, rounded_bits_eq.
  destruct (v <=? 1) eqn:Hv; [|reflexivity].
  cbn [bind]. rewrite max_num_flags_eq. cbn [bind].
  change (set_objects current_set) with (Ok (match all_opcodes with Ok a => a | Panic => [] end)).
  cbn [bind].
  change (len (match all_opcodes with Ok a => a | Panic => [] end)) with 16.
  change (set_index current_set) with Opcode_variant_idx.
  change (set_sub_index current_set) with Opcode_materialize_subvariant_idx.
  change (set_kernel current_set) with Opcode_requires_kernel_mode.
  change (set_static current_set) with Opcode_can_be_used_in_static_context.
  rewrite family_eq, sub_eq, operand_idx_eq.
  assert (F := family_lt (opcode x)).
  assert (S := sub_lt (opcode x)). assert (S' := sub_count_le (opcode x)).
  assert (M0 := operand_mode_lt (src0_operand_type x)).
  assert (M1 := operand_mode_lt (dst0_operand_type x)).
  rewrite (shl_one_ok bld (0 + spec_family (opcode x))) by lia. cbn [bind].
  rewrite (shl_one_ok bld (0 + 16 + spec_sub (opcode x))) by lia. cbn [bind].
  rewrite !N.add_0_l, N.lor_0_l.
  change (16 + 10 + 2) with 28. change (16 + 10) with 26.
  unfold enumerate. cbn [enumerate_from for_each]. change (0 + 1) with 1.
  change (26 + 0) with 26. change (26 + 1) with 27.
  rewrite !(shl_one_ok bld 26), !(shl_one_ok bld 27) by lia. cbn [bind].
  rewrite lor_bit_if. cbn [bind]. rewrite lor_bit_if. cbn [bind].
  rewrite (shl_one_ok bld (28 + spec_operand_mode (src0_operand_type x))) by lia. cbn [bind].
  change (28 + NUM_INPUT_VARIANTS) with 34. rewrite operand_idx_eq.
  rewrite (shl_one_ok bld (34 + spec_operand_mode (dst0_operand_type x))) by lia. cbn [bind].
  change (34 + NUM_OUTPUT_VARIANTS <=? 48) with true. cbn [assert_ bind].
  change (48 + KERNEL_MODE_FLAG_BITS + CAN_BE_USED_IN_STATIC_CONTEXT_FLAG_BITS) with 50.
  change (48 + KERNEL_MODE_FLAG_BITS) with 49.
  change (50 + EXPLICIT_PANIC_FLAG_BITS <=? 64) with true.
  rewrite !(shl_one_ok bld 48), !(shl_one_ok bld 49), !(shl_one_ok bld 50) by lia. cbn [bind].
  rewrite kernel_eq, static_eq.
  rewrite lor_bit_if. cbn [bind]. rewrite lor_bit_if. cbn [bind].
  replace (OpcodeVariant_is_explicit_panic x) with (spec_is_invalid (opcode x))
    by (destruct x as [o ? ? ?]; destruct o; reflexivity).
  rewrite lor_bit_if. cbn [bind assert_]. reflexivity.
Qed.

Lemma testbit_bit_if b k i : N.testbit (bit_if b k) i = b && (i =? k).
Proof.
  destruct b; cbn [bit_if andb]; [|apply N.bits_0].
  rewrite N.pow2_bits_eqb. apply N.eqb_sym.
Qed.

(** Decide every comparison that is settled by the hypotheses. *)
Ltac region :=
  repeat match goal with
    | |- context [?a =? ?b] =>
        first [ replace (a =? b) with false by lia | replace (a =? b) with true by lia ]
    | |- context [?a <? ?b] =>
        first [ replace (a <? b) with false by lia | replace (a <? b) with true by lia ]
    end;
  rewrite ?andb_false_r, ?andb_true_r, ?orb_false_r, ?orb_false_l.

Lemma mask_bits x i : N.testbit (mask_value x) i = spec_mask_bit x i.
Proof.
  unfold mask_value. rewrite !N.lor_spec, !testbit_bit_if, !N.pow2_bits_eqb.
  assert (F := family_lt (opcode x)).
  assert (S := sub_lt (opcode x)). assert (S' := sub_count_le (opcode x)).
  assert (M0 := operand_mode_lt (src0_operand_type x)).
  assert (M1 := operand_mode_lt (dst0_operand_type x)).
  unfold spec_mask_bit.
  generalize dependent (spec_family (opcode x)). intros fam F.
  generalize dependent (spec_sub_count (opcode x)). intros cnt.
  generalize dependent (spec_sub (opcode x)). intros sub S S'.
  generalize dependent (spec_operand_mode (src0_operand_type x)). intros m0 M0.
  generalize dependent (spec_operand_mode (dst0_operand_type x)). intros m1 M1.
  generalize (fst (flags x)), (snd (flags x)), (spec_kernel (opcode x)),
    (negb (spec_not_static (opcode x))), (spec_is_invalid (opcode x)).
  intros f0 f1 k n p.
  destruct (N.lt_ge_cases i 16); [region; rewrite N.eqb_sym; reflexivity|].
  destruct (N.lt_ge_cases i 26); [region; lia|].
  destruct (N.eq_dec i 26) as [->|]; [region; reflexivity|].
  destruct (N.eq_dec i 27) as [->|]; [region; reflexivity|].
  destruct (N.lt_ge_cases i 34); [region; lia|].
  destruct (N.lt_ge_cases i 40); [region; lia|].
  destruct (N.eq_dec i 48) as [->|]; [region; reflexivity|].
  destruct (N.eq_dec i 49) as [->|]; [region; reflexivity|].
  destruct (N.eq_dec i 50) as [->|]; [region; reflexivity|].
  region. reflexivity.
Qed.

Lemma mask_lt x : mask_value x < 2 ^ 51.
Proof.
  destruct (N.eq_dec (mask_value x) 0) as [->|Hz]; [reflexivity|].
  apply N.log2_lt_pow2; [lia|].
  destruct (N.lt_ge_cases (N.log2 (mask_value x)) 51) as [H|H]; [exact H|].
  assert (B := N.bit_log2 _ Hz). rewrite mask_bits in B. unfold spec_mask_bit in B.
  revert B. generalize dependent (N.log2 (mask_value x)). intros k Hk.
  assert (E : (k <? 16) = false /\ (k <? 26) = false /\ (k =? 26) = false /\ (k =? 27) = false /\
              (k <? 34) = false /\ (k <? 40) = false /\ (k =? 48) = false /\ (k =? 49) = false /\
              (k =? 50) = false) by lia.
  destruct E as (-> & -> & -> & -> & -> & -> & -> & -> & ->). discriminate.
Qed.

(** Equal masks: equal opcode, flags and modes. *)
Lemma mask_inj x y :
  mask_value x = mask_value y ->
  opcode x = opcode y /\ flags x = flags y /\
  spec_operand_mode (src0_operand_type x) = spec_operand_mode (src0_operand_type y) /\
  spec_operand_mode (dst0_operand_type x) = spec_operand_mode (dst0_operand_type y).
Proof.
  intros H.
  assert (B : forall i, spec_mask_bit x i = spec_mask_bit y i).
  { intros i. rewrite <- !mask_bits, H. reflexivity. }
  assert (F := family_lt (opcode x)).
  assert (S := sub_lt (opcode x)). assert (S' := sub_count_le (opcode x)).
  assert (M0 := operand_mode_lt (src0_operand_type x)).
  assert (M1 := operand_mode_lt (dst0_operand_type x)).
  split; [|split; [|split]].
  - apply opcode_by_numbers.
    + specialize (B (spec_family (opcode x))). unfold spec_mask_bit in B.
      assert (E : (spec_family (opcode x) <? 16) = true) by lia. rewrite E in B. lia.
    + specialize (B (16 + spec_sub (opcode x))). unfold spec_mask_bit in B.
      assert (E : (16 + spec_sub (opcode x) <? 16) = false /\
                  (16 + spec_sub (opcode x) <? 26) = true) by lia.
      destruct E as [E1 E2]. rewrite E1, E2 in B. lia.
  - assert (B0 := B 26). assert (B1 := B 27). unfold spec_mask_bit in B0, B1.
    cbn in B0, B1. destruct (flags x), (flags y). cbn in B0, B1. congruence.
  - specialize (B (28 + spec_operand_mode (src0_operand_type x))). unfold spec_mask_bit in B.
    revert B. generalize dependent (spec_operand_mode (src0_operand_type x)). intros k Hk.
    assert (E : (28 + k <? 16) = false /\ (28 + k <? 26) = false /\ (28 + k =? 26) = false /\
                (28 + k =? 27) = false /\ (28 + k <? 34) = true) by lia.
    destruct E as (-> & -> & -> & -> & ->). lia.
  - specialize (B (34 + spec_operand_mode (dst0_operand_type x))). unfold spec_mask_bit in B.
    revert B. generalize dependent (spec_operand_mode (dst0_operand_type x)). intros k Hk.
    assert (E : (34 + k <? 16) = false /\ (34 + k <? 26) = false /\ (34 + k =? 26) = false /\
                (34 + k =? 27) = false /\ (34 + k <? 34) = false /\ (34 + k <? 40) = true) by lia.
    destruct E as (-> & -> & -> & -> & -> & ->). lia.
Qed.

(** On legal variants of one version the modes determine the operands. *)
Lemma mask_inj_wf v x y :
  spec_well_formed v x = true -> spec_well_formed v y = true ->
  mask_value x = mask_value y -> x = y.
Proof.
  intros Hx Hy H. apply mask_inj in H as (Ho & Hf & Hs & Hd).
  destruct x as [o s d f], y as [o' s' d' f']. cbn in *. subst o' f'.
  unfold spec_well_formed in Hx, Hy. cbn in Hx, Hy.
  apply andb_prop in Hx as [Hx _], Hy as [Hy _].
  destruct (spec_addressing v o); destruct s as [|[]|[]], d as [|[]|[]]; try discriminate Hx;
    destruct s' as [|[]|[]]; try discriminate Hs; try discriminate Hy;
    destruct d' as [|[]|[]]; try discriminate Hd; try discriminate Hy; reflexivity.
Qed.

(** ** Decomposition of slices *)

Lemma for_each_map {A B} (f : A -> B) l acc :
  for_each (fun r x => let* y := Ok (f x) in Ok (r ++ [y])) l acc = Ok (acc ++ map f l).
Proof.
  revert acc. induction l as [|a l IH]; intros acc; cbn [for_each bind map].
  - rewrite app_nil_r. reflexivity.
  - cbn [bind] in IH. rewrite IH, <- app_assoc. reflexivity.
Qed.

Lemma for_each_ext {A S} (f g : S -> A -> res S) l s :
  (forall s x, f s x = g s x) -> for_each f l s = for_each g l s.
Proof.
  intros H. revert s. induction l as [|a l IH]; intros s; cbn; [reflexivity|].
  rewrite H. destruct (g s a); cbn; [apply IH|reflexivity].
Qed.

Lemma decomposition_eq bld l v :
  synthesize_bit_decomposition_table bld l v =
  if v <=? 1 then Ok (map mask_value l) else match l with [] => Ok [] | _ => Panic end.
Proof.
  unfold synthesize_bit_decomposition_table, synthesize_bit_decomposition_table_of.
  change (set_objects current_set) with (Ok (match all_opcodes with Ok a => a | Panic => [] end)).
  cbn [bind]. change (len _ =? OPCODE_TYPE_BITS) with true. cbn [assert_ bind].
  change (ImmMemHandlerFlags_num_src_variants =? OPCODE_INPUT_VARIANT_FLAGS) with true.
  change (ImmMemHandlerFlags_num_dst_variants =? OPCODE_OUTPUT_VARIANT_FLAGS) with true.
  cbn [assert_ bind].
  destruct (v <=? 1) eqn:Hv.
  - rewrite (for_each_ext _ (fun r x => let* y := Ok (mask_value x) in Ok (r ++ [y]))).
    + apply (for_each_map mask_value l []).
    + intros s x. fold opcode_as_integer_bitmask. rewrite bitmask_eq, Hv. reflexivity.
  - destruct l as [|x l]; [reflexivity|]. cbn [for_each]. fold opcode_as_integer_bitmask.
    rewrite bitmask_eq, Hv. reflexivity.
Qed.

Lemma into_array_ok {A} n (l : list A) : len l = n -> into_array n l = Ok l.
Proof. intros <-. unfold into_array. rewrite N.eqb_refl. reflexivity. Qed.

Lemma bitmasks_eq : OPCODES_PROPS_INTEGER_BITMASKS = Ok (map mask_value padded_table).
Proof.
  unfold OPCODES_PROPS_INTEGER_BITMASKS. rewrite OPCODES_TABLE_eq, bind_Ok.
  rewrite decomposition_eq. replace (DEFAULT_ISA_VERSION <=? 1) with true by reflexivity.
  cbv iota. rewrite bind_Ok.
  apply into_array_ok. unfold len. rewrite map_length, padded_length. reflexivity.
Qed.

Lemma fold_left_snoc {A B} (f : A -> B) l acc :
  fold_left (fun r x => r ++ [f x]) l acc = acc ++ map f l.
Proof.
  revert acc. induction l as [|a l IH]; intros acc; cbn [fold_left map].
  - rewrite app_nil_r. reflexivity.
  - rewrite IH, <- app_assoc. reflexivity.
Qed.

Lemma prices_eq : OPCODES_PRICES = Ok (map (fun x => spec_price (opcode x)) padded_table).
Proof.
  unfold OPCODES_PRICES. rewrite OPCODES_TABLE_eq, bind_Ok.
  rewrite fold_left_snoc. rewrite app_nil_l.
  rewrite (map_ext _ (fun x => spec_price (opcode x)))
    by (intros x; apply price_eq).
  apply into_array_ok. unfold len. rewrite map_length, padded_length. reflexivity.
Qed.

Lemma nth_error_map' {A B} (f : A -> B) l n : nth_error (map f l) n = option_map f (nth_error l n).
Proof. revert n. induction l; intros [|n]; cbn; auto. Qed.

(** Lookup of a table constant through the canonical map. *)
Lemma bitspread_of v n :
  spec_number v = Some n ->
  (let* m := OPCODE_TO_CANONICAL_INDEX_LOOKUP_MAP in
   let* idx := unwrap (map_get m v) in
   let* masks := OPCODES_PROPS_INTEGER_BITMASKS in
   index masks idx) = Ok (mask_value v).
Proof.
  intros Hn. destruct canonical_map_defined as (m & -> & Hm). rewrite bind_Ok.
  rewrite Hm, Hn. cbn [unwrap]. rewrite bind_Ok, bitmasks_eq, bind_Ok.
  rewrite <- padded_first_index in Hn. apply first_index_Some in Hn as [Hn _].
  unfold index. rewrite nth_error_map', Hn. reflexivity.
Qed.
