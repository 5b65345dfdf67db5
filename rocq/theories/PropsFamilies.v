(** * Opcode families, addressing modes and helpers (C29-C37, C57, C59, C60)

    Statements only: each proof is the lemma of the same name in [ProofsFamilies]. *)

From Coq Require Import Arith NArith List Bool String Ascii.
From Verif Require Import Machine Constants Operands OpcodeTrait Opcodes AllOpcodes Tables
  Decoding SpecIsa SpecFamilies ProofsFamilies.
Import ListNotations.
Open Scope N_scope.

(** In every family the index functions are mutually inverse on [0..n-1]. *)
Theorem C29_numbering :
  for_all_families spec_numbered.
Proof. exact pf_C29_numbering. Qed.
Print Assumptions C29_numbering.

(** Making an opcode of the same family from an index: it succeeds exactly below the family
    size, stays in the family and has that index. *)
Theorem C29_materialize :
  forall o i v,
    (i < spec_sub_count o ->
     exists o', Opcode_materialize_subvariant_from_prototype o i v = Ok o' /\
       spec_family o' = spec_family o /\ spec_sub o' = i) /\
    (spec_sub_count o <= i ->
     Opcode_materialize_subvariant_from_prototype o i v = Panic).
Proof. exact pf_C29_materialize. Qed.
Print Assumptions C29_materialize.

(** The family number and the number within the family identify the opcode. *)
Theorem C29_indices :
  (forall o, Opcode_variant_idx o = spec_family o /\
     Opcode_materialize_subvariant_idx o = spec_sub o /\
     spec_family o < 16 /\ spec_sub o < spec_sub_count o) /\
  (forall o o', Opcode_variant_idx o = Opcode_variant_idx o' ->
     Opcode_materialize_subvariant_idx o = Opcode_materialize_subvariant_idx o' -> o = o').
Proof. exact pf_C29_indices. Qed.
Print Assumptions C29_indices.

Example C29_example :
  Opcode_materialize_subvariant_from_prototype (Op_Context ContextOpcode_This) 9 0
    = Ok (Op_Context ContextOpcode_IncrementTxNumber) /\
  Opcode_materialize_subvariant_from_prototype (Op_Context ContextOpcode_This) 10 0 = Panic.
Proof. exact pf_C29_example. Qed.

(** What the availability queries answer, for every family and version. *)
Theorem C30_actual :
  for_all_families spec_availability.
Proof. exact pf_C30_actual. Qed.
Print Assumptions C30_actual.

(** Expected: a variant introduced in version [m] is available from [m] on.  False: heap
    reads exist since version 0, are in the version-1 table, and are reported unavailable in
    version 1. *)
Theorem C30_refuted :
  ~ (forall (x : UMAOpcode) v, minimal_version UMAOpcode_VariantProps x <= v ->
       is_available_for_version UMAOpcode_VariantProps x v = true) /\
  variants_for_version UMAOpcode_VariantProps 1 = [] /\
  (exists t x, OPCODES_TABLE = Ok t /\ In x t /\ opcode x = Op_UMA UMAOpcode_HeapRead).
Proof. exact pf_C30_refuted. Qed.
Print Assumptions C30_refuted.

(** The rule the code implements for any implementation of the trait: available up to, not
    from, the introducing version. *)
Theorem C30_rule :
  forall T (P : OpcodeVariantProps T) x v,
    (is_available_for_version P x v = true <-> v <= minimal_version P x) /\
    (is_added_in_version P x v = true <-> v = minimal_version P x) /\
    (In x (variants_for_version P v) <-> In x (all_variants P) /\ v <= minimal_version P x) /\
    (In x (variants_added_in_version P v) <-> In x (all_variants P) /\ v = minimal_version P x).
Proof. exact pf_C30_rule. Qed.
Print Assumptions C30_rule.

Example C30_example :
  is_available_for_version UMAOpcode_VariantProps UMAOpcode_HeapRead 0 = true /\
  is_available_for_version UMAOpcode_VariantProps UMAOpcode_HeapRead 1 = false /\
  variants_for_version ShiftOpcode_VariantProps 0
  = [ShiftOpcode_Shl; ShiftOpcode_Shr; ShiftOpcode_Rol; ShiftOpcode_Ror] /\
  variants_added_in_version ShiftOpcode_VariantProps 1 = [].
Proof. exact pf_C30_example. Qed.

(** The largest index each family reports: right everywhere except [Ptr], which reports 2
    while its size is 4. *)
Theorem C31_actual :
  (forall o v, max_variant_idx (spec_props o) v =
     if spec_is_uma o && (1 <? v) then Panic
     else Ok (match o with Op_Ptr _ => 2 | _ => spec_sub_count o - 1 end)) /\
  for_all_families (fun T P n => forall v,
     max_variant_idx_for_version P v = Ok (n - 1) \/
     (n = 5 /\ 1 < v /\ max_variant_idx_for_version P v = Panic)) /\
  (forall v, v <= 1 -> for_all_families (fun T P n =>
     max_variant_idx_for_version P v = Ok (n - 1))) /\
  (forall v, max_variant_idx_for_version LogOpcode_VariantProps v = Ok 4 /\
     max_variant_idx_for_version UMAOpcode_VariantProps v = if 1 <? v then Panic else Ok 4).
Proof. exact pf_C31_actual. Qed.
Print Assumptions C31_actual.

(** Expected: every index of a family is at most its reported maximum.  False for
    [ptr.shrink], which is in the table. *)
Theorem C31_refuted :
  ~ (forall o v m, max_variant_idx (spec_props o) v = Ok m ->
       Opcode_materialize_subvariant_idx o <= m) /\
  max_variant_idx (spec_props (Op_Ptr PtrOpcode_Shrink)) 1 = Ok 2 /\
  Opcode_materialize_subvariant_idx (Op_Ptr PtrOpcode_Shrink) = 3 /\
  (exists t x, OPCODES_TABLE = Ok t /\ In x t /\ opcode x = Op_Ptr PtrOpcode_Shrink).
Proof. exact pf_C31_refuted. Qed.
Print Assumptions C31_refuted.

(** Every other family is right, and the global bound is a strict bound for all. *)
Theorem C31_bound :
  (forall o v m, (forall p, o <> Op_Ptr p) -> max_variant_idx (spec_props o) v = Ok m ->
     Opcode_materialize_subvariant_idx o <= m /\
     exists o', spec_family o' = spec_family o /\ Opcode_materialize_subvariant_idx o' = m) /\
  (forall o v n, max_num_variants_for_version v = Ok n ->
     Opcode_materialize_subvariant_idx o < n).
Proof. exact pf_C31_bound. Qed.
Print Assumptions C31_bound.

Example C31_example :
  max_variant_idx (spec_props (Op_Log LogOpcode_Event)) 1 = Ok 4 /\
  Opcode_materialize_subvariant_idx (Op_Log LogOpcode_Event) = 3 /\
  max_num_variants_for_version 1 = Ok 10 /\
  max_variant_idx (spec_props (Op_UMA UMAOpcode_HeapRead)) 2 = Panic.
Proof. exact pf_C31_example. Qed.

(** The two prototype lists describe the same sixteen families in the same order. *)
Theorem C32_lists :
  OPCODE_PROTOTYPES = Ok (map spec_props all_opcode_prototypes) /\
  List.length all_opcode_prototypes = N.to_nat NUM_OPCODES /\ NUM_OPCODES = 16 /\
  (forall p o, nth_error all_opcode_prototypes (N.to_nat p) = Some o ->
     spec_position o = p /\ spec_sub o = 0) /\
  (forall o, exists o', nth_error all_opcode_prototypes (N.to_nat (spec_position o)) = Some o' /\
     spec_family o' = spec_family o) /\
  (forall f, f < 16 -> exists o, In o all_opcode_prototypes /\ Opcode_variant_idx o = f) /\
  (forall o o', In o all_opcode_prototypes -> In o' all_opcode_prototypes ->
     Opcode_variant_idx o = Opcode_variant_idx o' -> o = o').
Proof. exact pf_C32_lists. Qed.
Print Assumptions C32_lists.

(** Indexing the prototype list by the family number gives the family, except for four. *)
Theorem C32_actual :
  forall o p, nth_error all_opcode_prototypes (N.to_nat (Opcode_variant_idx o)) = Some p ->
    (spec_family p = spec_family o <->
     match o with
     | Op_Context _ | Op_Binop _ | Op_Ptr _ | Op_NearCall _ => False
     | _ => True
     end).
Proof. exact pf_C32_actual. Qed.
Print Assumptions C32_actual.

(** Expected: position and family number agree.  False for [Context]. *)
Theorem C32_refuted :
  ~ (forall o p, nth_error all_opcode_prototypes (N.to_nat (Opcode_variant_idx o)) = Some p ->
       Opcode_variant_idx p = Opcode_variant_idx o) /\
  nth_error all_opcode_prototypes
    (N.to_nat (Opcode_variant_idx (Op_Context ContextOpcode_This)))
    = Some (Op_Binop BinopOpcode_Xor).
Proof. exact pf_C32_refuted. Qed.
Print Assumptions C32_refuted.

Example C32_example :
  nth_error all_opcode_prototypes (N.to_nat (Opcode_variant_idx (Op_Shift ShiftOpcode_Rol)))
  = Some (Op_Shift ShiftOpcode_Shl) /\
  nth_error all_opcode_prototypes (N.to_nat (Opcode_variant_idx (Op_Ptr PtrOpcode_Pack)))
  = Some (Op_NearCall nearCallOpcode).
Proof. exact pf_C32_example. Qed.

(** The capability queries, for every opcode and version. *)
Theorem C33_actual :
  forall o v,
    Opcode_can_have_src0_from_mem o v =
      (if spec_is_uma o && (1 <? v) then Panic
       else Ok (match spec_addressing 1 o with FullSource | FullBoth => true | _ => false end)) /\
    Opcode_can_write_dst0_into_memory o v =
      Ok (match spec_addressing 1 o with FullBoth => true | _ => false end).
Proof. exact pf_C33_actual. Qed.
Print Assumptions C33_actual.

(** They say whether the version has a variant of the opcode with a memory operand. *)
Theorem C33_meaning :
  forall v l o, all_variants_in_version v = Ok l ->
    (exists b, Opcode_can_have_src0_from_mem o v = Ok b /\
       (b = true <-> exists x, In x l /\ opcode x = o /\
                       spec_in_memory (src0_operand_type x) = true)) /\
    (exists b, Opcode_can_write_dst0_into_memory o v = Ok b /\
       (b = true <-> exists x, In x l /\ opcode x = o /\
                       spec_in_memory (dst0_operand_type x) = true)).
Proof. exact pf_C33_meaning. Qed.
Print Assumptions C33_meaning.

(** Entries per opcode: addressing alternatives times flag combinations. *)
Theorem C33_counts :
  forall v l o, all_variants_in_version v = Ok l ->
    len (filter (fun x => Opcode_beq (opcode x) o) l)
    = spec_num_addressings (spec_addressing v o) * 2 ^ spec_num_flags o.
Proof. exact pf_C33_counts. Qed.
Print Assumptions C33_counts.

(** The rule for any implementation of the trait: the first operand decides; a destination
    that may be an immediate is a panic. *)
Theorem C33_rule :
  forall (P : OpcodeProps) v,
    (can_have_src0_from_mem P v = Ok true <-> exists f r, input_operands P v = Ok (Full f :: r)) /\
    (can_have_src0_from_mem P v = Panic <-> input_operands P v = Panic) /\
    (can_write_dst0_into_memory P v = Ok true <->
       exists f r, output_operands P v = Ok (Full f :: r)) /\
    (can_write_dst0_into_memory P v = Panic <->
       output_operands P v = Panic \/ exists f r, output_operands P v = Ok (RegOrImm f :: r)).
Proof. exact pf_C33_rule. Qed.
Print Assumptions C33_rule.

Example C33_example :
  Opcode_can_have_src0_from_mem (Op_Jump jumpOpcode) 0 = Ok true /\
  Opcode_can_write_dst0_into_memory (Op_Jump jumpOpcode) 0 = Ok false /\
  Opcode_can_have_src0_from_mem (Op_UMA UMAOpcode_HeapRead) 2 = Panic.
Proof. exact pf_C33_example. Qed.

(** Which flag swaps the operands. *)
Theorem C34_swap :
  forall x, OpcodeVariant_swap_operands x =
    match opcode x with
    | Op_Sub _ | Op_Div _ | Op_Shift _ => snd (flags x)
    | Op_Ptr _ => fst (flags x)
    | _ => false
    end.
Proof. exact pf_C34_swap. Qed.
Print Assumptions C34_swap.

(** A table entry never sets a flag its opcode does not have. *)
Theorem C34_unused_flags :
  exists t, OPCODES_TABLE = Ok t /\
    forall x, In x t ->
      (spec_num_flags (opcode x) = 0 -> flags x = (false, false)) /\
      (spec_num_flags (opcode x) = 1 -> snd (flags x) = false) /\
      spec_num_flags (opcode x) <= 2.
Proof. exact pf_C34_unused_flags. Qed.
Print Assumptions C34_unused_flags.

Example C34_example :
  OpcodeVariant_swap_operands
    (mkOpcodeVariant (Op_Sub SubOpcode_Sub) (Full UseRegOnly) (Full UseRegOnly) (false, true))
    = true /\
  OpcodeVariant_swap_operands
    (mkOpcodeVariant (Op_Ptr PtrOpcode_Sub) (Full UseRegOnly) (Full UseRegOnly) (false, true))
    = false.
Proof. exact pf_C34_example. Qed.

(** Conditions and the numbers 0..7 correspond one to one. *)
Theorem C35_conditions :
  (forall i, i < 8 -> exists c, Condition_materialize_variant i = Ok c /\
     Condition_variant_index c = i /\ nth_error ALL_CONDITIONS (N.to_nat i) = Some c) /\
  (forall i, 8 <= i -> Condition_materialize_variant i = Panic) /\
  (forall c, Condition_materialize_variant (Condition_variant_index c) = Ok c /\
     Condition_variant_index c < 8) /\
  List.length ALL_CONDITIONS = N.to_nat Condition_NUM_VARIANTS.
Proof. exact pf_C35_conditions. Qed.
Print Assumptions C35_conditions.

(** The numbering of the eight conditions. *)
Theorem C35_numbers :
  map Condition_variant_index [Always; Gt_; Lt_; Eq_; Ge_; Le_; Ne_; GtOrLt]
  = [0; 1; 2; 3; 4; 5; 6; 7].
Proof. exact pf_C35_numbers. Qed.
Print Assumptions C35_numbers.

Example C35_example :
  Condition_materialize_variant 7 = Ok GtOrLt /\ Condition_materialize_variant 8 = Panic.
Proof. exact pf_C35_example. Qed.

(** [u16] and [u32] program counters: clipping and wrap-around arithmetic. *)
Theorem C36_arithmetic :
  forall P w, (P, w) = (u16_PcOrImm, 16) \/ (P, w) = (u32_PcOrImm, 32) ->
    (forall x, from_u64_clipped P x = x mod 2 ^ w /\ from_u64_clipped P x < 2 ^ w) /\
    (forall x, x < 2 ^ w -> pc_as_u64 P x = x /\ from_u64_clipped P (pc_as_u64 P x) = x) /\
    (forall a b, a < 2 ^ w -> b < 2 ^ w ->
       pc_wrapping_add P a b = (a + b) mod 2 ^ w /\
       pc_wrapping_sub P a b < 2 ^ w /\
       (pc_wrapping_sub P a b + b) mod 2 ^ w = a /\
       pc_wrapping_sub P (pc_wrapping_add P a b) b = a /\
       pc_wrapping_add P (pc_wrapping_sub P a b) b = a) /\
    pc_max P + 1 = 2 ^ w.
Proof. exact pf_C36_arithmetic. Qed.
Print Assumptions C36_arithmetic.

Example C36_example :
  pc_wrapping_sub u16_PcOrImm 3 5 = 65534 /\ pc_wrapping_add u16_PcOrImm 65535 2 = 1 /\
  from_u64_clipped u32_PcOrImm (2 ^ 40 + 7) = 7.
Proof. exact pf_C36_example. Qed.

(** Bytes and pairs of nibbles. *)
Theorem C37_nibbles :
  (forall b, b < 256 ->
     split_as_u4 b = (b mod 16, b / 16) /\ fst (split_as_u4 b) < 16 /\ snd (split_as_u4 b) < 16 /\
     forall bld, merge_u4 bld (fst (split_as_u4 b)) (snd (split_as_u4 b)) = Ok b) /\
  (forall bld lo hi, lo < 16 -> hi < 16 ->
     merge_u4 bld lo hi = Ok (lo + 16 * hi) /\ split_as_u4 (lo + 16 * hi) = (lo, hi)) /\
  (forall lo hi, lo < 256 -> hi < 256 ->
     (merge_u4 Debug lo hi = Panic <-> 16 <= lo \/ 16 <= hi) /\
     merge_u4 Release lo hi = Ok (N.lor lo (16 * hi mod 256))).
Proof. exact pf_C37_nibbles. Qed.
Print Assumptions C37_nibbles.

Example C37_example :
  split_as_u4 165 = (5, 10) /\ merge_u4 Debug 5 10 = Ok 165 /\ merge_u4 Debug 16 0 = Panic /\
  merge_u4 Release 16 17 = Ok 16.
Proof. exact pf_C37_example. Qed.

(** The known versions not above a given one, in order. *)
Theorem C57_versions :
  forall v, all_backward_compatible_versions v = (if v =? 0 then [0] else [0; 1]) /\
    (forall u, In u (all_backward_compatible_versions v) <-> In u ALL_ISA_VERSIONS /\ u <= v) /\
    (forall u, In u ALL_ISA_VERSIONS <-> u < NUM_ISA_VERSIONS) /\
    ISAVersion_as_index v = v.
Proof. exact pf_C57_versions. Qed.
Print Assumptions C57_versions.

Example C57_example :
  all_backward_compatible_versions 0 = [0] /\ all_backward_compatible_versions 255 = [0; 1].
Proof. exact pf_C57_example. Qed.

(** Addressing modes: numbers, counts and classification. *)
Theorem C59_modes :
  (forall f, ImmMemHandlerFlags_variant_index f = spec_mode f /\
     ImmMemHandlerFlags_encoding_byte f = spec_mode f /\
     nth_error ImmMemHandlerFlags_all_variants (N.to_nat (spec_mode f)) = Some f /\
     ImmMemHandlerFlags_is_memory_used f = spec_mem_mode f /\
     ImmMemHandlerFlags_is_allowed_for_dst f = spec_writable f) /\
  (forall r, RegOrImmFlags_variant_index r = spec_operand_mode (RegOrImm r) /\
     RegOrImmFlags_encoding_byte r = spec_operand_mode (RegOrImm r) /\
     In r RegOrImmFlags_all_variants /\
     RegOrImmFlags_is_memory_used r = false /\
     (RegOrImmFlags_is_allowed_for_dst r = true <-> r = RI_UseRegOnly)) /\
  (forall f f', spec_mode f = spec_mode f' -> f = f') /\
  (forall r r', RegOrImmFlags_encoding_byte r = RegOrImmFlags_encoding_byte r' -> r = r') /\
  RegOrImmFlags_encoding_byte RI_UseRegOnly = ImmMemHandlerFlags_encoding_byte UseRegOnly /\
  RegOrImmFlags_encoding_byte RI_UseImm16Only = ImmMemHandlerFlags_encoding_byte UseImm16Only /\
  ImmMemHandlerFlags_num_variants = len ImmMemHandlerFlags_all_variants /\
  ImmMemHandlerFlags_num_src_variants = len ImmMemHandlerFlags_all_variants /\
  ImmMemHandlerFlags_num_dst_variants
    = len (filter ImmMemHandlerFlags_is_allowed_for_dst ImmMemHandlerFlags_all_variants) /\
  RegOrImmFlags_num_variants = len RegOrImmFlags_all_variants /\
  RegOrImmFlags_num_src_variants = len RegOrImmFlags_all_variants /\
  RegOrImmFlags_num_dst_variants
    = len (filter RegOrImmFlags_is_allowed_for_dst RegOrImmFlags_all_variants) /\
  List.length ImmMemHandlerFlags_all_variants = 6%nat /\
  List.length RegOrImmFlags_all_variants = 2%nat.
Proof. exact pf_C59_modes. Qed.
Print Assumptions C59_modes.

(** Operand indices stay inside their bitmask fields. *)
Theorem C59_operands :
  (forall s, Operand_variant_idx s = spec_operand_mode s /\ Operand_variant_idx s < 6) /\
  (forall v x, spec_well_formed v x = true -> Operand_variant_idx (dst0_operand_type x) < 4) /\
  (forall s d, Operand_variant_idx s = Operand_variant_idx d ->
     spec_in_memory s = spec_in_memory d).
Proof. exact pf_C59_operands. Qed.
Print Assumptions C59_operands.

Example C59_example :
  Operand_variant_idx (RegOrImm RI_UseImm16Only) = Operand_variant_idx (Full UseImm16Only) /\
  ImmMemHandlerFlags_is_allowed_for_dst UseCodePage = false.
Proof. exact pf_C59_example. Qed.

(** The descriptor of every opcode: name, listed variants, operands and permissions, with the
    versions each query supports. *)
Theorem C60_descriptors :
  forall o v,
    name (spec_props o) = spec_name o /\
    variants_data (spec_props o) v = (if v <=? 1 then Ok (spec_variants_data o) else Panic) /\
    input_operands (spec_props o) v
      = (if spec_is_uma o && (1 <? v) then Panic else Ok (spec_inputs v o)) /\
    Opcode_input_operands o v
      = (if spec_is_uma o && (1 <? v) then Panic else Ok (spec_inputs v o)) /\
    output_operands (spec_props o) v = Ok (spec_outputs o) /\
    Opcode_output_operands o v = Ok (spec_outputs o) /\
    requires_kernel_mode (spec_props o) = spec_kernel o /\
    can_be_used_in_static_context (spec_props o) = negb (spec_not_static o).
Proof. exact pf_C60_descriptors. Qed.
Print Assumptions C60_descriptors.

(** Two opcodes have the same descriptor name exactly when they belong to one family. *)
Theorem C60_names :
  forall o o', name (spec_props o) = name (spec_props o') <->
    Opcode_variant_idx o = Opcode_variant_idx o'.
Proof. exact pf_C60_names. Qed.
Print Assumptions C60_names.

Example C60_example :
  variants_data (spec_props (Op_Log LogOpcode_Event)) 1
  = Ok [mkOpcodeVariantData 0 0 0; mkOpcodeVariantData 1 0 0; mkOpcodeVariantData 2 1 0;
        mkOpcodeVariantData 3 1 0; mkOpcodeVariantData 4 0 0].
Proof. exact pf_C60_example. Qed.
