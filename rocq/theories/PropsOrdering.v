(** * Derived orderings (C68, C69)

    Statements only: each proof is the lemma of the same name in [ProofsOrdering]. *)

From Coq Require Import Arith NArith List Bool String Ascii.
From Verif Require Import Machine Operands OpcodeTrait Opcodes AllOpcodes Tables Decoding Abi
  Ordering SpecIsa SpecFamilies SpecCodec SpecAbi SpecOrdering ProofsOrdering.
Import ListNotations.
Open Scope N_scope.

(** Variants are ordered by family, number within the family, source, destination and
    flags; this is a total order. *)
Theorem C68_variants :
  total_order OpcodeVariant_cmp /\
  (forall x y, OpcodeVariant_cmp x y = Lt <-> spec_key x < spec_key y) /\
  (forall x y, spec_key x = spec_key y -> x = y).
Proof. exact pf_C68_variants. Qed.
Print Assumptions C68_variants.

(** The parts of a variant: opcodes by family and number within it (the circuit bits),
    operands by kind and mode, conditions by their encoding. *)
Theorem C68_parts :
  total_order Opcode_cmp /\ total_order Operand_cmp /\ total_order Condition_cmp /\
  total_order ImmMemHandlerFlags_cmp /\ total_order RegOrImmFlags_cmp /\
  (forall a b, Opcode_cmp a b = Lt <->
     Opcode_variant_idx a < Opcode_variant_idx b \/
     Opcode_variant_idx a = Opcode_variant_idx b /\
     Opcode_materialize_subvariant_idx a < Opcode_materialize_subvariant_idx b) /\
  (forall a b, Operand_cmp a b = Lt <-> spec_operand_rank a < spec_operand_rank b) /\
  (forall a b, Condition_cmp a b = Lt <-> spec_cond_number a < spec_cond_number b) /\
  (forall a b, ImmMemHandlerFlags_cmp a b = Lt <->
     ImmMemHandlerFlags_variant_index a < ImmMemHandlerFlags_variant_index b) /\
  (forall a b, RegOrImmFlags_cmp a b = Lt <->
     RegOrImmFlags_variant_index a < RegOrImmFlags_variant_index b).
Proof. exact pf_C68_parts. Qed.
Print Assumptions C68_parts.

(** The opcode number does not follow this order exactly for the pairs named in
    [spec_out_of_order]. *)
Theorem C68_numbering :
  forall m x y nx ny,
    OPCODE_TO_CANONICAL_INDEX_LOOKUP_MAP = Ok m ->
    map_get m x = Some nx -> map_get m y = Some ny -> OpcodeVariant_cmp x y = Lt ->
    (ny < nx <-> spec_out_of_order x y = true) /\ nx <> ny.
Proof. exact pf_C68_numbering. Qed.
Print Assumptions C68_numbering.

(** Expected: sorting variants sorts their numbers.  False. *)
Theorem C68_refuted :
  exists x y nx ny m,
    OPCODE_TO_CANONICAL_INDEX_LOOKUP_MAP = Ok m /\
    map_get m x = Some nx /\ map_get m y = Some ny /\
    OpcodeVariant_cmp x y = Lt /\ ny < nx.
Proof. exact pf_C68_refuted. Qed.
Print Assumptions C68_refuted.

(** Fat pointers are ordered by offset first; packed, the length counts most.  Both are total
    orders on pointers, and they disagree. *)
Theorem C68_pointers :
  total_order FatPointer_cmp /\
  (forall p q, FatPointer_cmp p q = Lt <->
     fp_offset p < fp_offset q \/ fp_offset p = fp_offset q /\
     (fp_memory_page p < fp_memory_page q \/ fp_memory_page p = fp_memory_page q /\
      (fp_start p < fp_start q \/ fp_start p = fp_start q /\ fp_length p < fp_length q))) /\
  ~ (forall p q, fat_pointer_ok p -> fat_pointer_ok q -> FatPointer_cmp p q = Lt ->
       u256_value (FatPointer_to_u256 p) < u256_value (FatPointer_to_u256 q)) /\
  (forall p q, fat_pointer_ok p -> fat_pointer_ok q ->
     FatPointer_cmp p q = Eq <->
     u256_value (FatPointer_to_u256 p) = u256_value (FatPointer_to_u256 q)).
Proof. exact pf_C68_pointers. Qed.
Print Assumptions C68_pointers.

Example C68_example :
  let ctx := mkOpcodeVariant (Op_Context ContextOpcode_This) RegOnly RegOnly (false, false) in
  let near := mkOpcodeVariant (Op_NearCall nearCallOpcode) RegOnly RegOnly (false, false) in
  let log := mkOpcodeVariant (Op_Log LogOpcode_Event) RegOnly RegOnly (true, false) in
  OpcodeVariant_cmp ctx near = Lt /\ spec_number ctx = Some 1040 /\ spec_number near = Some 1039 /\
  OpcodeVariant_cmp near log = Lt /\ spec_number log = Some 1055 /\
  spec_out_of_order near log = false.
Proof. exact pf_C68_example. Qed.

(** Every comparison derived for an ABI structure, and for the variant data, is the total order
    by its fields in declaration order. *)
Theorem C69_fields :
  ordered_by FatPointer_cmp fat_pointer_fields /\
  ordered_by FarCallABI_cmp far_call_fields /\
  ordered_by RetABI_cmp ret_fields /\
  ordered_by NearCallABI_cmp (fun a => [nc_ergs_passed a]) /\
  ordered_by PrecompileCallABI_cmp precompile_fields /\
  ordered_by PrecompileCallInnerABI_cmp inner_fields /\
  ordered_by VmMetaParameters_cmp meta_fields /\
  ordered_by OpcodeVariantData_cmp variant_data_fields.
Proof. exact pf_C69_fields. Qed.
Print Assumptions C69_fields.

(** Packed into a 256-bit word the same fields count in the opposite order. *)
Theorem C69_packed :
  (forall p q, fat_pointer_ok p -> fat_pointer_ok q ->
     (u256_value (FatPointer_to_u256 p) < u256_value (FatPointer_to_u256 q) <->
      lex_before (rev (fat_pointer_fields p)) (rev (fat_pointer_fields q)))) /\
  (forall p q, inner_ok p -> inner_ok q ->
     (u256_value (PrecompileCallInnerABI_to_u256 p) < u256_value (PrecompileCallInnerABI_to_u256 q) <->
      lex_before (rev (inner_fields p)) (rev (inner_fields q)))) /\
  (forall p q, meta_ok p -> meta_ok q ->
     (u256_value (VmMetaParameters_to_u256 p) < u256_value (VmMetaParameters_to_u256 q) <->
      lex_before (rev (meta_fields p)) (rev (meta_fields q)))).
Proof. exact pf_C69_packed. Qed.
Print Assumptions C69_packed.

(** Expected: packing preserves the order.  False of all three packed structures. *)
Theorem C69_refuted :
  ~ (forall p q, fat_pointer_ok p -> fat_pointer_ok q -> FatPointer_cmp p q = Lt ->
       u256_value (FatPointer_to_u256 p) < u256_value (FatPointer_to_u256 q)) /\
  ~ (forall p q, inner_ok p -> inner_ok q -> PrecompileCallInnerABI_cmp p q = Lt ->
       u256_value (PrecompileCallInnerABI_to_u256 p) < u256_value (PrecompileCallInnerABI_to_u256 q)) /\
  ~ (forall p q, meta_ok p -> meta_ok q -> VmMetaParameters_cmp p q = Lt ->
       u256_value (VmMetaParameters_to_u256 p) < u256_value (VmMetaParameters_to_u256 q)).
Proof. exact pf_C69_refuted. Qed.
Print Assumptions C69_refuted.

(** Unpacked near-call parameters are ordered as the low 32 bits of the words; forwarding modes
    as their bytes, for the three defined bytes. *)
Theorem C69_unpacked :
  (forall v w, u256_ok v -> u256_ok w ->
     NearCallABI_cmp (NearCallABI_from_u256 v) (NearCallABI_from_u256 w)
     = (u256_value v mod 2 ^ 32 ?= u256_value w mod 2 ^ 32)) /\
  (forall b c, b < 3 -> c < 3 ->
     FarCallForwardPageType_cmp (FarCallForwardPageType_from_u8 b) (FarCallForwardPageType_from_u8 c)
     = (b ?= c) /\
     RetForwardPageType_cmp (RetForwardPageType_from_u8 b) (RetForwardPageType_from_u8 c) = (b ?= c)) /\
  total_order FarCallForwardPageType_cmp /\ total_order RetForwardPageType_cmp.
Proof. exact pf_C69_unpacked. Qed.
Print Assumptions C69_unpacked.

Example C69_example :
  let p := mkVmMetaParameters 7 100 5 1 0 2 in
  let q := mkVmMetaParameters 7 101 4 1 0 1 in
  meta_ok p /\ meta_ok q /\ VmMetaParameters_cmp p q = Lt /\
  u256_value (VmMetaParameters_to_u256 q) < u256_value (VmMetaParameters_to_u256 p) /\
  lex_before (meta_fields p) (meta_fields q).
Proof. exact pf_C69_example. Qed.
