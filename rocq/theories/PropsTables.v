(** * Opcode tables, bitmasks and prices (C12-C23, C27, C28)

    Statements only: each proof is the lemma of the same name in [ProofsTables]. *)

From Coq Require Import Arith NArith List Bool String Ascii.
From Verif Require Import Machine Constants Operands OpcodeTrait Opcodes AllOpcodes Tables
  Decoding PricingGen Display SpecIsa SpecFamilies ProofsTables.
Import ListNotations.
Open Scope N_scope.

(** The opcode table: 2048 entries, the invalid variant at 0, distinct other variants at
    1..1092, padding above; it contains the legal variants of version 1 and nothing else. *)
Theorem C12_table :
  exists t, OPCODES_TABLE = Ok t /\
    List.length t = N.to_nat 2048 /\
    nth_error t 0 = Some spec_invalid /\
    (forall i, 1 <= i < 1093 ->
       exists x, nth_error t (N.to_nat i) = Some x /\ spec_is_invalid (opcode x) = false) /\
    (forall i j, i < 1093 -> j < 1093 ->
       nth_error t (N.to_nat i) = nth_error t (N.to_nat j) -> i = j) /\
    (forall i, 1093 <= i < 2048 -> nth_error t (N.to_nat i) = Some spec_invalid) /\
    (forall x, In x t <-> spec_well_formed 1 x = true).
Proof. exact pf_C12_table. Qed.
Print Assumptions C12_table.

(** The table written out in full. *)
Theorem C12_exact :
  OPCODES_TABLE = Ok (spec_table_v1 ++ repeat spec_invalid (N.to_nat 955)).
Proof. exact pf_C12_exact. Qed.
Print Assumptions C12_exact.

Example C12_example :
  spec_well_formed 1 (mkOpcodeVariant (Op_Sub SubOpcode_Sub) (Full UseCodePage)
    (Full UseStackWithPushPop) (true, true)) = true /\
  spec_well_formed 1 (mkOpcodeVariant (Op_Sub SubOpcode_Sub) (Full UseCodePage)
    (Full UseCodePage) (true, true)) = false /\
  spec_well_formed 1 (mkOpcodeVariant (Op_Add AddOpcode_Add) (Full UseCodePage)
    (Full UseRegOnly) (false, true)) = false.
Proof. exact pf_C12_example. Qed.

(** The canonical map gives the first position in the table, is undefined elsewhere, and its
    value is the mixed-radix opcode number. *)
Theorem C13_canonical :
  exists t m, OPCODES_TABLE = Ok t /\ OPCODE_TO_CANONICAL_INDEX_LOOKUP_MAP = Ok m /\
    (forall x i, map_get m x = Some i <->
       nth_error t (N.to_nat i) = Some x /\
       (forall j, j < i -> nth_error t (N.to_nat j) <> Some x)) /\
    (forall x, map_get m x = None <-> ~ In x t) /\
    (forall x, map_get m x = spec_number x).
Proof. exact pf_C13_canonical. Qed.
Print Assumptions C13_canonical.

Example C13_example :
  spec_number (mkOpcodeVariant (Op_Shift ShiftOpcode_Rol) (Full UseImm16Only)
    (Full UseStackWithOffset) (true, false)) = Some (655 + (4 * 4 + 2) * 4 + 2) /\
  spec_number (mkOpcodeVariant (Op_UMA UMAOpcode_AuxHeapRead) (RegOrImm RI_UseImm16Only)
    RegOnly (true, false)) = Some 1090 /\
  spec_number (mkOpcodeVariant (Op_UMA UMAOpcode_AuxHeapRead) RegOnly RegOnly (true, false))
    = None.
Proof. exact pf_C13_example. Qed.

(** Both map builders, on any table: they panic exactly when a variant other than the
    invalid one repeats, and otherwise look up the first position. *)
Theorem C14_any_table :
  forall t,
    (canonical_map_of_table t = Panic <-> spec_repeats t) /\
    (monotonic_map_of_table t = Panic <-> spec_repeats t) /\
    (forall m, canonical_map_of_table t = Ok m ->
       forall x, map_get m x = first_index t x) /\
    (forall m, monotonic_map_of_table t = Ok m ->
       forall x, map_get m x = option_map mkVariantMonotonicNumber (first_index t x)).
Proof. exact pf_C14_any_table. Qed.
Print Assumptions C14_any_table.

(** [first_index] is what its name says. *)
Theorem C14_first_index :
  forall t x i,
    first_index t x = Some i <->
    nth_error t (N.to_nat i) = Some x /\ (forall j, j < i -> nth_error t (N.to_nat j) <> Some x).
Proof. exact pf_C14_first_index. Qed.
Print Assumptions C14_first_index.

(** The two statics agree on every variant. *)
Theorem C14_agree :
  exists m m', OPCODE_TO_CANONICAL_INDEX_LOOKUP_MAP = Ok m /\
    OPCODE_TO_MONOTONIC_INDEX_NUMBER_MAP = Ok m' /\
    (forall x, option_map VariantMonotonicNumber_into_usize (map_get m' x) = map_get m x) /\
    (forall x, contains_key m' x = contains_key m x).
Proof. exact pf_C14_agree. Qed.
Print Assumptions C14_agree.

(** A table with a repeated variant makes both builders panic; repeating the invalid variant
    does not. *)
Example C14_example :
  spec_repeats [spec_invalid; OpcodeVariant_default; spec_invalid; OpcodeVariant_default] /\
  ~ spec_repeats [spec_invalid; OpcodeVariant_default; spec_invalid].
Proof. exact pf_C14_example. Qed.

(** Semantic equality is equality up to the two spellings of a register source. *)
Theorem C17_meaning :
  forall a b, semantically_equal a b = true <-> spec_equivalent a b.
Proof. exact pf_C17_meaning. Qed.
Print Assumptions C17_meaning.

(** It is an equivalence relation. *)
Theorem C17_equivalence :
  (forall a, semantically_equal a a = true) /\
  (forall a b, semantically_equal a b = semantically_equal b a) /\
  (forall a b c, semantically_equal a b = true -> semantically_equal b c = true ->
     semantically_equal a c = true).
Proof. exact pf_C17_equivalence. Qed.
Print Assumptions C17_equivalence.

(** Equivalent variants cannot be told apart by bitmask, price or attributes. *)
Theorem C17_observations :
  forall a b, semantically_equal a b = true ->
    (forall bld v, opcode_as_integer_bitmask bld a v = opcode_as_integer_bitmask bld b v) /\
    OpcodeVariant_ergs_price a = OpcodeVariant_ergs_price b /\
    OpcodeVariant_requires_kernel_mode a = OpcodeVariant_requires_kernel_mode b /\
    OpcodeVariant_can_be_used_in_static_context a
      = OpcodeVariant_can_be_used_in_static_context b /\
    OpcodeVariant_is_explicit_panic a = OpcodeVariant_is_explicit_panic b /\
    OpcodeVariant_swap_operands a = OpcodeVariant_swap_operands b.
Proof. exact pf_C17_observations. Qed.
Print Assumptions C17_observations.

(** The derived equality of variants is equality. *)
Theorem C17_derived_equality :
  forall a b, OpcodeVariant_eqb a b = true <-> a = b.
Proof. exact pf_C17_derived_equality. Qed.
Print Assumptions C17_derived_equality.

Example C17_example :
  let reg := mkOpcodeVariant (Op_UMA UMAOpcode_HeapRead) RegOnly RegOnly (true, false) in
  let ri := mkOpcodeVariant (Op_UMA UMAOpcode_HeapRead) (RegOrImm RI_UseRegOnly) RegOnly
              (true, false) in
  let imm := mkOpcodeVariant (Op_UMA UMAOpcode_HeapRead) (RegOrImm RI_UseImm16Only) RegOnly
              (true, false) in
  semantically_equal reg ri = true /\ reg <> ri /\ semantically_equal reg imm = false.
Proof. exact pf_C17_example. Qed.

(** Version 1 extends version 0: at every number below 1085 it holds an equivalent variant
    (with the same mask, price and attributes), the numbers 1085..1092 are new, everything
    above is invalid in both.  Widths and builds are arbitrary. *)
Theorem C15_extension :
  forall bld0 bld1 b0 b1 t0 t1,
    synthesize_opcode_decoding_tables bld0 b0 0 = Ok t0 ->
    synthesize_opcode_decoding_tables bld1 b1 1 = Ok t1 ->
    (forall i x, i < 1085 -> nth_error t0 (N.to_nat i) = Some x ->
       exists y, nth_error t1 (N.to_nat i) = Some y /\
         spec_equivalent x y /\
         opcode y = opcode x /\ flags y = flags x /\ dst0_operand_type y = dst0_operand_type x /\
         (forall bld v, opcode_as_integer_bitmask bld y v = opcode_as_integer_bitmask bld x v) /\
         OpcodeVariant_ergs_price y = OpcodeVariant_ergs_price x /\
         OpcodeVariant_requires_kernel_mode y = OpcodeVariant_requires_kernel_mode x /\
         OpcodeVariant_can_be_used_in_static_context y
           = OpcodeVariant_can_be_used_in_static_context x) /\
    (forall i y, 1085 <= i < 1093 -> nth_error t1 (N.to_nat i) = Some y ->
       src0_operand_type y = RegOrImm RI_UseImm16Only /\ spec_is_uma (opcode y) = true /\
       (forall x, nth_error t0 (N.to_nat i) = Some x -> x = spec_invalid)) /\
    (forall i x, 1093 <= i -> nth_error t0 (N.to_nat i) = Some x -> x = spec_invalid) /\
    (forall i y, 1093 <= i -> nth_error t1 (N.to_nat i) = Some y -> y = spec_invalid).
Proof. exact pf_C15_extension. Qed.
Print Assumptions C15_extension.

(** Both tables exist at the default width. *)
Example C15_example :
  exists t0 t1, synthesize_opcode_decoding_tables Debug 11 0 = Ok t0 /\
    synthesize_opcode_decoding_tables Debug 11 1 = Ok t1 /\
    nth_error t0 (N.to_nat 1076)
      = Some (mkOpcodeVariant (Op_UMA UMAOpcode_HeapRead) RegOnly RegOnly (true, false)) /\
    nth_error t1 (N.to_nat 1076)
      = Some (mkOpcodeVariant (Op_UMA UMAOpcode_HeapRead) (RegOrImm RI_UseRegOnly) RegOnly
                (true, false)).
Proof. exact pf_C15_example. Qed.

(** The test used below decides equivalence. *)
Theorem C16_test :
  forall a b, spec_equivalentb a b = true <-> spec_equivalent a b.
Proof. exact pf_C16_test. Qed.
Print Assumptions C16_test.

(** Extending any list of old variants by any list of new ones. *)
Theorem C16_extension :
  forall old new,
    (find_new_opcodes old new = Panic <->
     exists o, In o old /\ forall n, In n new -> ~ spec_equivalent o n) /\
    (forall old' added, find_new_opcodes old new = Ok (old', added) ->
       List.length old' = List.length old /\
       (forall i o o', nth_error old i = Some o -> nth_error old' i = Some o' ->
          spec_equivalent o o') /\
       (forall i o, nth_error old i = Some o ->
          (forall p, In p (firstn i old) -> ~ spec_equivalent o p) ->
          nth_error old' i = Some (last (filter (spec_equivalentb o) new) o)) /\
       (forall i o p, nth_error old i = Some o ->
          In p (firstn i old) -> spec_equivalent o p -> nth_error old' i = Some o) /\
       added = filter (fun n => negb (existsb (spec_equivalentb n) old)) new /\
       (forall n, In n new -> exists o, In o (old' ++ added) /\ spec_equivalent n o)).
Proof. exact pf_C16_extension. Qed.
Print Assumptions C16_extension.

(** A permuted and extended list: positions are kept, one source is re-typed, one variant is
    added; and an old variant that disappeared. *)
Example C16_example :
  let a := mkOpcodeVariant (Op_UMA UMAOpcode_HeapRead) RegOnly RegOnly (true, false) in
  let a' := mkOpcodeVariant (Op_UMA UMAOpcode_HeapRead) (RegOrImm RI_UseRegOnly) RegOnly
              (true, false) in
  let b := OpcodeVariant_default in
  let c := mkOpcodeVariant (Op_UMA UMAOpcode_HeapRead) (RegOrImm RI_UseImm16Only) RegOnly
              (true, false) in
  find_new_opcodes [a; b] [c; b; a'] = Ok ([a'; b], [c]) /\
  find_new_opcodes [a; b] [c; a'] = Panic.
Proof. exact pf_C16_example. Qed.

(** Synthesis for every width: below 64 the version's variants padded to [2^b], or a panic
    when they do not fit.  A width of 64 or more panics when overflow checks are on; without
    them the shift is taken modulo 64. *)
Theorem C18_synthesis :
  forall bld b v,
    (b < 64 ->
     synthesize_opcode_decoding_tables bld b v =
       if 2 ^ b <? spec_count v then Panic
       else Ok (spec_table v ++ repeat spec_invalid (N.to_nat (2 ^ b - spec_count v)))) /\
    (64 <= b ->
     synthesize_opcode_decoding_tables Debug b v = Panic /\
     synthesize_opcode_decoding_tables Release b v
       = synthesize_opcode_decoding_tables Release (b mod 64) v).
Proof. exact pf_C18_synthesis. Qed.
Print Assumptions C18_synthesis.

(** The version's variants: 1085 of them in version 0, 1093 in version 1, and version 1 again
    for every later version. *)
Theorem C18_counts :
  forall v, List.length (spec_table v) = N.to_nat (spec_count v) /\
    spec_count v = (if v =? 0 then 1085 else 1093) /\
    (1 <= v -> spec_table v = spec_table 1).
Proof. exact pf_C18_counts. Qed.
Print Assumptions C18_counts.

(** The table has [2^b] entries, and widening it only appends invalid entries. *)
Theorem C18_widening :
  forall bld b b' v t,
    b <= b' -> b' < 64 ->
    synthesize_opcode_decoding_tables bld b v = Ok t ->
    len t = 2 ^ b /\
    synthesize_opcode_decoding_tables bld b' v
      = Ok (t ++ repeat spec_invalid (N.to_nat (2 ^ b' - 2 ^ b))).
Proof. exact pf_C18_widening. Qed.
Print Assumptions C18_widening.

(** The build profile does not matter below width 64, so the table static is the same in
    both. *)
Theorem C18_build :
  (forall b v, b < 64 ->
     synthesize_opcode_decoding_tables Debug b v = synthesize_opcode_decoding_tables Release b v) /\
  (forall bld,
     OPCODES_TABLE =
     let* t := synthesize_opcode_decoding_tables bld OPCODES_TABLE_WIDTH DEFAULT_ISA_VERSION in
     into_array (2 ^ OPCODES_TABLE_WIDTH) t).
Proof. exact pf_C18_build. Qed.
Print Assumptions C18_build.

(** The smallest width that fits is 11 in both versions. *)
Example C18_example :
  (2 ^ 10 <? spec_count 0) = true /\ (2 ^ 11 <? spec_count 0) = false /\
  (2 ^ 10 <? spec_count 1) = true /\ (2 ^ 11 <? spec_count 7) = false.
Proof. exact pf_C18_example. Qed.

(** The legacy synthesis equals the current one for version 0 and panics for all others. *)
Theorem C19_legacy :
  forall bld b v,
    synthesize_opcode_decoding_tables_legacy bld b v =
    if v =? 0 then synthesize_opcode_decoding_tables bld b 0 else Panic.
Proof. exact pf_C19_legacy. Qed.
Print Assumptions C19_legacy.

Example C19_example :
  exists t, synthesize_opcode_decoding_tables_legacy Debug 11 0 = Ok t /\
    nth_error t (N.to_nat 1084)
      = Some (mkOpcodeVariant (Op_UMA UMAOpcode_FatPointerRead) RegOnly RegOnly (true, false)).
Proof. exact pf_C19_example. Qed.

(** Enumeration of a known version: no duplicates, exactly the legal variants, as many as
    the density formula says; both panic on every other version. *)
Theorem C20_enumeration :
  forall v,
    (v <= 1 -> exists l n, all_variants_in_version v = Ok l /\
       compute_encoding_density v = Ok n /\
       NoDup l /\ len l = n /\ n = (if v =? 0 then 1085 else 1093) /\
       (forall x, In x l <-> spec_well_formed v x = true) /\
       l = spec_enumeration v) /\
    (1 < v -> all_variants_in_version v = Panic /\ compute_encoding_density v = Panic).
Proof. exact pf_C20_enumeration. Qed.
Print Assumptions C20_enumeration.

Example C20_example :
  nth_error (spec_enumeration 1) (N.to_nat 1078)
    = Some (mkOpcodeVariant (Op_UMA UMAOpcode_HeapRead) (RegOrImm RI_UseImm16Only) RegOnly
              (true, false)) /\
  spec_well_formed 0 (mkOpcodeVariant (Op_UMA UMAOpcode_HeapRead) (RegOrImm RI_UseImm16Only)
                        RegOnly (true, false)) = false.
Proof. exact pf_C20_example. Qed.

(** Every bit of the circuit bitmask; unsupported versions panic. *)
Theorem C21_bits :
  forall bld x v,
    (v <= 1 -> exists m, opcode_as_integer_bitmask bld x v = Ok m /\
       (forall i, N.testbit m i = spec_mask_bit x i) /\ m < 2 ^ 51) /\
    (1 < v -> opcode_as_integer_bitmask bld x v = Panic).
Proof. exact pf_C21_bits. Qed.
Print Assumptions C21_bits.

(** For a legal destination the fields are one-hot and nothing else is set. *)
Theorem C21_one_hot :
  forall bld x v m,
    spec_operand_mode (dst0_operand_type x) < 4 ->
    opcode_as_integer_bitmask bld x v = Ok m ->
    (forall i, i < 16 -> N.testbit m i = true <-> i = spec_family (opcode x)) /\
    (forall i, i < 10 -> N.testbit m (16 + i) = true <-> i = spec_sub (opcode x)) /\
    N.testbit m 26 = fst (flags x) /\
    N.testbit m 27 = snd (flags x) /\
    (forall i, i < 6 -> N.testbit m (28 + i) = true
       <-> i = spec_operand_mode (src0_operand_type x)) /\
    (forall i, i < 4 -> N.testbit m (34 + i) = true
       <-> i = spec_operand_mode (dst0_operand_type x)) /\
    (forall i, 38 <= i < 48 -> N.testbit m i = false) /\
    N.testbit m 48 = spec_kernel (opcode x) /\
    N.testbit m 49 = negb (spec_not_static (opcode x)) /\
    N.testbit m 50 = spec_is_invalid (opcode x) /\
    (forall i, 51 <= i -> N.testbit m i = false) /\
    spec_family (opcode x) < 16 /\ spec_sub (opcode x) < 10 /\
    spec_operand_mode (src0_operand_type x) < 6.
Proof. exact pf_C21_one_hot. Qed.
Print Assumptions C21_one_hot.

(** On legal variants of one version, and on the table, the bitmask determines the variant. *)
Theorem C21_injective :
  (forall bld bld' v x y, v <= 1 ->
     spec_well_formed v x = true -> spec_well_formed v y = true ->
     opcode_as_integer_bitmask bld x v = opcode_as_integer_bitmask bld' y v -> x = y) /\
  (exists t ms, OPCODES_TABLE = Ok t /\ OPCODES_PROPS_INTEGER_BITMASKS = Ok ms /\
     List.length ms = List.length t /\
     forall i j x y m, nth_error t i = Some x -> nth_error t j = Some y ->
       nth_error ms i = Some m -> nth_error ms j = Some m -> x = y).
Proof. exact pf_C21_injective. Qed.
Print Assumptions C21_injective.

(** [log.event first] : family 12, sub-opcode 3, flag 0, register operands, kernel only,
    not static. *)
Example C21_example :
  opcode_as_integer_bitmask Debug
    (mkOpcodeVariant (Op_Log LogOpcode_Event) RegOnly RegOnly (true, false)) 1
  = Ok (2 ^ 12 + 2 ^ 19 + 2 ^ 26 + 2 ^ 28 + 2 ^ 34 + 2 ^ 48).
Proof. exact pf_C21_example. Qed.

(** Decomposition of any slice is element-wise. *)
Theorem C22_slices :
  forall bld l v,
    (v <= 1 -> exists ms, synthesize_bit_decomposition_table bld l v = Ok ms /\
       Forall2 (fun x m => opcode_as_integer_bitmask bld x v = Ok m) l ms) /\
    (1 < v -> synthesize_bit_decomposition_table bld l v =
              match l with [] => Ok [] | _ :: _ => Panic end).
Proof. exact pf_C22_slices. Qed.
Print Assumptions C22_slices.

(** The static is the decomposition of the table, entry by entry. *)
Theorem C22_static :
  exists t ms, OPCODES_TABLE = Ok t /\ OPCODES_PROPS_INTEGER_BITMASKS = Ok ms /\
    Forall2 (fun x m => forall i, N.testbit m i = spec_mask_bit x i) t ms.
Proof. exact pf_C22_static. Qed.
Print Assumptions C22_static.

(** The build profile does not matter. *)
Theorem C22_build :
  (forall l v, synthesize_bit_decomposition_table Debug l v
               = synthesize_bit_decomposition_table Release l v) /\
  (forall bld, OPCODES_PROPS_INTEGER_BITMASKS =
     let* table := OPCODES_TABLE in
     let* t := synthesize_bit_decomposition_table bld table DEFAULT_ISA_VERSION in
     into_array (2 ^ OPCODES_TABLE_WIDTH) t).
Proof. exact pf_C22_build. Qed.
Print Assumptions C22_build.

Example C22_example :
  synthesize_bit_decomposition_table Debug [spec_invalid; spec_invalid] 0
  = Ok [2 ^ 0 + 2 ^ 16 + 2 ^ 28 + 2 ^ 34 + 2 ^ 49 + 2 ^ 50;
        2 ^ 0 + 2 ^ 16 + 2 ^ 28 + 2 ^ 34 + 2 ^ 49 + 2 ^ 50].
Proof. exact pf_C22_example. Qed.

(** Widths of the description, per version. *)
Theorem C23_widths :
  forall v,
    (v <= 1 ->
     max_num_variants_for_version v = Ok 10 /\ max_num_flags_for_version v = Ok 2 /\
     total_description_bits_for_version v = Ok 38 /\
     total_description_bits_rounded_for_version v = Ok 48 /\
     total_opcode_description_and_aux_bits_for_version v = Ok 51) /\
    (1 < v ->
     max_num_variants_for_version v = Panic /\ max_num_flags_for_version v = Ok 2 /\
     total_description_bits_for_version v = Panic /\
     total_description_bits_rounded_for_version v = Panic /\
     total_opcode_description_and_aux_bits_for_version v = Panic).
Proof. exact pf_C23_widths. Qed.
Print Assumptions C23_widths.

(** The rounded width is the least multiple of 16 holding the description, and everything
    fits 64 bits. *)
Theorem C23_rounding :
  forall v t r a,
    total_description_bits_for_version v = Ok t ->
    total_description_bits_rounded_for_version v = Ok r ->
    total_opcode_description_and_aux_bits_for_version v = Ok a ->
    (forall k, t <= 16 * k <-> r <= 16 * k) /\ r mod 16 = 0 /\ a = r + 3 /\ a <= 64.
Proof. exact pf_C23_rounding. Qed.
Print Assumptions C23_rounding.

(** The text of the format description. *)
Theorem C23_format :
  forall v, compute_decoding_format v =
    if v <=? 1 then
      Ok ("38 bits in total." ++ String (ascii_of_N 10) "" ++
          "16 bit flags for opcode|10 bit flags for variant|2 bit flags for flags|"
          ++ "6 bits flags for input type|4 bit flags for output type")%string
    else Panic.
Proof. exact pf_C23_format. Qed.
Print Assumptions C23_format.

(** The compile-time counts agree with the trait implementations. *)
Theorem C23_constants :
  exists ops, OPCODE_PROTOTYPES = Ok ops /\ len ops = OPCODE_TYPE_BITS /\
    NUM_LOGICAL_OPCODES = Ok OPCODE_TYPE_BITS /\ OPCODE_TYPE_BITS = 16 /\
    NUM_INPUT_VARIANTS = OPCODE_INPUT_VARIANT_FLAGS /\ OPCODE_INPUT_VARIANT_FLAGS = 6 /\
    NUM_OUTPUT_VARIANTS = OPCODE_OUTPUT_VARIANT_FLAGS /\ OPCODE_OUTPUT_VARIANT_FLAGS = 4 /\
    WIDTH_MULTIPLE = 16 /\ TOTAL_AUX_BITS = 3.
Proof. exact pf_C23_constants. Qed.
Print Assumptions C23_constants.

Example C23_example :
  total_description_bits_rounded_for_version 0 = Ok 48 /\
  total_description_bits_rounded_for_version 2 = Panic.
Proof. exact pf_C23_example. Qed.

(** The price table holds the price of each table entry. *)
Theorem C27_table :
  exists t p, OPCODES_TABLE = Ok t /\ OPCODES_PRICES = Ok p /\
    List.length p = List.length t /\
    forall i x, nth_error t i = Some x ->
      nth_error p i = Some (spec_price (opcode x)) /\
      nth_error p i = Some (OpcodeVariant_ergs_price x).
Proof. exact pf_C27_table. Qed.
Print Assumptions C27_table.

(** Prices per opcode: the maximal [u32] for the invalid opcode, 5 to 156250 otherwise. *)
Theorem C27_prices :
  forall x,
    OpcodeVariant_ergs_price x = spec_price (opcode x) /\
    Opcode_ergs_price (opcode x) = spec_price (opcode x) /\
    spec_price (opcode x) < 2 ^ 32 /\
    (spec_is_invalid (opcode x) = true -> spec_price (opcode x) = 2 ^ 32 - 1) /\
    (spec_is_invalid (opcode x) = false -> 5 <= spec_price (opcode x) <= 156250).
Proof. exact pf_C27_prices. Qed.
Print Assumptions C27_prices.

Example C27_example :
  spec_price (Op_Log LogOpcode_ToL1Message) = 156250 /\ spec_price (Op_Ret RetOpcode_Ok) = 5.
Proof. exact pf_C27_example. Qed.

(** Kernel-only and static-forbidden opcodes. *)
Theorem C28_attributes :
  forall x,
    OpcodeVariant_requires_kernel_mode x = spec_kernel (opcode x) /\
    OpcodeVariant_can_be_used_in_static_context x = negb (spec_not_static (opcode x)) /\
    OpcodeVariant_is_explicit_panic x = spec_is_invalid (opcode x) /\
    Opcode_requires_kernel_mode (opcode x) = spec_kernel (opcode x) /\
    Opcode_can_be_used_in_static_context (opcode x) = negb (spec_not_static (opcode x)).
Proof. exact pf_C28_attributes. Qed.
Print Assumptions C28_attributes.

(** The attribute bits of the bitmask table. *)
Theorem C28_bits :
  exists t ms, OPCODES_TABLE = Ok t /\ OPCODES_PROPS_INTEGER_BITMASKS = Ok ms /\
    forall i x m, nth_error t i = Some x -> nth_error ms i = Some m ->
      N.testbit m 48 = spec_kernel (opcode x) /\
      N.testbit m 49 = negb (spec_not_static (opcode x)) /\
      N.testbit m 50 = spec_is_invalid (opcode x).
Proof. exact pf_C28_bits. Qed.
Print Assumptions C28_bits.

Example C28_example :
  spec_kernel (Op_FarCall FarCallOpcode_Mimic) = true /\
  spec_not_static (Op_FarCall FarCallOpcode_Mimic) = false /\
  spec_kernel (Op_Log LogOpcode_StorageWrite) = false /\
  spec_not_static (Op_Log LogOpcode_StorageWrite) = true.
Proof. exact pf_C28_example. Qed.
