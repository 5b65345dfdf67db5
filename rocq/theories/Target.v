(** * The functions that compute with [usize], for an arbitrary pointer width.
    Definitions only.

    The other model files take [usize] to be 64 bits wide, as on the usual targets.  Here the
    functions in which a cast to [usize], a shift of a [usize] or a [usize] method occurs are
    written again with the width [p] of [usize] as a parameter.  Overflow.v does the same for the
    counts and widths that are added and multiplied as [usize]. *)

From Verif Require Import Machine Constants Operands OpcodeTrait Opcodes AllOpcodes Tables
  Decoding.

(** [x as usize]. Source: decoding/encoding_mode_production.rs:33-37. *)
Definition as_usize (p x : N) : N := x mod 2 ^ p.

(** [usize::next_power_of_two]: an overflow panics in debug and gives 0 in release. Source:
    decoding/encoding_mode_production.rs:128, 134. *)
Definition next_power_of_two_on (bld : build) (p n : N) : res N :=
  let r := next_power_of_two n in
  if r <? 2 ^ p then Ok r
  else match bld with Debug => Panic | Release => Ok 0 end.

(** decoding/encoding_mode_production.rs:29-38 *)
Definition variant_and_condition_from_u64_word_on (p raw_value : N)
  : res (OpcodeVariant * Condition * N) :=
  let variant_bits := N.land raw_value prod_VARIANT_MASK in
  let* table := OPCODES_TABLE in
  let* opcode_variant := index table (as_usize p variant_bits) in
  let condition_bits := shr (N.land raw_value prod_CONDITION_MASK) CONDITIONAL_BITS_SHIFT in
  let* condition := Condition_materialize_variant (as_usize p condition_bits) in
  Ok (opcode_variant, condition, as_usize p variant_bits).

(** decoding/encoding_mode_production.rs:78-107 *)
Definition prod_parse_on (p integer_representaiton : N)
  : res (DecodedOpcode * VariantMonotonicNumber) :=
  let raw_value := integer_representaiton in
  let* (variant, condition, variant_bits) :=
    variant_and_condition_from_u64_word_on p raw_value in
  let src_byte := as_u8 (shr raw_value SRC_REGS_SHIFT) in
  let dst_byte := as_u8 (shr raw_value DST_REGS_SHIFT) in
  let imm_0 := as_u16 (shr raw_value prod_IMM0_SHIFT) in
  let imm_1 := as_u16 (shr raw_value prod_IMM1_SHIFT) in
  let '(src0_reg_idx, src1_reg_idx) := split_as_u4 src_byte in
  let '(dst0_reg_idx, dst1_reg_idx) := split_as_u4 dst_byte in
  let new := mkDecodedOpcode variant condition src0_reg_idx src1_reg_idx
               dst0_reg_idx dst1_reg_idx imm_0 imm_1 in
  Ok (new, VariantMonotonicNumber_from_usize variant_bits).

(** decoding/encoding_mode_production.rs:109-147.  [trailing_zeros] gives a [u32], which is
    cast to [usize]; [variant_bits as u64] and [condition as u64] cast from [usize]. *)
Definition prod_encode_as_integer_on (p : N) (bld : build) (opcode : DecodedOpcode) : res N :=
  let encoding := 0 in
  let* m := OPCODE_TO_CANONICAL_INDEX_LOOKUP_MAP in
  let* variant_bits := unwrap (map_get m (variant opcode)) in
  let* n := next_power_of_two_on bld p variant_bits in
  let* _ := assert_ (as_usize p (trailing_zeros p n) <=? OPCODES_TABLE_WIDTH) in
  let encoding := N.lor encoding (as_u64 variant_bits) in
  let condition := as_usize p (Condition_variant_index (condition opcode)) in
  let* n := next_power_of_two_on bld p condition in
  let* _ := assert_ (as_usize p (trailing_zeros p n) <=? CONDITIONAL_BITS_WIDTH) in
  let encoding := N.lor encoding (shl 64 condition CONDITIONAL_BITS_SHIFT) in
  let* src_registers_byte := merge_u4 bld (src0_reg_idx opcode) (src1_reg_idx opcode) in
  let encoding := N.lor encoding (shl 64 src_registers_byte SRC_REGS_SHIFT) in
  let* dst_registers_byte := merge_u4 bld (dst0_reg_idx opcode) (dst1_reg_idx opcode) in
  let encoding := N.lor encoding (shl 64 dst_registers_byte DST_REGS_SHIFT) in
  let encoding := N.lor encoding (shl 64 (imm_0 opcode) prod_IMM0_SHIFT) in
  let encoding := N.lor encoding (shl 64 (imm_1 opcode) prod_IMM1_SHIFT) in
  Ok encoding.

(** decoding/encoding_mode_testing.rs:29-39 *)
Definition variant_and_condition_from_u128_word_on (p raw_value : N)
  : res (OpcodeVariant * Condition * N) :=
  let raw_value := as_u64 raw_value in
  let variant_bits := N.land raw_value test_VARIANT_MASK in
  let* table := OPCODES_TABLE in
  let* opcode_variant := index table (as_usize p variant_bits) in
  let condition_bits := shr (N.land raw_value test_CONDITION_MASK) CONDITIONAL_BITS_SHIFT in
  let* condition := Condition_materialize_variant (as_usize p condition_bits) in
  Ok (opcode_variant, condition, as_usize p variant_bits).

(** decoding/encoding_mode_testing.rs:79-108 *)
Definition test_parse_on (p integer_representaiton : N)
  : res (DecodedOpcode * VariantMonotonicNumber) :=
  let raw_value := integer_representaiton in
  let* (variant, condition, variant_bits) :=
    variant_and_condition_from_u128_word_on p raw_value in
  let src_byte := as_u8 (shr raw_value SRC_REGS_SHIFT) in
  let dst_byte := as_u8 (shr raw_value DST_REGS_SHIFT) in
  let imm_0 := as_u32 (shr raw_value test_IMM0_SHIFT) in
  let imm_1 := as_u32 (shr raw_value test_IMM1_SHIFT) in
  let '(src0_reg_idx, src1_reg_idx) := split_as_u4 src_byte in
  let '(dst0_reg_idx, dst1_reg_idx) := split_as_u4 dst_byte in
  let new := mkDecodedOpcode variant condition src0_reg_idx src1_reg_idx
               dst0_reg_idx dst1_reg_idx imm_0 imm_1 in
  Ok (new, VariantMonotonicNumber_from_usize variant_bits).

(** decoding/encoding_mode_testing.rs:110-148 *)
Definition test_encode_as_integer_on (p : N) (bld : build) (opcode : DecodedOpcode) : res N :=
  let encoding := 0 in
  let* m := OPCODE_TO_CANONICAL_INDEX_LOOKUP_MAP in
  let* variant_bits := unwrap (map_get m (variant opcode)) in
  let* n := next_power_of_two_on bld p variant_bits in
  let* _ := assert_ (as_usize p (trailing_zeros p n) <=? OPCODES_TABLE_WIDTH) in
  let encoding := N.lor encoding (as_u128 variant_bits) in
  let condition := as_usize p (Condition_variant_index (condition opcode)) in
  let* n := next_power_of_two_on bld p condition in
  let* _ := assert_ (as_usize p (trailing_zeros p n) <=? CONDITIONAL_BITS_WIDTH) in
  let encoding := N.lor encoding (shl 128 condition CONDITIONAL_BITS_SHIFT) in
  let* src_registers_byte := merge_u4 bld (src0_reg_idx opcode) (src1_reg_idx opcode) in
  let encoding := N.lor encoding (shl 128 src_registers_byte SRC_REGS_SHIFT) in
  let* dst_registers_byte := merge_u4 bld (dst0_reg_idx opcode) (dst1_reg_idx opcode) in
  let encoding := N.lor encoding (shl 128 dst_registers_byte DST_REGS_SHIFT) in
  let encoding := N.lor encoding (shl 128 (imm_0 opcode) test_IMM0_SHIFT) in
  let encoding := N.lor encoding (shl 128 (imm_1 opcode) test_IMM1_SHIFT) in
  Ok encoding.

(** definitions/mod.rs:189-233, with [1 << table_bits] evaluated on a [usize] of [p] bits *)
Definition synthesize_opcode_decoding_tables_on (p : N)
  : build -> N -> ISAVersion -> res (list OpcodeVariant) :=
  synthesize_opcode_decoding_tables_of current_set p.

(** definitions/mod.rs:235-431, likewise *)
Definition synthesize_opcode_decoding_tables_legacy_on (p : N)
  : build -> N -> ISAVersion -> res (list OpcodeVariant) :=
  synthesize_opcode_decoding_tables_legacy_of current_set p.
