(** * The codecs for other places of the fields in a word.  Definitions only.

    Decoding.v has both codecs for the shifts and widths the crate ships.  Here these constants
    are an argument.  A shift by the width of the integer or more, or a difference below zero,
    is [Panic]: in a [const] it does not compile, and in a function body the compiler's lint
    [arithmetic_overflow] rejects a constant shift.  Simplified: a build in which that lint is
    switched off is not modelled.  The width of a condition stays [CONDITIONAL_BITS_WIDTH]: by
    definitions/condition.rs:49 the crate does not compile with another one. *)

From Verif Require Import Machine Constants Operands OpcodeTrait Opcodes AllOpcodes Tables Decoding.

(** The constants that place the fields: lib.rs:43-44, 55-56;
    decoding/encoding_mode_production.rs:19-21; decoding/encoding_mode_testing.rs:19-21 *)
Record layout := mkLayout {
  table_width : N;
  condition_shift : N;
  src_shift : N;
  dst_shift : N;
  imm0_shift : N;
  imm1_shift : N;
  head_bits : N
}.

(** lib.rs:43-44, 55-56; decoding/encoding_mode_production.rs:19-21 *)
Definition prod_layout : layout := {|
  table_width := OPCODES_TABLE_WIDTH;
  condition_shift := CONDITIONAL_BITS_SHIFT;
  src_shift := SRC_REGS_SHIFT;
  dst_shift := DST_REGS_SHIFT;
  imm0_shift := prod_IMM0_SHIFT;
  imm1_shift := prod_IMM1_SHIFT;
  head_bits := prod_VARIANT_AND_CONDITION_BITS
|}.

(** lib.rs:43-44, 55-56; decoding/encoding_mode_testing.rs:19-21 *)
Definition test_layout : layout := {|
  table_width := OPCODES_TABLE_WIDTH;
  condition_shift := CONDITIONAL_BITS_SHIFT;
  src_shift := SRC_REGS_SHIFT;
  dst_shift := DST_REGS_SHIFT;
  imm0_shift := test_IMM0_SHIFT;
  imm1_shift := test_IMM1_SHIFT;
  head_bits := test_VARIANT_AND_CONDITION_BITS
|}.

(** [x << k] on a [w]-bit integer for a constant [k].  Source:
    decoding/encoding_mode_production.rs:22-27, 135-144. *)
Definition shl_const (w x k : N) : res N := if k <? w then Ok (shl w x k) else Panic.
(** [x >> k] on a [w]-bit integer for a constant [k].  Source:
    decoding/encoding_mode_production.rs:34, 86-90. *)
Definition shr_const (w x k : N) : res N := if k <? w then Ok (shr x k) else Panic.

(** ** src/decoding/encoding_mode_production.rs *)

(** decoding/encoding_mode_production.rs:22 *)
Definition prod_VARIANT_MASK_at (L : layout) : res N :=
  let* x := shl_const 64 1 (table_width L) in sub_w Debug 64 x 1.
(** decoding/encoding_mode_production.rs:23 *)
Definition prod_CONDITION_MASK_at (L : layout) : res N :=
  let* x := shl_const 64 1 CONDITIONAL_BITS_WIDTH in
  let* x := sub_w Debug 64 x 1 in
  shl_const 64 x (condition_shift L).
(** decoding/encoding_mode_production.rs:24-26 *)
Definition prod_UNUSED_GAP_RAW_MASK_at (L : layout) : res N :=
  let* k := sub_w Debug 64 (head_bits L) (table_width L) in
  let* k := sub_w Debug 64 k CONDITIONAL_BITS_WIDTH in
  let* x := shl_const 64 1 k in
  sub_w Debug 64 x 1.
(** decoding/encoding_mode_production.rs:27 *)
Definition prod_UNUSED_BITS_MASK_at (L : layout) : res N :=
  let* x := prod_UNUSED_GAP_RAW_MASK_at L in shl_const 64 x (table_width L).

(** decoding/encoding_mode_production.rs:29-38 *)
Definition variant_and_condition_from_u64_word_at (L : layout) (T : res (list OpcodeVariant))
    (raw_value : N) : res (OpcodeVariant * Condition * N) :=
  let* VARIANT_MASK := prod_VARIANT_MASK_at L in
  let variant_bits := N.land raw_value VARIANT_MASK in
  let* table := T in
  let* opcode_variant := index table variant_bits in
  let* CONDITION_MASK := prod_CONDITION_MASK_at L in
  let* condition_bits := shr_const 64 (N.land raw_value CONDITION_MASK) (condition_shift L) in
  let* condition := Condition_materialize_variant condition_bits in
  Ok (opcode_variant, condition, variant_bits).

(** decoding/encoding_mode_production.rs:78-107 *)
Definition prod_parse_at (L : layout) (T : res (list OpcodeVariant)) (integer_representaiton : N)
  : res (DecodedOpcode * VariantMonotonicNumber) :=
  let raw_value := integer_representaiton in
  let* (variant, condition, variant_bits) :=
    variant_and_condition_from_u64_word_at L T raw_value in
  let* src := shr_const 64 raw_value (src_shift L) in
  let src_byte := as_u8 src in
  let* dst := shr_const 64 raw_value (dst_shift L) in
  let dst_byte := as_u8 dst in
  let* i0 := shr_const 64 raw_value (imm0_shift L) in
  let imm_0 := as_u16 i0 in
  let* i1 := shr_const 64 raw_value (imm1_shift L) in
  let imm_1 := as_u16 i1 in
  let '(src0_reg_idx, src1_reg_idx) := split_as_u4 src_byte in
  let '(dst0_reg_idx, dst1_reg_idx) := split_as_u4 dst_byte in
  let new := mkDecodedOpcode variant condition src0_reg_idx src1_reg_idx
               dst0_reg_idx dst1_reg_idx imm_0 imm_1 in
  Ok (new, VariantMonotonicNumber_from_usize variant_bits).

(** decoding/encoding_mode_production.rs:109-147 *)
Definition prod_encode_as_integer_at (L : layout) (M : res (list (OpcodeVariant * N)))
    (bld : build) (opcode : DecodedOpcode) : res N :=
  let encoding := 0 in
  let* m := M in
  let* variant_bits := unwrap (map_get m (variant opcode)) in
  let* _ := assert_ (trailing_zeros 64 (next_power_of_two variant_bits) <=? table_width L) in
  let encoding := N.lor encoding (as_u64 variant_bits) in
  let condition := Condition_variant_index (condition opcode) in
  let* _ := assert_ (trailing_zeros 64 (next_power_of_two condition)
                     <=? CONDITIONAL_BITS_WIDTH) in
  let* x := shl_const 64 condition (condition_shift L) in
  let encoding := N.lor encoding x in
  let* src_registers_byte := merge_u4 bld (src0_reg_idx opcode) (src1_reg_idx opcode) in
  let* x := shl_const 64 src_registers_byte (src_shift L) in
  let encoding := N.lor encoding x in
  let* dst_registers_byte := merge_u4 bld (dst0_reg_idx opcode) (dst1_reg_idx opcode) in
  let* x := shl_const 64 dst_registers_byte (dst_shift L) in
  let encoding := N.lor encoding x in
  let* x := shl_const 64 (imm_0 opcode) (imm0_shift L) in
  let encoding := N.lor encoding x in
  let* x := shl_const 64 (imm_1 opcode) (imm1_shift L) in
  let encoding := N.lor encoding x in
  Ok encoding.

(** decoding/encoding_mode_production.rs:170-174 *)
Definition prod_is_canonical_encoding_at (L : layout) (value : N) : res bool :=
  let* UNUSED_BITS_MASK := prod_UNUSED_BITS_MASK_at L in
  let unused_bits := N.land value UNUSED_BITS_MASK in
  Ok (unused_bits =? 0).

(** ** src/decoding/encoding_mode_testing.rs *)

(** decoding/encoding_mode_testing.rs:22 *)
Definition test_VARIANT_MASK_at (L : layout) : res N :=
  let* x := shl_const 64 1 (table_width L) in sub_w Debug 64 x 1.
(** decoding/encoding_mode_testing.rs:23 *)
Definition test_CONDITION_MASK_at (L : layout) : res N :=
  let* x := shl_const 64 1 CONDITIONAL_BITS_WIDTH in
  let* x := sub_w Debug 64 x 1 in
  shl_const 64 x (condition_shift L).
(** decoding/encoding_mode_testing.rs:24-26 *)
Definition test_UNUSED_GAP_RAW_MASK_at (L : layout) : res N :=
  let* k := sub_w Debug 64 (head_bits L) (table_width L) in
  let* k := sub_w Debug 64 k CONDITIONAL_BITS_WIDTH in
  let* x := shl_const 128 1 k in
  sub_w Debug 128 x 1.
(** decoding/encoding_mode_testing.rs:27 *)
Definition test_UNUSED_BITS_MASK_at (L : layout) : res N :=
  let* x := test_UNUSED_GAP_RAW_MASK_at L in shl_const 128 x (table_width L).

(** decoding/encoding_mode_testing.rs:29-39 *)
Definition variant_and_condition_from_u128_word_at (L : layout) (T : res (list OpcodeVariant))
    (raw_value : N) : res (OpcodeVariant * Condition * N) :=
  let raw_value := as_u64 raw_value in
  let* VARIANT_MASK := test_VARIANT_MASK_at L in
  let variant_bits := N.land raw_value VARIANT_MASK in
  let* table := T in
  let* opcode_variant := index table variant_bits in
  let* CONDITION_MASK := test_CONDITION_MASK_at L in
  let* condition_bits := shr_const 64 (N.land raw_value CONDITION_MASK) (condition_shift L) in
  let* condition := Condition_materialize_variant condition_bits in
  Ok (opcode_variant, condition, variant_bits).

(** decoding/encoding_mode_testing.rs:79-108 *)
Definition test_parse_at (L : layout) (T : res (list OpcodeVariant)) (integer_representaiton : N)
  : res (DecodedOpcode * VariantMonotonicNumber) :=
  let raw_value := integer_representaiton in
  let* (variant, condition, variant_bits) :=
    variant_and_condition_from_u128_word_at L T raw_value in
  let* src := shr_const 128 raw_value (src_shift L) in
  let src_byte := as_u8 src in
  let* dst := shr_const 128 raw_value (dst_shift L) in
  let dst_byte := as_u8 dst in
  let* i0 := shr_const 128 raw_value (imm0_shift L) in
  let imm_0 := as_u32 i0 in
  let* i1 := shr_const 128 raw_value (imm1_shift L) in
  let imm_1 := as_u32 i1 in
  let '(src0_reg_idx, src1_reg_idx) := split_as_u4 src_byte in
  let '(dst0_reg_idx, dst1_reg_idx) := split_as_u4 dst_byte in
  let new := mkDecodedOpcode variant condition src0_reg_idx src1_reg_idx
               dst0_reg_idx dst1_reg_idx imm_0 imm_1 in
  Ok (new, VariantMonotonicNumber_from_usize variant_bits).

(** decoding/encoding_mode_testing.rs:110-148 *)
Definition test_encode_as_integer_at (L : layout) (M : res (list (OpcodeVariant * N)))
    (bld : build) (opcode : DecodedOpcode) : res N :=
  let encoding := 0 in
  let* m := M in
  let* variant_bits := unwrap (map_get m (variant opcode)) in
  let* _ := assert_ (trailing_zeros 64 (next_power_of_two variant_bits) <=? table_width L) in
  let encoding := N.lor encoding (as_u128 variant_bits) in
  let condition := Condition_variant_index (condition opcode) in
  let* _ := assert_ (trailing_zeros 64 (next_power_of_two condition)
                     <=? CONDITIONAL_BITS_WIDTH) in
  let* x := shl_const 128 condition (condition_shift L) in
  let encoding := N.lor encoding x in
  let* src_registers_byte := merge_u4 bld (src0_reg_idx opcode) (src1_reg_idx opcode) in
  let* x := shl_const 128 src_registers_byte (src_shift L) in
  let encoding := N.lor encoding x in
  let* dst_registers_byte := merge_u4 bld (dst0_reg_idx opcode) (dst1_reg_idx opcode) in
  let* x := shl_const 128 dst_registers_byte (dst_shift L) in
  let encoding := N.lor encoding x in
  let* x := shl_const 128 (imm_0 opcode) (imm0_shift L) in
  let encoding := N.lor encoding x in
  let* x := shl_const 128 (imm_1 opcode) (imm1_shift L) in
  let encoding := N.lor encoding x in
  Ok encoding.

(** decoding/encoding_mode_testing.rs:169-173 *)
Definition test_is_canonical_encoding_at (L : layout) (value : N) : res bool :=
  let* UNUSED_BITS_MASK := test_UNUSED_BITS_MASK_at L in
  let unused_bits := N.land value UNUSED_BITS_MASK in
  Ok (unused_bits =? 0).
