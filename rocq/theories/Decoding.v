(** * Conditions, decoded opcodes and the two encoding modes: src/definitions/condition.rs,
    utils.rs:3-11, src/opcode.rs, src/decoding/*.rs.  Definitions only.

    [build] is the build profile: [debug_assert!] fires only in [Debug].  The shifts and widths
    of the fields are the constants of the source; Relayout.v has them as an argument. *)

From Verif Require Import Machine Constants Operands OpcodeTrait Opcodes AllOpcodes Tables.

(** ** src/definitions/condition.rs *)

(** definitions/condition.rs:3-12 *)
Inductive Condition :=
| Always
| Gt_
| Lt_
| Eq_
| Ge_
| Le_
| Ne_
| GtOrLt.
Scheme Equality for Condition.

(** definitions/condition.rs:17 *)
Definition Condition_NUM_VARIANTS : N := 8.

(** definitions/condition.rs:19-33 *)
Definition Condition_materialize_variant (idx : N) : res Condition :=
  let* _ := assert_ (idx <? Condition_NUM_VARIANTS) in
  match idx with
  | 0 => Ok Always
  | 1 => Ok Gt_
  | 2 => Ok Lt_
  | 3 => Ok Eq_
  | 4 => Ok Ge_
  | 5 => Ok Le_
  | 6 => Ok Ne_
  | 7 => Ok GtOrLt
  | _ => Panic
  end.

(** definitions/condition.rs:35-46 *)
Definition Condition_variant_index (self : Condition) : N :=
  match self with
  | Always => 0
  | Gt_ => 1
  | Lt_ => 2
  | Eq_ => 3
  | Ge_ => 4
  | Le_ => 5
  | Ne_ => 6
  | GtOrLt => 7
  end.

(** definitions/condition.rs:49-58 *)
Definition ALL_CONDITIONS : list Condition :=
  [ Always; Gt_; Lt_; Eq_; Ge_; Le_; Ne_; GtOrLt ].

(** ** utils.rs:3-11 *)

(** utils.rs:3-5 *)
Definition split_as_u4 (value : N) : N * N :=
  (N.land value (shl 8 1 4 - 1), shr value 4).

(** utils.rs:7-11 *)
Definition merge_u4 (bld : build) (low high : N) : res N :=
  let* _ := debug_assert_ bld (low <? 16) in
  let* _ := debug_assert_ bld (high <? 16) in
  Ok (N.lor low (shl 8 high 4)).

(** ** src/decoding/mod.rs *)

(** decoding/mod.rs:25-41: [encode_as_bytes] of [u64] ([n = 8]) and [u128] ([n = 16]) *)
Definition IntegerRepresentation_encode_as_bytes (n : nat) (self : N) : list N :=
  to_be_bytes n self.

(** decoding/mod.rs:43-51, trait [AllowedPcOrImm] ([max] is [pc_max]) *)
Record AllowedPcOrImm := mkAllowedPcOrImm {
  from_u64_clipped : N -> N;
  pc_as_u64 : N -> N;
  pc_wrapping_add : N -> N -> N;
  pc_wrapping_sub : N -> N -> N;
  pc_max : N
}.

(** decoding/mod.rs:53-74 *)
Definition u16_PcOrImm : AllowedPcOrImm := {|
  from_u64_clipped := fun value => as_u16 value;
  pc_as_u64 := fun self => as_u64 self;
  pc_wrapping_add := fun self other => wrapping_add_w 16 self other;
  pc_wrapping_sub := fun self other => wrapping_sub_w 16 self other;
  pc_max := 2 ^ 16 - 1
|}.

(** decoding/mod.rs:75-96 *)
Definition u32_PcOrImm : AllowedPcOrImm := {|
  from_u64_clipped := fun value => as_u32 value;
  pc_as_u64 := fun self => as_u64 self;
  pc_wrapping_add := fun self other => wrapping_add_w 32 self other;
  pc_wrapping_sub := fun self other => wrapping_sub_w 32 self other;
  pc_max := 2 ^ 32 - 1
|}.

(** opcode.rs:9-19.  The type parameter [E] only fixes the width of the immediates: both
    instances share this record. *)
Record DecodedOpcode := mkDecodedOpcode {
  variant : OpcodeVariant;
  condition : Condition;
  src0_reg_idx : N;
  src1_reg_idx : N;
  dst0_reg_idx : N;
  dst1_reg_idx : N;
  imm_0 : N;
  imm_1 : N
}.

(** opcode.rs:21-34; [Default::default()] of [u16] and [u32] is 0 *)
Definition DecodedOpcode_default : DecodedOpcode :=
  mkDecodedOpcode OpcodeVariant_default Always 0 0 0 0 0 0.

(** opcode.rs:37-51 *)
Definition mask_into_panic (self : DecodedOpcode) : DecodedOpcode :=
  mkDecodedOpcode (mkOpcodeVariant (Op_Ret RetOpcode_Panic) RegOnly RegOnly (false, false))
    Always 0 0 0 0 (imm_0 self) (imm_1 self).

(** opcode.rs:53-65 *)
Definition mask_into_nop (self : DecodedOpcode) : DecodedOpcode :=
  mkDecodedOpcode
    (mkOpcodeVariant (Op_Nop nopOpcode) (Full UseRegOnly) (Full UseRegOnly) (false, false))
    Always 0 0 0 0 (imm_0 self) (imm_1 self).

(** decoding/mod.rs:100-126, trait [VmEncodingMode<N>]; [encoding_width] is the const
    parameter [N] *)
Record VmEncodingMode := mkVmEncodingMode {
  encoding_width : nat;
  PcOrImm : AllowedPcOrImm;
  nop_encoding : build -> res N;
  exception_revert_encoding : build -> res N;
  parse_preliminary_variant_and_absolute_number :
    N -> res (DecodedOpcode * VariantMonotonicNumber);
  encode_as_integer : build -> DecodedOpcode -> res N;
  encode_as_bytes : build -> DecodedOpcode -> res (list N);
  split_pc : N -> N * N;
  integer_representaiton_from_u256 : U256 -> N -> res N;
  is_canonical_encoding : N -> bool
}.

(** ** src/decoding/encoding_mode_production.rs *)

(** decoding/encoding_mode_production.rs:19-27 *)
Definition prod_IMM0_SHIFT : N := 32.
(** decoding/encoding_mode_production.rs:20 *)
Definition prod_IMM1_SHIFT : N := 48.
(** decoding/encoding_mode_production.rs:21 *)
Definition prod_VARIANT_AND_CONDITION_BITS : N := 16.
(** decoding/encoding_mode_production.rs:22 *)
Definition prod_VARIANT_MASK : N := shl 64 1 OPCODES_TABLE_WIDTH - 1.
(** decoding/encoding_mode_production.rs:23 *)
Definition prod_CONDITION_MASK : N :=
  shl 64 (shl 64 1 CONDITIONAL_BITS_WIDTH - 1) CONDITIONAL_BITS_SHIFT.
(** decoding/encoding_mode_production.rs:24 *)
Definition prod_UNUSED_GAP_RAW_MASK : N :=
  shl 64 1 (prod_VARIANT_AND_CONDITION_BITS - OPCODES_TABLE_WIDTH - CONDITIONAL_BITS_WIDTH) - 1.
(** decoding/encoding_mode_production.rs:27 *)
Definition prod_UNUSED_BITS_MASK : N := shl 64 prod_UNUSED_GAP_RAW_MASK OPCODES_TABLE_WIDTH.

(** decoding/encoding_mode_production.rs:29-38, for an arbitrary opcode table *)
Definition variant_and_condition_from_u64_word_with (T : res (list OpcodeVariant))
    (raw_value : N) : res (OpcodeVariant * Condition * N) :=
  let variant_bits := N.land raw_value prod_VARIANT_MASK in
  let* table := T in
  let* opcode_variant := index table variant_bits in
  let condition_bits := shr (N.land raw_value prod_CONDITION_MASK) CONDITIONAL_BITS_SHIFT in
  let* condition := Condition_materialize_variant condition_bits in
  Ok (opcode_variant, condition, variant_bits).
(** decoding/encoding_mode_production.rs:29-38, for the table of the source *)
Definition variant_and_condition_from_u64_word : N -> res (OpcodeVariant * Condition * N) :=
  variant_and_condition_from_u64_word_with OPCODES_TABLE.

(** decoding/encoding_mode_production.rs:109-147, for an arbitrary lookup map *)
Definition prod_encode_as_integer_with (M : res (list (OpcodeVariant * N))) (bld : build)
    (opcode : DecodedOpcode) : res N :=
  let encoding := 0 in
  let* m := M in
  let* variant_bits := unwrap (map_get m (variant opcode)) in
  let* _ := assert_ (trailing_zeros 64 (next_power_of_two variant_bits)
                     <=? OPCODES_TABLE_WIDTH) in
  let encoding := N.lor encoding (as_u64 variant_bits) in
  let condition := Condition_variant_index (condition opcode) in
  let* _ := assert_ (trailing_zeros 64 (next_power_of_two condition)
                     <=? CONDITIONAL_BITS_WIDTH) in
  let encoding := N.lor encoding (shl 64 condition CONDITIONAL_BITS_SHIFT) in
  let* src_registers_byte := merge_u4 bld (src0_reg_idx opcode) (src1_reg_idx opcode) in
  let encoding := N.lor encoding (shl 64 src_registers_byte SRC_REGS_SHIFT) in
  let* dst_registers_byte := merge_u4 bld (dst0_reg_idx opcode) (dst1_reg_idx opcode) in
  let encoding := N.lor encoding (shl 64 dst_registers_byte DST_REGS_SHIFT) in
  let encoding := N.lor encoding (shl 64 (imm_0 opcode) prod_IMM0_SHIFT) in
  let encoding := N.lor encoding (shl 64 (imm_1 opcode) prod_IMM1_SHIFT) in
  Ok encoding.
(** decoding/encoding_mode_production.rs:109-147, for the lookup map of the source *)
Definition prod_encode_as_integer : build -> DecodedOpcode -> res N :=
  prod_encode_as_integer_with OPCODE_TO_CANONICAL_INDEX_LOOKUP_MAP.

(** decoding/encoding_mode_production.rs:45-59; [serialize_as_integer] (opcode.rs:67-69) is
    [encode_as_integer] of the same mode *)
Definition prod_nop_encoding (bld : build) : res N :=
  let* variant := NOP_OPCODE_VARIANT in
  prod_encode_as_integer bld
    (mkDecodedOpcode variant Always 0 0 0 0
       (from_u64_clipped u16_PcOrImm 0) (from_u64_clipped u16_PcOrImm 0)).

(** decoding/encoding_mode_production.rs:61-76 *)
Definition prod_exception_revert_encoding (bld : build) : res N :=
  let* variant := PANIC_OPCODE_VARIANT in
  prod_encode_as_integer bld
    (mkDecodedOpcode variant Always 0 0 0 0
       (from_u64_clipped u16_PcOrImm 0) (from_u64_clipped u16_PcOrImm 0)).

(** decoding/encoding_mode_production.rs:78-107, for an arbitrary opcode table *)
Definition prod_parse_with (T : res (list OpcodeVariant)) (integer_representaiton : N)
  : res (DecodedOpcode * VariantMonotonicNumber) :=
  let raw_value := integer_representaiton in
  let* (variant, condition, variant_bits) :=
    variant_and_condition_from_u64_word_with T raw_value in
  let src_byte := as_u8 (shr raw_value SRC_REGS_SHIFT) in
  let dst_byte := as_u8 (shr raw_value DST_REGS_SHIFT) in
  let imm_0 := as_u16 (shr raw_value prod_IMM0_SHIFT) in
  let imm_1 := as_u16 (shr raw_value prod_IMM1_SHIFT) in
  let '(src0_reg_idx, src1_reg_idx) := split_as_u4 src_byte in
  let '(dst0_reg_idx, dst1_reg_idx) := split_as_u4 dst_byte in
  let new := mkDecodedOpcode variant condition src0_reg_idx src1_reg_idx
               dst0_reg_idx dst1_reg_idx imm_0 imm_1 in
  Ok (new, VariantMonotonicNumber_from_usize variant_bits).
(** decoding/encoding_mode_production.rs:78-107, for the table of the source *)
Definition prod_parse : N -> res (DecodedOpcode * VariantMonotonicNumber) :=
  prod_parse_with OPCODES_TABLE.

(** decoding/encoding_mode_production.rs:149-151 *)
Definition prod_encode_as_bytes (bld : build) (opcode : DecodedOpcode) : res (list N) :=
  let* e := prod_encode_as_integer bld opcode in
  Ok (IntegerRepresentation_encode_as_bytes 8 e).

(** decoding/encoding_mode_production.rs:153-155 *)
Definition prod_split_pc (pc : N) : N * N := (shr pc 2, N.land pc 3).

(** decoding/encoding_mode_production.rs:157-168 *)
Definition prod_integer_from_u256 (value : U256) (index : N) : res N :=
  match index with
  | 0 => Ok (limb3 value)
  | 1 => Ok (limb2 value)
  | 2 => Ok (limb1 value)
  | 3 => Ok (limb0 value)
  | _ => Panic
  end.

(** decoding/encoding_mode_production.rs:170-174 *)
Definition prod_is_canonical_encoding (value : N) : bool :=
  let unused_bits := N.land value prod_UNUSED_BITS_MASK in
  unused_bits =? 0.

(** decoding/encoding_mode_production.rs:41-175 *)
Definition EncodingModeProduction : VmEncodingMode := {|
  encoding_width := 8;
  PcOrImm := u16_PcOrImm;
  nop_encoding := prod_nop_encoding;
  exception_revert_encoding := prod_exception_revert_encoding;
  parse_preliminary_variant_and_absolute_number := prod_parse;
  encode_as_integer := prod_encode_as_integer;
  encode_as_bytes := prod_encode_as_bytes;
  split_pc := prod_split_pc;
  integer_representaiton_from_u256 := prod_integer_from_u256;
  is_canonical_encoding := prod_is_canonical_encoding
|}.

(** ** src/decoding/encoding_mode_testing.rs *)

(** decoding/encoding_mode_testing.rs:19-27 *)
Definition test_IMM0_SHIFT : N := 32.
(** decoding/encoding_mode_testing.rs:20 *)
Definition test_IMM1_SHIFT : N := 64.
(** decoding/encoding_mode_testing.rs:21 *)
Definition test_VARIANT_AND_CONDITION_BITS : N := 16.
(** decoding/encoding_mode_testing.rs:22 *)
Definition test_VARIANT_MASK : N := shl 64 1 OPCODES_TABLE_WIDTH - 1.
(** decoding/encoding_mode_testing.rs:23 *)
Definition test_CONDITION_MASK : N :=
  shl 64 (shl 64 1 CONDITIONAL_BITS_WIDTH - 1) CONDITIONAL_BITS_SHIFT.
(** decoding/encoding_mode_testing.rs:24 *)
Definition test_UNUSED_GAP_RAW_MASK : N :=
  shl 128 1 (test_VARIANT_AND_CONDITION_BITS - OPCODES_TABLE_WIDTH - CONDITIONAL_BITS_WIDTH) - 1.
(** decoding/encoding_mode_testing.rs:27 *)
Definition test_UNUSED_BITS_MASK : N := shl 128 test_UNUSED_GAP_RAW_MASK OPCODES_TABLE_WIDTH.

(** decoding/encoding_mode_testing.rs:29-39, for an arbitrary opcode table *)
Definition variant_and_condition_from_u128_word_with (T : res (list OpcodeVariant))
    (raw_value : N) : res (OpcodeVariant * Condition * N) :=
  let raw_value := as_u64 raw_value in
  let variant_bits := N.land raw_value test_VARIANT_MASK in
  let* table := T in
  let* opcode_variant := index table variant_bits in
  let condition_bits := shr (N.land raw_value test_CONDITION_MASK) CONDITIONAL_BITS_SHIFT in
  let* condition := Condition_materialize_variant condition_bits in
  Ok (opcode_variant, condition, variant_bits).
(** decoding/encoding_mode_testing.rs:29-39, for the table of the source *)
Definition variant_and_condition_from_u128_word : N -> res (OpcodeVariant * Condition * N) :=
  variant_and_condition_from_u128_word_with OPCODES_TABLE.

(** decoding/encoding_mode_testing.rs:110-148, for an arbitrary lookup map *)
Definition test_encode_as_integer_with (M : res (list (OpcodeVariant * N))) (bld : build)
    (opcode : DecodedOpcode) : res N :=
  let encoding := 0 in
  let* m := M in
  let* variant_bits := unwrap (map_get m (variant opcode)) in
  let* _ := assert_ (trailing_zeros 64 (next_power_of_two variant_bits)
                     <=? OPCODES_TABLE_WIDTH) in
  let encoding := N.lor encoding (as_u128 variant_bits) in
  let condition := Condition_variant_index (condition opcode) in
  let* _ := assert_ (trailing_zeros 64 (next_power_of_two condition)
                     <=? CONDITIONAL_BITS_WIDTH) in
  let encoding := N.lor encoding (shl 128 condition CONDITIONAL_BITS_SHIFT) in
  let* src_registers_byte := merge_u4 bld (src0_reg_idx opcode) (src1_reg_idx opcode) in
  let encoding := N.lor encoding (shl 128 src_registers_byte SRC_REGS_SHIFT) in
  let* dst_registers_byte := merge_u4 bld (dst0_reg_idx opcode) (dst1_reg_idx opcode) in
  let encoding := N.lor encoding (shl 128 dst_registers_byte DST_REGS_SHIFT) in
  let encoding := N.lor encoding (shl 128 (imm_0 opcode) test_IMM0_SHIFT) in
  let encoding := N.lor encoding (shl 128 (imm_1 opcode) test_IMM1_SHIFT) in
  Ok encoding.
(** decoding/encoding_mode_testing.rs:110-148, for the lookup map of the source *)
Definition test_encode_as_integer : build -> DecodedOpcode -> res N :=
  test_encode_as_integer_with OPCODE_TO_CANONICAL_INDEX_LOOKUP_MAP.

(** decoding/encoding_mode_testing.rs:46-60 *)
Definition test_nop_encoding (bld : build) : res N :=
  let* variant := NOP_OPCODE_VARIANT in
  test_encode_as_integer bld
    (mkDecodedOpcode variant Always 0 0 0 0
       (from_u64_clipped u32_PcOrImm 0) (from_u64_clipped u32_PcOrImm 0)).

(** decoding/encoding_mode_testing.rs:62-77 *)
Definition test_exception_revert_encoding (bld : build) : res N :=
  let* variant := PANIC_OPCODE_VARIANT in
  test_encode_as_integer bld
    (mkDecodedOpcode variant Always 0 0 0 0
       (from_u64_clipped u32_PcOrImm 0) (from_u64_clipped u32_PcOrImm 0)).

(** decoding/encoding_mode_testing.rs:79-108, for an arbitrary opcode table *)
Definition test_parse_with (T : res (list OpcodeVariant)) (integer_representaiton : N)
  : res (DecodedOpcode * VariantMonotonicNumber) :=
  let raw_value := integer_representaiton in
  let* (variant, condition, variant_bits) :=
    variant_and_condition_from_u128_word_with T raw_value in
  let src_byte := as_u8 (shr raw_value SRC_REGS_SHIFT) in
  let dst_byte := as_u8 (shr raw_value DST_REGS_SHIFT) in
  let imm_0 := as_u32 (shr raw_value test_IMM0_SHIFT) in
  let imm_1 := as_u32 (shr raw_value test_IMM1_SHIFT) in
  let '(src0_reg_idx, src1_reg_idx) := split_as_u4 src_byte in
  let '(dst0_reg_idx, dst1_reg_idx) := split_as_u4 dst_byte in
  let new := mkDecodedOpcode variant condition src0_reg_idx src1_reg_idx
               dst0_reg_idx dst1_reg_idx imm_0 imm_1 in
  Ok (new, VariantMonotonicNumber_from_usize variant_bits).
(** decoding/encoding_mode_testing.rs:79-108, for the table of the source *)
Definition test_parse : N -> res (DecodedOpcode * VariantMonotonicNumber) :=
  test_parse_with OPCODES_TABLE.

(** decoding/encoding_mode_testing.rs:150-152 *)
Definition test_encode_as_bytes (bld : build) (opcode : DecodedOpcode) : res (list N) :=
  let* e := test_encode_as_integer bld opcode in
  Ok (IntegerRepresentation_encode_as_bytes 16 e).

(** decoding/encoding_mode_testing.rs:154-156 *)
Definition test_split_pc (pc : N) : N * N := (shr pc 1, N.land pc 1).

(** decoding/encoding_mode_testing.rs:158-167.  The [u128] additions cannot overflow: one operand
    is below [2^64], the other a multiple of it below [2^128]. *)
Definition test_integer_from_u256 (value : U256) (index : N) : res N :=
  match index with
  | 0 => Ok (limb2 value + shl 128 (limb3 value) 64)
  | 1 => Ok (limb0 value + shl 128 (limb1 value) 64)
  | _ => Panic
  end.

(** decoding/encoding_mode_testing.rs:169-173 *)
Definition test_is_canonical_encoding (value : N) : bool :=
  let unused_bits := N.land value test_UNUSED_BITS_MASK in
  unused_bits =? 0.

(** decoding/encoding_mode_testing.rs:42-174 *)
Definition EncodingModeTesting : VmEncodingMode := {|
  encoding_width := 16;
  PcOrImm := u32_PcOrImm;
  nop_encoding := test_nop_encoding;
  exception_revert_encoding := test_exception_revert_encoding;
  parse_preliminary_variant_and_absolute_number := test_parse;
  encode_as_integer := test_encode_as_integer;
  encode_as_bytes := test_encode_as_bytes;
  split_pc := test_split_pc;
  integer_representaiton_from_u256 := test_integer_from_u256;
  is_canonical_encoding := test_is_canonical_encoding
|}.

(** ** opcode.rs:67-73 *)

(** opcode.rs:67-69 *)
Definition serialize_as_integer (E : VmEncodingMode) (bld : build) (self : DecodedOpcode)
  : res N := encode_as_integer E bld self.

(** opcode.rs:71-73 *)
Definition serialize_as_bytes (E : VmEncodingMode) (bld : build) (self : DecodedOpcode)
  : res (list N) := encode_as_bytes E bld self.
