(** * Properties of the instruction codec (C01-C11, C24-C26)

    Statements only: each proof is the lemma of the same name in [ProofsCodec]. *)

From Coq Require Import Arith NArith List Bool String Ascii.
From Verif Require Import Machine Constants Operands OpcodeTrait Opcodes AllOpcodes Tables
  Decoding SpecIsa SpecCodec ProofsCodec.
Import ListNotations.
Open Scope N_scope.

(** Encoding then decoding gives the instruction back, numbered by its first table
    position. *)
Theorem C01_decode_encode :
  forall bld d,
  in_table (variant d) -> typed 16 d -> regs_in_range d ->
  exists w n t,
    encode_as_integer EncodingModeProduction bld d = Ok w /\
    OPCODES_TABLE = Ok t /\ nth_error t (N.to_nat n) = Some (variant d) /\
    (forall j, j < n -> nth_error t (N.to_nat j) <> Some (variant d)) /\
    w < 2 ^ 64 /\
    parse_preliminary_variant_and_absolute_number EncodingModeProduction w
    = Ok (d, mkVariantMonotonicNumber n).
Proof. exact pf_C01_decode_encode. Qed.
Print Assumptions C01_decode_encode.

Theorem C01_injective :
  forall bld1 bld2 d1 d2 w,
  typed 16 d1 -> typed 16 d2 -> regs_in_range d1 -> regs_in_range d2 ->
  encode_as_integer EncodingModeProduction bld1 d1 = Ok w ->
  encode_as_integer EncodingModeProduction bld2 d2 = Ok w -> d1 = d2.
Proof. exact pf_C01_injective. Qed.
Print Assumptions C01_injective.

Example C01_example :
  in_table (variant example_d) /\ typed 16 example_d /\ regs_in_range example_d /\
  encode_as_integer EncodingModeProduction Release example_d = Ok 0x0001FFFF07F3A06C.
Proof. exact pf_C01_example. Qed.

(** Decoding then encoding always succeeds and gives the word with the gap cleared and
    unassigned numbers replaced by 0. *)
Theorem C02_encode_decode :
  forall bld w, w < 2 ^ 64 ->
  exists d n,
    parse_preliminary_variant_and_absolute_number EncodingModeProduction w = Ok (d, n) /\
    encode_as_integer EncodingModeProduction bld d
    = Ok ((if bits w 0 11 <? 1093 then bits w 0 11 else 0) + 2 ^ 13 * bits w 13 51).
Proof. exact pf_C02_encode_decode. Qed.
Print Assumptions C02_encode_decode.

(** A word survives exactly when its gap bits are zero and its low 11 bits are zero or name
    a table entry other than Invalid. *)
Theorem C02_fixed_points :
  forall bld w t, w < 2 ^ 64 -> OPCODES_TABLE = Ok t ->
  exists d n,
    parse_preliminary_variant_and_absolute_number EncodingModeProduction w = Ok (d, n) /\
    (encode_as_integer EncodingModeProduction bld d = Ok w <->
     bits w 11 2 = 0 /\
     (bits w 0 11 = 0 \/ nth_error t (N.to_nat (bits w 0 11)) <> Some spec_invalid)).
Proof. exact pf_C02_fixed_points. Qed.
Print Assumptions C02_fixed_points.

(** [is_canonical_encoding] is not enough: this word is accepted and does not survive. *)
Theorem C02_canonical_refuted :
  exists w d n,
    w < 2 ^ 64 /\
    is_canonical_encoding EncodingModeProduction w = true /\
    parse_preliminary_variant_and_absolute_number EncodingModeProduction w = Ok (d, n) /\
    forall bld, encode_as_integer EncodingModeProduction bld d <> Ok w.
Proof. exact pf_C02_canonical_refuted. Qed.
Print Assumptions C02_canonical_refuted.

Example C02_example : exists t, OPCODES_TABLE = Ok t /\ 0x0001FFFF07F3A06C < 2 ^ 64 /\
  bits 0x0001FFFF07F3A06C 11 2 = 0 /\
  nth_error t (N.to_nat (bits 0x0001FFFF07F3A06C 0 11)) = Some (variant example_d).
Proof. exact pf_C02_example. Qed.

(** Decoding never panics and reads fixed bit fields. *)
Theorem C03_fields :
  forall w, w < 2 ^ 64 ->
  exists d t,
    parse_preliminary_variant_and_absolute_number EncodingModeProduction w
    = Ok (d, mkVariantMonotonicNumber (bits w 0 11)) /\
    OPCODES_TABLE = Ok t /\
    nth_error t (N.to_nat (bits w 0 11)) = Some (variant d) /\
    nth_error [Always; Gt_; Lt_; Eq_; Ge_; Le_; Ne_; GtOrLt] (N.to_nat (bits w 13 3))
    = Some (condition d) /\
    src0_reg_idx d = bits w 16 4 /\ src1_reg_idx d = bits w 20 4 /\
    dst0_reg_idx d = bits w 24 4 /\ dst1_reg_idx d = bits w 28 4 /\
    imm_0 d = bits w 32 16 /\ imm_1 d = bits w 48 16.
Proof. exact pf_C03_fields. Qed.
Print Assumptions C03_fields.

(** The gap bits do not influence the result. *)
Theorem C03_gap_ignored :
  forall w w', w < 2 ^ 64 -> w' < 2 ^ 64 ->
  bits w 0 11 = bits w' 0 11 -> bits w 13 51 = bits w' 13 51 ->
  parse_preliminary_variant_and_absolute_number EncodingModeProduction w
  = parse_preliminary_variant_and_absolute_number EncodingModeProduction w'.
Proof. exact pf_C03_gap_ignored. Qed.
Print Assumptions C03_gap_ignored.

(** The public function that reads only the variant and the condition. *)
Theorem C03_variant_and_condition :
  forall w, w < 2 ^ 64 ->
  exists t v c,
    variant_and_condition_from_u64_word w = Ok (v, c, bits w 0 11) /\
    OPCODES_TABLE = Ok t /\ nth_error t (N.to_nat (bits w 0 11)) = Some v /\
    nth_error [Always; Gt_; Lt_; Eq_; Ge_; Le_; Ne_; GtOrLt] (N.to_nat (bits w 13 3)) = Some c.
Proof. exact pf_C03_variant_and_condition. Qed.
Print Assumptions C03_variant_and_condition.

Example C03_example :
  0x0001FFFF07F3B86C < 2 ^ 64 /\ 0x0001FFFF07F3A06C < 2 ^ 64 /\
  bits 0x0001FFFF07F3B86C 0 11 = bits 0x0001FFFF07F3A06C 0 11 /\
  bits 0x0001FFFF07F3B86C 13 51 = bits 0x0001FFFF07F3A06C 13 51 /\
  bits 0x0001FFFF07F3B86C 11 2 <> bits 0x0001FFFF07F3A06C 11 2.
Proof. exact pf_C03_example. Qed.

Theorem C04_panics_release :
  forall m d, typed (mode_imm_bits m) d ->
  (encode_as_integer (mode_impl m) Release d = Panic <-> ~ in_table (variant d)).
Proof. exact pf_C04_panics_release. Qed.
Print Assumptions C04_panics_release.

Theorem C04_panics_debug :
  forall m d, typed (mode_imm_bits m) d ->
  (encode_as_integer (mode_impl m) Debug d = Panic <->
   ~ in_table (variant d) \/ ~ regs_in_range d).
Proof. exact pf_C04_panics_debug. Qed.
Print Assumptions C04_panics_debug.

(** In a release build a register index of 16 or more goes unnoticed: the word decodes to
    the instruction with other registers (exactly those of [spec_wrap]). *)
Theorem C04_release_wrong_registers :
  forall m d, typed (mode_imm_bits m) d -> in_table (variant d) -> ~ regs_in_range d ->
  exists w d' n,
    encode_as_integer (mode_impl m) Release d = Ok w /\
    parse_preliminary_variant_and_absolute_number (mode_impl m) w = Ok (d', n) /\
    d' = spec_wrap d /\
    ~ (src0_reg_idx d' = src0_reg_idx d /\ src1_reg_idx d' = src1_reg_idx d /\
       dst0_reg_idx d' = dst0_reg_idx d /\ dst1_reg_idx d' = dst1_reg_idx d).
Proof. exact pf_C04_release_wrong_registers. Qed.
Print Assumptions C04_release_wrong_registers.

Example C04_example :
  let d := mkDecodedOpcode (variant example_d) Always 0x21 0x50 0 0 7 9 in
  typed 16 d /\ in_table (variant d) /\ ~ regs_in_range d /\
  spec_wrap d = mkDecodedOpcode (variant example_d) Always 1 2 0 0 7 9.
Proof. exact pf_C04_example. Qed.

(** The exact word, in terms of the variant's number in the ISA. *)
Theorem C05_layout :
  forall bld d w, typed 16 d -> regs_in_range d ->
  encode_as_integer EncodingModeProduction bld d = Ok w ->
  exists number,
    spec_number (variant d) = Some number /\
    w = number + 2 ^ 13 * spec_cond_number (condition d)
        + 2 ^ 16 * src0_reg_idx d + 2 ^ 20 * src1_reg_idx d
        + 2 ^ 24 * dst0_reg_idx d + 2 ^ 28 * dst1_reg_idx d
        + 2 ^ 32 * imm_0 d + 2 ^ 48 * imm_1 d /\
    w < 2 ^ 64 /\ bits w 11 2 = 0 /\
    is_canonical_encoding EncodingModeProduction w = true.
Proof. exact pf_C05_layout. Qed.
Print Assumptions C05_layout.

Example C05_example :
  typed 16 example_d /\ regs_in_range example_d /\
  spec_number (variant example_d) = Some 108 /\
  encode_as_integer EncodingModeProduction Debug example_d = Ok 0x0001FFFF07F3A06C.
Proof. exact pf_C05_example. Qed.

Theorem C06_decode_encode :
  forall bld d,
  in_table (variant d) -> typed 32 d -> regs_in_range d ->
  exists w n t,
    encode_as_integer EncodingModeTesting bld d = Ok w /\
    OPCODES_TABLE = Ok t /\ nth_error t (N.to_nat n) = Some (variant d) /\
    (forall j, j < n -> nth_error t (N.to_nat j) <> Some (variant d)) /\
    w = n + 2 ^ 13 * spec_cond_number (condition d)
        + 2 ^ 16 * src0_reg_idx d + 2 ^ 20 * src1_reg_idx d
        + 2 ^ 24 * dst0_reg_idx d + 2 ^ 28 * dst1_reg_idx d
        + 2 ^ 32 * imm_0 d + 2 ^ 64 * imm_1 d /\
    w < 2 ^ 128 /\
    parse_preliminary_variant_and_absolute_number EncodingModeTesting w
    = Ok (d, mkVariantMonotonicNumber n).
Proof. exact pf_C06_decode_encode. Qed.
Print Assumptions C06_decode_encode.

Theorem C06_injective :
  forall bld1 bld2 d1 d2 w,
  typed 32 d1 -> typed 32 d2 -> regs_in_range d1 -> regs_in_range d2 ->
  encode_as_integer EncodingModeTesting bld1 d1 = Ok w ->
  encode_as_integer EncodingModeTesting bld2 d2 = Ok w -> d1 = d2.
Proof. exact pf_C06_injective. Qed.
Print Assumptions C06_injective.

Theorem C06_fields :
  forall w, w < 2 ^ 128 ->
  exists d t,
    parse_preliminary_variant_and_absolute_number EncodingModeTesting w
    = Ok (d, mkVariantMonotonicNumber (bits w 0 11)) /\
    OPCODES_TABLE = Ok t /\
    nth_error t (N.to_nat (bits w 0 11)) = Some (variant d) /\
    nth_error [Always; Gt_; Lt_; Eq_; Ge_; Le_; Ne_; GtOrLt] (N.to_nat (bits w 13 3))
    = Some (condition d) /\
    src0_reg_idx d = bits w 16 4 /\ src1_reg_idx d = bits w 20 4 /\
    dst0_reg_idx d = bits w 24 4 /\ dst1_reg_idx d = bits w 28 4 /\
    imm_0 d = bits w 32 32 /\ imm_1 d = bits w 64 32.
Proof. exact pf_C06_fields. Qed.
Print Assumptions C06_fields.

(** The public function that reads only the variant and the condition. *)
Theorem C06_variant_and_condition :
  forall w, w < 2 ^ 128 ->
  exists t v c,
    variant_and_condition_from_u128_word w = Ok (v, c, bits w 0 11) /\
    OPCODES_TABLE = Ok t /\ nth_error t (N.to_nat (bits w 0 11)) = Some v /\
    nth_error [Always; Gt_; Lt_; Eq_; Ge_; Le_; Ne_; GtOrLt] (N.to_nat (bits w 13 3)) = Some c.
Proof. exact pf_C06_variant_and_condition. Qed.
Print Assumptions C06_variant_and_condition.

Example C06_example :
  let d := mkDecodedOpcode (variant example_d) Ne_ 1 2 3 15 0xFFFFFFFF 0x12345678 in
  in_table (variant d) /\ typed 32 d /\ regs_in_range d /\
  encode_as_integer EncodingModeTesting Debug d = Ok 0x12345678FFFFFFFFF321C06C.
Proof. exact pf_C06_example. Qed.

Theorem C07_encode_decode :
  forall bld w, w < 2 ^ 128 ->
  exists d n,
    parse_preliminary_variant_and_absolute_number EncodingModeTesting w = Ok (d, n) /\
    encode_as_integer EncodingModeTesting bld d
    = Ok ((if bits w 0 11 <? 1093 then bits w 0 11 else 0) + 2 ^ 13 * bits w 13 83) /\
    (encode_as_integer EncodingModeTesting bld d = Ok w <->
     bits w 11 2 = 0 /\ bits w 96 32 = 0 /\ bits w 0 11 < 1093).
Proof. exact pf_C07_encode_decode. Qed.
Print Assumptions C07_encode_decode.

(** Expected: an accepted word with an assigned number survives.  It need not. *)
Theorem C07_canonical_refuted :
  exists w d n,
    w < 2 ^ 128 /\
    is_canonical_encoding EncodingModeTesting w = true /\
    0 < bits w 0 11 < 1093 /\
    parse_preliminary_variant_and_absolute_number EncodingModeTesting w = Ok (d, n) /\
    forall bld, encode_as_integer EncodingModeTesting bld d <> Ok w.
Proof. exact pf_C07_canonical_refuted. Qed.
Print Assumptions C07_canonical_refuted.

Example C07_example :
  0x12345678FFFFFFFFF321C06C < 2 ^ 128 /\ bits 0x12345678FFFFFFFFF321C06C 11 2 = 0 /\
  bits 0x12345678FFFFFFFFF321C06C 96 32 = 0 /\ bits 0x12345678FFFFFFFFF321C06C 0 11 = 108.
Proof. exact pf_C07_example. Qed.

Theorem C08_encoders_agree :
  forall bld d, typed 16 d ->
  match encode_as_integer EncodingModeProduction bld d,
        encode_as_integer EncodingModeTesting bld d with
  | Panic, Panic => True
  | Ok wp, Ok wt =>
      bits wp 0 48 = bits wt 0 48 /\
      bits wt 64 16 = bits wp 48 16 /\
      bits wt 48 16 = 0 /\ bits wt 80 48 = 0 /\
      parse_preliminary_variant_and_absolute_number EncodingModeProduction wp
      = parse_preliminary_variant_and_absolute_number EncodingModeTesting wt
  | _, _ => False
  end.
Proof. exact pf_C08_encoders_agree. Qed.
Print Assumptions C08_encoders_agree.

Theorem C08_decoders_agree :
  forall wp wt, wp < 2 ^ 64 -> wt < 2 ^ 128 ->
  bits wt 0 48 = bits wp 0 48 -> bits wt 48 16 = 0 -> bits wt 64 32 = bits wp 48 16 ->
  parse_preliminary_variant_and_absolute_number EncodingModeProduction wp
  = parse_preliminary_variant_and_absolute_number EncodingModeTesting wt.
Proof. exact pf_C08_decoders_agree. Qed.
Print Assumptions C08_decoders_agree.

Example C08_example :
  let wp := 0x0001FFFF07F3A06C in let wt := 0x010000FFFF07F3A06C mod 2 ^ 48 + 2 ^ 64 in
  wp < 2 ^ 64 /\ wt < 2 ^ 128 /\ bits wt 0 48 = bits wp 0 48 /\ bits wt 48 16 = 0 /\
  bits wt 64 32 = bits wp 48 16 /\
  encode_as_integer EncodingModeTesting Debug example_d = Ok wt.
Proof. exact pf_C08_example. Qed.

Theorem C09_canonical :
  forall m w,
  (is_canonical_encoding (mode_impl m) w = true <->
   N.testbit w 11 = false /\ N.testbit w 12 = false).
Proof. exact pf_C09_canonical. Qed.
Print Assumptions C09_canonical.

Theorem C09_encoded_canonical :
  forall m bld d w, typed (mode_imm_bits m) d ->
  encode_as_integer (mode_impl m) bld d = Ok w -> is_canonical_encoding (mode_impl m) w = true.
Proof. exact pf_C09_encoded_canonical. Qed.
Print Assumptions C09_encoded_canonical.

Example C09_example :
  is_canonical_encoding EncodingModeProduction 2047 = true /\
  is_canonical_encoding EncodingModeProduction 2048 = false /\
  is_canonical_encoding EncodingModeTesting (2 ^ 127 + 4096) = false.
Proof. exact pf_C09_example. Qed.

Theorem C10_bytes :
  forall m bld d, typed (mode_imm_bits m) d ->
  match serialize_as_bytes (mode_impl m) bld d, serialize_as_integer (mode_impl m) bld d with
  | Panic, Panic => True
  | Ok b, Ok w => List.length b = mode_bytes m /\ is_bytes b /\ be_value b = w
  | _, _ => False
  end.
Proof. exact pf_C10_bytes. Qed.
Print Assumptions C10_bytes.

(** Equal bytes mean equal words: no information is lost. *)
Theorem C10_lossless :
  forall m bld1 bld2 d1 d2 b w1 w2,
  typed (mode_imm_bits m) d1 -> typed (mode_imm_bits m) d2 ->
  serialize_as_bytes (mode_impl m) bld1 d1 = Ok b ->
  serialize_as_bytes (mode_impl m) bld2 d2 = Ok b ->
  serialize_as_integer (mode_impl m) bld1 d1 = Ok w1 ->
  serialize_as_integer (mode_impl m) bld2 d2 = Ok w2 -> w1 = w2.
Proof. exact pf_C10_lossless. Qed.
Print Assumptions C10_lossless.

Example C10_example :
  typed 16 example_d /\
  serialize_as_bytes EncodingModeProduction Debug example_d
  = Ok [0x00; 0x01; 0xFF; 0xFF; 0x07; 0xF3; 0xA0; 0x6C].
Proof. exact pf_C10_example. Qed.

Theorem C11_split_pc :
  forall m pc,
  let '(word, sub) := split_pc (mode_impl m) pc in
  pc = mode_per_word m * word + sub /\ sub < mode_per_word m.
Proof. exact pf_C11_split_pc. Qed.
Print Assumptions C11_split_pc.

(** Selecting sub-word [s] of a 32-byte big-endian word reads its bytes
    [s*width .. (s+1)*width-1], and never reaches the [unreachable!()] arm. *)
Theorem C11_select :
  forall m v s l,
  u256_typed v -> s < mode_per_word m ->
  is_bytes l -> List.length l = 32%nat -> u256_value v = be_value l ->
  integer_representaiton_from_u256 (mode_impl m) v s
  = Ok (be_value (firstn (mode_bytes m) (skipn (mode_bytes m * N.to_nat s) l))).
Proof. exact pf_C11_select. Qed.
Print Assumptions C11_select.

Theorem C11_select_panics :
  forall m v s, mode_per_word m <= s ->
  integer_representaiton_from_u256 (mode_impl m) v s = Panic.
Proof. exact pf_C11_select_panics. Qed.
Print Assumptions C11_select_panics.

(** Fetching from a code page that holds a program (of any length, padded to whole memory
    words) gives the instruction word with that index. *)
Theorem C11_fetch_program :
  forall m page prog pad pc w,
  Forall (fun x => x < 2 ^ mode_word_bits m) prog -> is_bytes pad ->
  let bytes := flat_map (to_be_bytes (mode_bytes m)) prog ++ pad in
  (List.length bytes mod 32 = 0)%nat ->
  page_holds page bytes ->
  nth_error prog (N.to_nat pc) = Some w ->
  fetch m page pc = Ok w.
Proof. exact pf_C11_fetch_program. Qed.
Print Assumptions C11_fetch_program.

(** End to end: serialize a list of instructions, lay the bytes out, fetch and decode. *)
Theorem C11_end_to_end :
  forall m bld page prog pad chunks pc d,
  Forall (fun d => typed (mode_imm_bits m) d /\ regs_in_range d) prog -> is_bytes pad ->
  Forall2 (fun d b => serialize_as_bytes (mode_impl m) bld d = Ok b) prog chunks ->
  let bytes := List.concat chunks ++ pad in
  (List.length bytes mod 32 = 0)%nat ->
  page_holds page bytes ->
  nth_error prog (N.to_nat pc) = Some d ->
  exists w n, fetch m page pc = Ok w /\
    parse_preliminary_variant_and_absolute_number (mode_impl m) w = Ok (d, n).
Proof. exact pf_C11_end_to_end. Qed.
Print Assumptions C11_end_to_end.

(** A five-instruction program padded to two memory words. *)
Example C11_example :
  let prog := [1; 0x0001FFFF07F3A06C; 3; 4; 5] in
  let bytes := flat_map (to_be_bytes 8) prog ++ repeat 0 24 in
  let page := fun k => if k =? 0 then mkU256 4 3 0x0001FFFF07F3A06C 1 else mkU256 0 0 0 5 in
  Forall (fun x => x < 2 ^ 64) prog /\ is_bytes (repeat 0 24) /\
  (List.length bytes mod 32 = 0)%nat /\ page_holds page bytes /\
  fetch ProductionMode page 4 = Ok 5.
Proof. exact pf_C11_example. Qed.

(** Two instructions and a 16-byte pad, in production mode. *)
Example C11_end_to_end_example :
  let nop := mkOpcodeVariant (Op_Nop nopOpcode) (Full UseRegOnly) (Full UseRegOnly)
               (false, false) in
  let prog := [mkDecodedOpcode nop Always 0 0 0 0 0 0; example_d] in
  let chunks := [[0; 0; 0; 0; 0; 0; 0; 1]; [0; 1; 0xFF; 0xFF; 7; 0xF3; 0xA0; 0x6C]] in
  let page := fun _ => mkU256 0 0 0x0001FFFF07F3A06C 1 in
  Forall (fun d => typed 16 d /\ regs_in_range d) prog /\ is_bytes (repeat 0 16) /\
  Forall2 (fun d b => serialize_as_bytes EncodingModeProduction Debug d = Ok b) prog chunks /\
  (List.length (List.concat chunks ++ repeat 0%N 16) mod 32 = 0)%nat /\
  page_holds page (List.concat chunks ++ repeat 0 16) /\
  nth_error prog (N.to_nat 1) = Some example_d.
Proof. exact pf_C11_end_to_end_example. Qed.

(** [mask_into_panic] turns any instruction into the exception-revert instruction with its
    immediates kept. *)
Theorem C24_panic :
  forall m bld d, imm_0 d < 2 ^ mode_imm_bits m -> imm_1 d < 2 ^ mode_imm_bits m ->
  exists w e v,
    PANIC_OPCODE_VARIANT = Ok v /\
    mask_into_panic d = mkDecodedOpcode v Always 0 0 0 0 (imm_0 d) (imm_1 d) /\
    opcode v = Op_Ret RetOpcode_Panic /\ flags v = (false, false) /\
    exception_revert_encoding (mode_impl m) bld = Ok e /\
    serialize_as_integer (mode_impl m) bld (mask_into_panic d) = Ok w /\
    w = e + 2 ^ 32 * imm_0 d + 2 ^ (32 + mode_imm_bits m) * imm_1 d.
Proof. exact pf_C24_panic. Qed.
Print Assumptions C24_panic.

Theorem C24_nop :
  forall m bld d, imm_0 d < 2 ^ mode_imm_bits m -> imm_1 d < 2 ^ mode_imm_bits m ->
  exists w e v,
    NOP_OPCODE_VARIANT = Ok v /\
    mask_into_nop d = mkDecodedOpcode v Always 0 0 0 0 (imm_0 d) (imm_1 d) /\
    opcode v = Op_Nop nopOpcode /\ flags v = (false, false) /\
    nop_encoding (mode_impl m) bld = Ok e /\
    serialize_as_integer (mode_impl m) bld (mask_into_nop d) = Ok w /\
    w = e + 2 ^ 32 * imm_0 d + 2 ^ (32 + mode_imm_bits m) * imm_1 d.
Proof. exact pf_C24_nop. Qed.
Print Assumptions C24_nop.

(** Any sequence of masks has the effect of its last one. *)
Theorem C24_last_mask_wins :
  forall (masks : list bool) d,
  let apply := fun d (to_panic : bool) => if to_panic then mask_into_panic d else mask_into_nop d in
  forall last, fold_left apply (masks ++ [last]) d = apply d last.
Proof. exact pf_C24_last_mask_wins. Qed.
Print Assumptions C24_last_mask_wins.

(** The property bitmask of a masked instruction is the exported constant. *)
Theorem C24_bitspread :
  forall d bld,
  exists p n, PANIC_BITSPREAD_U64 = Ok p /\ NOP_BITSPREAD_U64 = Ok n /\
    opcode_as_integer_bitmask bld (variant (mask_into_panic d)) DEFAULT_ISA_VERSION = Ok p /\
    opcode_as_integer_bitmask bld (variant (mask_into_nop d)) DEFAULT_ISA_VERSION = Ok n.
Proof. exact pf_C24_bitspread. Qed.
Print Assumptions C24_bitspread.

Example C24_example :
  let d := mkDecodedOpcode spec_invalid Lt_ 255 17 3 99 0xABCD 5 in
  imm_0 d < 2 ^ 16 /\ imm_1 d < 2 ^ 16 /\
  serialize_as_integer EncodingModeProduction Debug (mask_into_panic d) = Ok 0x0005ABCD00000431.
Proof. exact pf_C24_example. Qed.

Theorem C25_nop_encoding :
  forall m bld, exists w v n,
    nop_encoding (mode_impl m) bld = Ok w /\ NOP_OPCODE_VARIANT = Ok v /\
    opcode v = Op_Nop nopOpcode /\ flags v = (false, false) /\
    parse_preliminary_variant_and_absolute_number (mode_impl m) w
    = Ok (mkDecodedOpcode v Always 0 0 0 0 0 0, n) /\
    is_canonical_encoding (mode_impl m) w = true /\ w <> 0.
Proof. exact pf_C25_nop_encoding. Qed.
Print Assumptions C25_nop_encoding.

Theorem C25_exception_encoding :
  forall m bld, exists w v n,
    exception_revert_encoding (mode_impl m) bld = Ok w /\ PANIC_OPCODE_VARIANT = Ok v /\
    opcode v = Op_Ret RetOpcode_Panic /\ flags v = (false, false) /\
    parse_preliminary_variant_and_absolute_number (mode_impl m) w
    = Ok (mkDecodedOpcode v Always 0 0 0 0 0 0, n) /\
    is_canonical_encoding (mode_impl m) w = true /\ w <> 0.
Proof. exact pf_C25_exception_encoding. Qed.
Print Assumptions C25_exception_encoding.

(** Exactly the words with zero or unassigned low 11 bits decode to an explicit panic, and
    then to Invalid. *)
Theorem C25_explicit_panic :
  forall m w, w < 2 ^ mode_word_bits m ->
  exists d n,
    parse_preliminary_variant_and_absolute_number (mode_impl m) w = Ok (d, n) /\
    (OpcodeVariant_is_explicit_panic (variant d) = true <->
     bits w 0 11 = 0 \/ 1093 <= bits w 0 11) /\
    (variant d = spec_invalid <-> bits w 0 11 = 0 \/ 1093 <= bits w 0 11).
Proof. exact pf_C25_explicit_panic. Qed.
Print Assumptions C25_explicit_panic.

Example C25_example :
  0xFFFF0000000007FF < 2 ^ 64 /\ 1093 <= bits 0xFFFF0000000007FF 0 11 /\
  0 < bits 0x0001FFFF07F3A06C 0 11 < 1093.
Proof. exact pf_C25_example. Qed.

(** The default instruction cannot be serialized in any mode or build, although it is unconditional
    and all its registers and immediates are zero, as in a NOP. *)
Theorem C26_default_refuted :
  forall m bld,
  (condition DecodedOpcode_default = Always /\
   forall field, In field [src0_reg_idx; src1_reg_idx; dst0_reg_idx; dst1_reg_idx; imm_0; imm_1] ->
     field DecodedOpcode_default = 0) /\
  serialize_as_integer (mode_impl m) bld DecodedOpcode_default = Panic /\
  serialize_as_bytes (mode_impl m) bld DecodedOpcode_default = Panic /\
  ~ in_table (variant DecodedOpcode_default) /\
  serialize_as_integer (mode_impl m) bld (mask_into_nop DecodedOpcode_default)
  = nop_encoding (mode_impl m) bld.
Proof. exact pf_C26_default_refuted. Qed.
Print Assumptions C26_default_refuted.

Example C26_example :
  DecodedOpcode_default <> mask_into_nop DecodedOpcode_default /\
  exists w, serialize_as_integer EncodingModeTesting Debug (mask_into_nop DecodedOpcode_default) = Ok w.
Proof. exact pf_C26_example. Qed.
