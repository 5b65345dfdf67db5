(** * Pointer width (C73)

    Statements only: each proof is the lemma of the same name in [ProofsTarget]. *)

From Coq Require Import Arith NArith List Bool String Ascii.
From Verif Require Import Machine Constants Operands OpcodeTrait Opcodes AllOpcodes Tables Decoding
  Target SpecIsa SpecFamilies SpecCodec ProofsTarget.
Import ListNotations.
Open Scope N_scope.

(** On every target (Rust's pointers have at least 16 bits) both codecs are the same. *)
Theorem C73_codec :
  forall p, 16 <= p ->
    (forall w, prod_parse_on p w
               = parse_preliminary_variant_and_absolute_number EncodingModeProduction w) /\
    (forall w, test_parse_on p w
               = parse_preliminary_variant_and_absolute_number EncodingModeTesting w) /\
    (forall bld d, prod_encode_as_integer_on p bld d
                   = encode_as_integer EncodingModeProduction bld d) /\
    (forall bld d, test_encode_as_integer_on p bld d
                   = encode_as_integer EncodingModeTesting bld d).
Proof. exact pf_C73_codec. Qed.
Print Assumptions C73_codec.

(** Table synthesis is the same for widths below the pointer width; from there on it panics
    with overflow checks, and without them takes the width modulo the pointer width. *)
Theorem C73_tables :
  forall p, 16 <= p <= 64 ->
    (forall bld b v, b < p ->
       synthesize_opcode_decoding_tables_on p bld b v
       = synthesize_opcode_decoding_tables bld b v /\
       synthesize_opcode_decoding_tables_legacy_on p bld b v
       = synthesize_opcode_decoding_tables_legacy bld b v) /\
    (forall b v, p <= b ->
       synthesize_opcode_decoding_tables_on p Debug b v = Panic /\
       synthesize_opcode_decoding_tables_legacy_on p Debug b v = Panic /\
       synthesize_opcode_decoding_tables_on p Release b v
       = synthesize_opcode_decoding_tables Release (b mod p) v /\
       synthesize_opcode_decoding_tables_legacy_on p Release b v
       = synthesize_opcode_decoding_tables_legacy Release (b mod p) v) /\
    (forall bld, OPCODES_TABLE =
       let* t := synthesize_opcode_decoding_tables_on p bld OPCODES_TABLE_WIDTH
                   DEFAULT_ISA_VERSION in
       into_array (2 ^ OPCODES_TABLE_WIDTH) t).
Proof. exact pf_C73_tables. Qed.
Print Assumptions C73_tables.

(** Expected: a width below 64 gives the same table everywhere.  False from width 32 on: a
    32-bit release build takes width 34 as width 2, which does not fit the variants. *)
Theorem C73_refuted :
  ~ (forall b v, b < 64 ->
       synthesize_opcode_decoding_tables_on 32 Release b v
       = synthesize_opcode_decoding_tables_on 64 Release b v).
Proof. exact pf_C73_refuted. Qed.
Print Assumptions C73_refuted.

Example C73_example :
  16 <= 32 <= 64 /\ 34 mod 32 = 2 /\
  exists d, prod_parse_on 32 0x0001FFFF07F3A06C = Ok (d, mkVariantMonotonicNumber 108) /\
    imm_0 d = 0xFFFF /\ src1_reg_idx d = 15.
Proof. exact pf_C73_example. Qed.
