(** * The instructions a machine comes by (C93)

    Statements only: each proof is the lemma of the same name in [ProofsNoPanic]. *)

From Coq Require Import Arith NArith List Bool String Ascii.
From Verif Require Import Machine Operands OpcodeTrait Opcodes AllOpcodes Tables Decoding SpecIsa SpecFamilies
  SpecCodec SpecNoPanic TableProofs TableProofs2 CodecProofs CodecProofs2 ProofsCodec ProofsTables ProofsFamilies ProofsLayout ProofsNoPanic.
Import ListNotations.
Open Scope N_scope.

(** Whatever the memory holds, fetching and decoding return at every program counter. *)
Theorem C93_fetch :
  forall m page pc, (forall k, u256_typed (page k)) ->
  exists w d n, fetch m page pc = Ok w /\ w < 2 ^ mode_word_bits m /\
    parse_preliminary_variant_and_absolute_number (mode_impl m) w = Ok (d, n).
Proof. exact pf_C93_fetch. Qed.
Print Assumptions C93_fetch.

(** They are the instructions with a variant of the table, sixteen registers and immediates of the
    right width, and each is decoded from some word: masking and patching lead to no others. *)
Theorem C93_exact :
  forall m d,
    (obtained m d <-> in_table (variant d) /\ typed (mode_imm_bits m) d /\ regs_in_range d) /\
    (obtained m d <-> exists w n, w < 2 ^ mode_word_bits m /\
       parse_preliminary_variant_and_absolute_number (mode_impl m) w = Ok (d, n)).
Proof. exact pf_C93_exact. Qed.
Print Assumptions C93_exact.

(** No function of the crate panics on them: serializing, decoding the result, the lookups, the
    properties the circuits read and the queries about operands. *)
Theorem C93_safe :
  forall m d, obtained m d ->
    (forall bld, exists w b,
       serialize_as_integer (mode_impl m) bld d = Ok w /\
       serialize_as_bytes (mode_impl m) bld d = Ok b /\
       (exists n, parse_preliminary_variant_and_absolute_number (mode_impl m) w = Ok (d, n)) /\
       is_canonical_encoding (mode_impl m) w = true) /\
    (exists canonical monotonic n t p q price mask,
       OPCODE_TO_CANONICAL_INDEX_LOOKUP_MAP = Ok canonical /\ map_get canonical (variant d) = Some n /\
       OPCODE_TO_MONOTONIC_INDEX_NUMBER_MAP = Ok monotonic /\
       map_get monotonic (variant d) = Some (mkVariantMonotonicNumber n) /\
       OPCODES_TABLE = Ok t /\ nth_error t (N.to_nat n) = Some (variant d) /\
       OPCODES_PRICES = Ok p /\ nth_error p (N.to_nat n) = Some price /\
       OPCODES_PROPS_INTEGER_BITMASKS = Ok q /\ nth_error q (N.to_nat n) = Some mask) /\
    (forall bld v, v <= 1 ->
       returns (opcode_as_integer_bitmask bld (variant d) v) /\
       returns (Opcode_can_have_src0_from_mem (opcode (variant d)) v) /\
       returns (Opcode_can_write_dst0_into_memory (opcode (variant d)) v) /\
       returns (Opcode_input_operands (opcode (variant d)) v) /\
       returns (Opcode_output_operands (opcode (variant d)) v)).
Proof. exact pf_C93_safe. Qed.
Print Assumptions C93_safe.

(** No larger class is safe: with overflow checks everything else of the right types panics. *)
Theorem C93_largest :
  forall m d, typed (mode_imm_bits m) d ->
    (returns (serialize_as_integer (mode_impl m) Debug d) <-> obtained m d) /\
    (returns (serialize_as_bytes (mode_impl m) Debug d) <-> obtained m d).
Proof. exact pf_C93_largest. Qed.
Print Assumptions C93_largest.

(** A patched instruction that was fetched, one whose register does not exist, and the default. *)
Example C93_example :
  obtained ProductionMode example_d /\
  obtained TestingMode (mask_into_panic example_d) /\
  ~ obtained ProductionMode (mkDecodedOpcode (variant example_d) Always 16 0 0 0 0 0) /\
  forall m, ~ obtained m DecodedOpcode_default.
Proof. exact pf_C93_example. Qed.
