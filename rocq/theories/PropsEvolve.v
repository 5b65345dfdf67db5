(** * Code that outlives a version (C78)

    Statements only: each proof is the lemma of the same name in [ProofsEvolve]. *)

From Coq Require Import Arith NArith List Bool String Ascii.
From Verif Require Import Machine Constants Operands OpcodeTrait Opcodes AllOpcodes Tables Decoding
  SpecIsa SpecFamilies SpecCodec SpecSets SpecAnyTable ProofsEvolve.
Import ListNotations.
Open Scope N_scope.

(** What was encoded for one version is decoded for every later one as the same instruction, with
    the same number, and encoding that gives the same word. *)
Theorem C78_forward :
  forall I p p' bld bld' u u' t t', 11 < p -> 11 < p' -> u <= u' ->
    synthesize_opcode_decoding_tables_of I p bld 11 u = Ok t ->
    synthesize_opcode_decoding_tables_of I p' bld' 11 u' = Ok t' ->
    forall m b d w, typed (mode_imm_bits m) d -> encode_in m t b d = Ok w ->
      exists d' n, decode_in m t w = Ok (spec_wrap d, mkVariantMonotonicNumber n) /\
        decode_in m t' w = Ok (d', mkVariantMonotonicNumber n) /\
        same_instruction (spec_wrap d) d' /\
        (unambiguous I u -> unambiguous I u' -> forall b', encode_in m t' b' d' = Ok w).
Proof. exact pf_C78_forward. Qed.
Print Assumptions C78_forward.

(** Any word at all: where the older table has an instruction, the later one has the same.  So an
    older machine reads a newer program correctly or finds an invalid instruction. *)
Theorem C78_words :
  forall I p p' bld bld' u u' t t', 11 < p -> 11 < p' -> u <= u' ->
    synthesize_opcode_decoding_tables_of I p bld 11 u = Ok t ->
    synthesize_opcode_decoding_tables_of I p' bld' 11 u' = Ok t' ->
    forall m w, exists d d' n,
      decode_in m t w = Ok (d, n) /\ decode_in m t' w = Ok (d', n) /\
      (variant d <> spec_invalid -> same_instruction d d').
Proof. exact pf_C78_words. Qed.
Print Assumptions C78_words.

(** Whole programs, of any length. *)
Theorem C78_program :
  forall I p p' bld bld' u u' t t', 11 < p -> 11 < p' -> u <= u' ->
    synthesize_opcode_decoding_tables_of I p bld 11 u = Ok t ->
    synthesize_opcode_decoding_tables_of I p' bld' 11 u' = Ok t' ->
    unambiguous I u -> unambiguous I u' ->
    forall m b program words,
      Forall (typed (mode_imm_bits m)) program -> Forall regs_in_range program ->
      Forall2 (fun d w => encode_in m t b d = Ok w) program words ->
      exists program',
        Forall2 same_instruction program program' /\
        Forall2 (fun w d' => exists n, decode_in m t' w = Ok (d', n)) words program' /\
        forall b', Forall2 (fun d' w => encode_in m t' b' d' = Ok w) program' words.
Proof. exact pf_C78_program. Qed.
Print Assumptions C78_program.

(** The two spellings of an instruction have the same circuit bitmask in every instruction set. *)
Theorem C78_bitmask :
  forall I bld x y v, spec_equivalent x y ->
    opcode_as_integer_bitmask_of I bld x v = opcode_as_integer_bitmask_of I bld y v.
Proof. exact pf_C78_bitmask. Qed.
Print Assumptions C78_bitmask.

(** The versions 0 and 1 of the source. *)
Theorem C78_current :
  exists t0 t1,
    synthesize_opcode_decoding_tables Debug 11 0 = Ok t0 /\ OPCODES_TABLE = Ok t1 /\
    (forall m b d w, typed (mode_imm_bits m) d -> regs_in_range d -> encode_in m t0 b d = Ok w ->
       exists d' n, same_instruction d d' /\
         parse_preliminary_variant_and_absolute_number (mode_impl m) w = Ok (d', n) /\
         forall b', encode_as_integer (mode_impl m) b' d' = Ok w) /\
    (forall x, In x (spec_enumeration 0) -> In x t0).
Proof. exact pf_C78_current. Qed.
Print Assumptions C78_current.

(** In the toy set, version 1 lets the source of the second opcode be an immediate. *)
Example C78_example :
  exists t0 t1,
    synthesize_opcode_decoding_tables_of toy_set 64 Debug 11 0 = Ok t0 /\
    synthesize_opcode_decoding_tables_of toy_set 64 Debug 11 1 = Ok t1 /\ unambiguous toy_set 0 /\ unambiguous toy_set 1 /\
    let old := mkDecodedOpcode
                 (mkOpcodeVariant (Op_Ret RetOpcode_Ok) RegOnly RegOnly (false, false))
                 Lt_ 1 2 3 4 5 6 in
    let new := mkDecodedOpcode
                 (mkOpcodeVariant (Op_Ret RetOpcode_Ok) (RegOrImm RI_UseRegOnly) RegOnly
                    (false, false)) Lt_ 1 2 3 4 5 6 in
    exists w, encode_in ProductionMode t0 Debug old = Ok w /\
      decode_in ProductionMode t1 w = Ok (new, mkVariantMonotonicNumber 1) /\
      encode_in ProductionMode t1 Debug old = Panic /\
      encode_in ProductionMode t1 Debug new = Ok w.
Proof. exact pf_C78_example. Qed.
