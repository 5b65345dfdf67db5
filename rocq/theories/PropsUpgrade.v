(** * Upgrading version and table width together (C85)

    Statements only: each proof is the lemma of the same name in [ProofsUpgrade]. *)

From Coq Require Import Arith NArith List Bool String Ascii.
From Verif Require Import Machine Constants Operands OpcodeTrait Opcodes AllOpcodes Tables Decoding
  Relayout SpecIsa SpecFamilies SpecCodec SpecSets SpecAnyTable SpecRelayout ProofsUpgrade.
Import ListNotations.
Open Scope N_scope.

(** What was encoded with the older table is decoded with the newer one, of whatever width, as
    the same instruction, with the same number, and encoding that gives the same word. *)
Theorem C85_forward :
  forall I p p' bld bld' u u' t t' m L k,
    let L' := with_width k L in
    usable m L -> separate m L -> usable m L' -> separate m L' ->
    table_width L < p -> k < p' -> u <= u' ->
    synthesize_opcode_decoding_tables_of I p bld (table_width L) u = Ok t ->
    synthesize_opcode_decoding_tables_of I p' bld' k u' = Ok t' ->
    forall b d w, typed (mode_imm_bits m) d -> encode_at m L t b d = Ok w ->
      exists d' n, decode_at m L t w = Ok (spec_wrap d, mkVariantMonotonicNumber n) /\
        decode_at m L' t' w = Ok (d', mkVariantMonotonicNumber n) /\
        same_instruction (spec_wrap d) d' /\
        (unambiguous I u -> unambiguous I u' -> forall b', encode_at m L' t' b' d' = Ok w).
Proof. exact pf_C85_forward. Qed.
Print Assumptions C85_forward.

(** Whole programs, of any length. *)
Theorem C85_program :
  forall I p p' bld bld' u u' t t' m L k,
    let L' := with_width k L in
    usable m L -> separate m L -> usable m L' -> separate m L' ->
    table_width L < p -> k < p' -> u <= u' ->
    synthesize_opcode_decoding_tables_of I p bld (table_width L) u = Ok t ->
    synthesize_opcode_decoding_tables_of I p' bld' k u' = Ok t' ->
    unambiguous I u -> unambiguous I u' ->
    forall b program words,
      Forall (typed (mode_imm_bits m)) program -> Forall regs_in_range program ->
      Forall2 (fun d w => encode_at m L t b d = Ok w) program words ->
      exists program',
        Forall2 same_instruction program program' /\
        Forall2 (fun w d' => exists n, decode_at m L' t' w = Ok (d', n)) words program' /\
        forall b', Forall2 (fun d' w => encode_at m L' t' b' d' = Ok w) program' words.
Proof. exact pf_C85_program. Qed.
Print Assumptions C85_program.

(** An older machine that applies its canonicity check reads a word of the newer table as the
    same instruction or as the invalid one, or rejects it; it rejects exactly the numbers that
    its table does not have. *)
Theorem C85_rollback :
  forall I p p' bld bld' u u' t t' m L k,
    let L' := with_width k L in
    usable m L -> separate m L -> usable m L' -> separate m L' ->
    gap_usable m L -> gap_usable m L' -> gap_free m L' -> table_width L <= k ->
    table_width L < p -> k < p' -> u <= u' ->
    synthesize_opcode_decoding_tables_of I p bld (table_width L) u = Ok t ->
    synthesize_opcode_decoding_tables_of I p' bld' k u' = Ok t' ->
    forall b d w, typed (mode_imm_bits m) d -> encode_at m L' t' b d = Ok w ->
      exists n, first_at t' (variant d) n /\
        canonical_at m L w = Ok (n <? N.of_nat (List.length t)) /\
        (canonical_at m L w = Ok true ->
         exists d', decode_at m L t w = Ok (d', mkVariantMonotonicNumber n) /\
           (variant d' = spec_invalid \/ same_instruction d' (spec_wrap d))).
Proof. exact pf_C85_rollback. Qed.
Print Assumptions C85_rollback.

(** Without the check it would read another instruction: the toy set has 2 variants in version 0
    and 99 in version 1, which need 7 bits. *)
Theorem C85_unchecked_refuted :
  forall m, exists t t' d d' w,
    let L := with_width 6 (current_layout m) in
    let L' := with_width 7 (current_layout m) in
    synthesize_opcode_decoding_tables_of toy_set 64 Debug 6 0 = Ok t /\
    synthesize_opcode_decoding_tables_of toy_set 64 Debug 7 1 = Ok t' /\
    typed (mode_imm_bits m) d /\ regs_in_range d /\
    encode_at m L' t' Debug d = Ok w /\ canonical_at m L w = Ok false /\
    decode_at m L t w = Ok (d', mkVariantMonotonicNumber 1) /\
    variant d' <> spec_invalid /\ ~ same_instruction d' d.
Proof. exact pf_C85_unchecked_refuted. Qed.
Print Assumptions C85_unchecked_refuted.

(** Widening the table of the source changes no word of any instruction, and no reading of a word
    whose number it has; further numbers are read as invalid. *)
Theorem C85_current :
  forall m k, 11 <= k -> k <= 13 ->
    let L' := with_width k (current_layout m) in
    exists t', synthesize_opcode_decoding_tables Debug k 1 = Ok t' /\
      (forall bld d, typed (mode_imm_bits m) d ->
         encode_at m L' t' bld d = encode_as_integer (mode_impl m) bld d) /\
      (forall w, bits w 0 k < 2048 ->
         decode_at m L' t' w = parse_preliminary_variant_and_absolute_number (mode_impl m) w) /\
      (forall w, 2048 <= bits w 0 k ->
         exists d, decode_at m L' t' w = Ok (d, mkVariantMonotonicNumber (bits w 0 k)) /\
           variant d = spec_invalid).
Proof. exact pf_C85_current. Qed.
Print Assumptions C85_current.

(** The toy set: 6 bits for version 0 and 7 bits for version 1. *)
Example C85_example :
  forall m, exists t t' w,
    let L := with_width 6 (current_layout m) in
    let L' := with_width 7 L in
    usable m L /\ separate m L /\ gap_usable m L /\
    usable m L' /\ separate m L' /\ gap_usable m L' /\ gap_free m L' /\
    synthesize_opcode_decoding_tables_of toy_set 64 Debug (table_width L) 0 = Ok t /\
    synthesize_opcode_decoding_tables_of toy_set 64 Debug 7 1 = Ok t' /\
    unambiguous toy_set 0 /\ unambiguous toy_set 1 /\
    let old := mkDecodedOpcode
                 (mkOpcodeVariant (Op_Ret RetOpcode_Ok) RegOnly RegOnly (false, false))
                 Lt_ 1 2 3 4 5 6 in
    let new := mkDecodedOpcode
                 (mkOpcodeVariant (Op_Ret RetOpcode_Ok) (RegOrImm RI_UseRegOnly) RegOnly
                    (false, false)) Lt_ 1 2 3 4 5 6 in
    encode_at m L t Debug old = Ok w /\ encode_at m L' t' Debug new = Ok w /\
    canonical_at m L w = Ok true /\
    decode_at m L t w = Ok (old, mkVariantMonotonicNumber 1) /\
    decode_at m L' t' w = Ok (new, mkVariantMonotonicNumber 1) /\ same_instruction old new.
Proof. exact pf_C85_example. Qed.
