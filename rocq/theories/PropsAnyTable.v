(** * The codec for an arbitrary opcode table (C77)

    Statements only: each proof is the lemma of the same name in [ProofsAnyTable]. *)

From Coq Require Import Arith NArith List Bool String Ascii.
From Verif Require Import Machine Constants Operands OpcodeTrait Opcodes AllOpcodes Tables Decoding
  SpecIsa SpecFamilies SpecCodec SpecSets SpecAnyTable ProofsAnyTable.
Import ListNotations.
Open Scope N_scope.

Theorem C77_decode :
  forall m t w,
    (bits w 0 11 < N.of_nat (List.length t) ->
     exists d, decode_in m t w = Ok (d, mkVariantMonotonicNumber (bits w 0 11)) /\
               fields_in t (mode_imm_bits m) w d) /\
    (N.of_nat (List.length t) <= bits w 0 11 -> decode_in m t w = Panic).
Proof. exact pf_C77_decode. Qed.
Print Assumptions C77_decode.

(** The whole behaviour of the encoder, for every table. *)
Theorem C77_encode :
  forall m t bld d w,
    typed (mode_imm_bits m) d ->
    (encode_in m t bld d = Ok w <->
     ~ spec_repeats t /\ (bld = Debug -> regs_in_range d) /\
     exists n, first_at t (variant d) n /\ n <= 2048 /\
       w = spec_word (mode_imm_bits m) n (spec_wrap d)).
Proof. exact pf_C77_encode. Qed.
Print Assumptions C77_encode.

(** Whatever was encoded is decoded again, with the number of the variant. *)
Theorem C77_decode_encode :
  forall m t bld d w,
    (List.length t <= 2048)%nat -> typed (mode_imm_bits m) d ->
    encode_in m t bld d = Ok w ->
    exists n, first_at t (variant d) n /\
      decode_in m t w = Ok (spec_wrap d, mkVariantMonotonicNumber n) /\
      (regs_in_range d -> spec_wrap d = d) /\
      w < 2 ^ (32 + 2 * mode_imm_bits m) /\ bits w 11 2 = 0.
Proof. exact pf_C77_decode_encode. Qed.
Print Assumptions C77_decode_encode.

(** Decoding any word and encoding the result gives the word with the gap cleared, the bits above
    the last immediate dropped and the number replaced by the first one of its variant; only the
    invalid variant can have several. *)
Theorem C77_encode_decode :
  forall m t bld w,
    (List.length t <= 2048)%nat -> ~ spec_repeats t ->
    bits w 0 11 < N.of_nat (List.length t) ->
    exists d n, decode_in m t w = Ok (d, mkVariantMonotonicNumber (bits w 0 11)) /\
      first_at t (variant d) n /\
      encode_in m t bld d = Ok (n + 2 ^ 13 * bits w 13 (19 + 2 * mode_imm_bits m)) /\
      (variant d <> spec_invalid -> n = bits w 0 11).
Proof. exact pf_C77_encode_decode. Qed.
Print Assumptions C77_encode_decode.

(** Instructions over the same table never share a word. *)
Theorem C77_injective :
  forall m t bld bld' d d' w,
    (List.length t <= 2048)%nat ->
    typed (mode_imm_bits m) d -> regs_in_range d ->
    typed (mode_imm_bits m) d' -> regs_in_range d' ->
    encode_in m t bld d = Ok w -> encode_in m t bld' d' = Ok w -> d = d'.
Proof. exact pf_C77_injective. Qed.
Print Assumptions C77_injective.

(** Whenever synthesis with 11 bits succeeds and no two variants of the newest version mean the
    same, every variant of that version can be encoded and every word can be decoded. *)
Theorem C77_synthesised :
  forall I p bld u t, 11 < p ->
    synthesize_opcode_decoding_tables_of I p bld 11 u = Ok t ->
    unambiguous I u ->
    ~ spec_repeats t /\ List.length t = 2048%nat /\
    (forall m w, exists d, decode_in m t w = Ok (d, mkVariantMonotonicNumber (bits w 0 11)) /\
       fields_in t (mode_imm_bits m) w d) /\
    (forall m b vs v l d, versions_used I u (vs ++ [v]) -> all_variants_in_version_of I v = Ok l ->
       In (variant d) l -> typed (mode_imm_bits m) d -> regs_in_range d ->
       exists w n, encode_in m t b d = Ok w /\ first_at t (variant d) n /\
         decode_in m t w = Ok (d, mkVariantMonotonicNumber n)).
Proof. exact pf_C77_synthesised. Qed.
Print Assumptions C77_synthesised.

(** The assertion on the width of the number does not bound it: it lets the number 2048 pass, and
    such a word decodes to entry 0.  (The table of the source has exactly 2048 entries.) *)
Theorem C77_width_refuted :
  exists t d w,
    List.length t = 2049%nat /\ ~ spec_repeats t /\ typed 16 d /\ regs_in_range d /\
    encode_in ProductionMode t Debug d = Ok w /\ bits w 11 2 = 1 /\
    exists d', decode_in ProductionMode t w = Ok (d', mkVariantMonotonicNumber 0) /\
      variant d' <> variant d.
Proof. exact pf_C77_width_refuted. Qed.
Print Assumptions C77_width_refuted.

(** The source uses its own table. *)
Theorem C77_current :
  exists t, OPCODES_TABLE = Ok t /\ List.length t = 2048%nat /\ ~ spec_repeats t /\
    forall m,
      (forall w, decode_in m t w
                 = parse_preliminary_variant_and_absolute_number (mode_impl m) w) /\
      (forall bld d, encode_in m t bld d = encode_as_integer (mode_impl m) bld d).
Proof. exact pf_C77_current. Qed.
Print Assumptions C77_current.

(** The codec over the table synthesised for another instruction set. *)
Example C77_example :
  exists t, synthesize_opcode_decoding_tables_of toy_set 64 Debug 11 1 = Ok t /\
    let d := mkDecodedOpcode
               (mkOpcodeVariant (Op_Nop nopOpcode) (Full UseCodePage) (Full UseStackWithOffset)
                  (true, true)) GtOrLt 1 2 3 15 513 65535 in
    exists w, encode_in ProductionMode t Debug d = Ok w /\ bits w 0 11 = 94 /\
      decode_in ProductionMode t w = Ok (d, mkVariantMonotonicNumber 94) /\
      decode_in ProductionMode t (w + 2 ^ 11 * 3) = Ok (d, mkVariantMonotonicNumber 94).
Proof. exact pf_C77_example. Qed.
