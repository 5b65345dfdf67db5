(** * The codecs for other places of the fields (C84)

    Statements only: each proof is the lemma of the same name in [ProofsRelayout]. *)

From Coq Require Import Arith NArith List Bool String Ascii.
From Verif Require Import Machine Constants Operands OpcodeTrait Opcodes AllOpcodes Tables Decoding
  Relayout SpecIsa SpecFamilies SpecCodec SpecSets SpecAnyTable SpecRelayout ProofsRelayout.
Import ListNotations.
Open Scope N_scope.

(** What the encoder does, for every choice of the places, overlapping or not. *)
Theorem C84_encode :
  forall m L t bld d w,
    usable m L -> typed (mode_imm_bits m) d ->
    (encode_at m L t bld d = Ok w <->
     ~ spec_repeats t /\ (bld = Debug -> regs_in_range d) /\
     exists n, first_at t (variant d) n /\ n <= 2 ^ table_width L /\
       spread m L n (spec_wrap d) w).
Proof. exact pf_C84_encode. Qed.
Print Assumptions C84_encode.

Theorem C84_decode :
  forall m L t w,
    usable m L ->
    (bits w 0 (table_width L) < N.of_nat (List.length t) ->
     exists d, decode_at m L t w = Ok (d, mkVariantMonotonicNumber (bits w 0 (table_width L))) /\
               fields_at m L t w d) /\
    (N.of_nat (List.length t) <= bits w 0 (table_width L) -> decode_at m L t w = Panic).
Proof. exact pf_C84_decode. Qed.
Print Assumptions C84_decode.

(** Every instruction survives encoding and decoding exactly if no two fields share a bit and
    all lie inside the word. *)
Theorem C84_roundtrip :
  forall m L t,
    usable m L -> t <> [] -> ~ spec_repeats t -> N.of_nat (List.length t) <= 2 ^ table_width L ->
    (separate m L <->
     forall bld d w, typed (mode_imm_bits m) d -> regs_in_range d ->
       encode_at m L t bld d = Ok w ->
       exists n, first_at t (variant d) n /\
         decode_at m L t w = Ok (d, mkVariantMonotonicNumber n)).
Proof. exact pf_C84_roundtrip. Qed.
Print Assumptions C84_roundtrip.

(** The decoder can be compiled exactly if every field starts inside its integer, the encoder
    if all fields after the number do, the check if number, gap and condition fit the head; the
    check then asks for a zero gap. *)
Theorem C84_constants :
  forall m L,
    ((exists t w r, decode_at m L t w = Ok r) <-> usable m L) /\
    ((exists t bld d w, encode_at m L t bld d = Ok w) <->
       Forall (fun k => k < mode_word_bits m)
         [condition_shift L; src_shift L; dst_shift L; imm0_shift L; imm1_shift L]) /\
    ((exists w b, canonical_at m L w = Ok b) <-> gap_usable m L) /\
    (gap_usable m L -> forall w, w < 2 ^ mode_word_bits m ->
       canonical_at m L w = Ok (bits w (table_width L) (gap L) =? 0)).
Proof. exact pf_C84_constants. Qed.
Print Assumptions C84_constants.

(** For separate fields, every encoded word passes the check exactly if no field has a bit in the
    gap; and every word that passes and whose number is the one of its variant survives decoding
    and encoding exactly if every bit after the number belongs to a field or to the gap. *)
Theorem C84_canonical :
  forall m L t,
    usable m L -> gap_usable m L -> separate m L -> t <> [] -> ~ spec_repeats t ->
    N.of_nat (List.length t) <= 2 ^ table_width L ->
    (gap_free m L <->
     forall bld d w, typed (mode_imm_bits m) d -> regs_in_range d ->
       encode_at m L t bld d = Ok w -> canonical_at m L w = Ok true) /\
    (gap_complete m L <->
     forall w x, w < 2 ^ mode_word_bits m -> canonical_at m L w = Ok true ->
       first_at t x (bits w 0 (table_width L)) ->
       exists d, decode_at m L t w = Ok (d, mkVariantMonotonicNumber (bits w 0 (table_width L))) /\
         forall bld, encode_at m L t bld d = Ok w).
Proof. exact pf_C84_canonical. Qed.
Print Assumptions C84_canonical.

(** With the other constants as they are, the table can have up to 13 bits, and every encoded
    word then passes the check; with 14 bits the crate does not compile.  In testing mode 32 bits
    after the immediates belong neither to a field nor to the gap. *)
Theorem C84_growth :
  forall m k,
    let L := with_width k (current_layout m) in
    (usable m L /\ gap_usable m L /\ separate m L <-> k <= 13) /\
    (gap_usable m L <-> k <= 13) /\
    (k <= 13 -> gap_free m L /\ (gap_complete m L <-> m = ProductionMode)).
Proof. exact pf_C84_growth. Qed.
Print Assumptions C84_growth.

(** With the constants of the source these are the codecs of the source. *)
Theorem C84_current :
  forall m,
    let L := current_layout m in
    usable m L /\ gap_usable m L /\ separate m L /\ gap_free m L /\
    (gap_complete m L <-> m = ProductionMode) /\
    (forall t w, decode_at m L t w = decode_in m t w) /\
    (forall t bld d, encode_at m L t bld d = encode_in m t bld d) /\
    (forall w, canonical_at m L w = Ok (is_canonical_encoding (mode_impl m) w)).
Proof. exact pf_C84_current. Qed.
Print Assumptions C84_current.

(** Widening the table alone: words of the narrower table are read alike, and a word of the
    wider table passes the check of the narrower one exactly if its number fits that table;
    without the check it would be read with the number taken modulo the size of the table. *)
Theorem C84_widen :
  forall m L k,
    let L' := with_width k L in
    usable m L -> separate m L -> usable m L' -> separate m L' -> table_width L <= k ->
    (forall t t' bld d w n,
       N.of_nat (List.length t) <= 2 ^ table_width L -> typed (mode_imm_bits m) d ->
       encode_at m L t bld d = Ok w -> first_at t (variant d) n ->
       nth_error t' (N.to_nat n) = Some (variant d) ->
       decode_at m L' t' w = Ok (spec_wrap d, mkVariantMonotonicNumber n) /\
       decode_at m L t w = Ok (spec_wrap d, mkVariantMonotonicNumber n)) /\
    (gap_usable m L -> gap_usable m L' -> gap_free m L' ->
     forall t' bld d w n,
       N.of_nat (List.length t') <= 2 ^ k -> typed (mode_imm_bits m) d ->
       encode_at m L' t' bld d = Ok w -> first_at t' (variant d) n ->
       canonical_at m L w = Ok (n <? 2 ^ table_width L) /\
       bits w 0 (table_width L) = n mod 2 ^ table_width L).
Proof. exact pf_C84_widen. Qed.
Print Assumptions C84_widen.

(** The check is not tied to the place of the condition: moving the condition one bit down into
    the gap leaves all instructions readable, but some encoded words fail the check. *)
Theorem C84_check_refuted :
  forall m, exists L,
    usable m L /\ gap_usable m L /\ separate m L /\ head_bits L = 16 /\ condition_shift L = 12 /\
    forall t, t <> [] -> ~ spec_repeats t ->
      exists d w, typed (mode_imm_bits m) d /\ regs_in_range d /\
        encode_at m L t Debug d = Ok w /\ canonical_at m L w = Ok false.
Proof. exact pf_C84_check_refuted. Qed.
Print Assumptions C84_check_refuted.

(** Another order of the fields and a table of 12 bits, and a layout whose fields overlap. *)
Example C84_example :
  let L := mkLayout 12 13 24 16 48 32 16 in
  let nop := mkOpcodeVariant (Op_Nop nopOpcode) (Full UseRegOnly) (Full UseRegOnly) (false, false) in
  let t := [spec_invalid; nop] in
  let d := mkDecodedOpcode nop Ne_ 1 2 3 15 513 65535 in
  usable ProductionMode L /\ gap_usable ProductionMode L /\ separate ProductionMode L /\
  gap_free ProductionMode L /\ ~ spec_repeats t /\ typed 16 d /\ regs_in_range d /\
  (exists w, encode_at ProductionMode L t Debug d = Ok w /\
     w = 1 + 2 ^ 13 * 6 + 2 ^ 16 * 0xf3 + 2 ^ 24 * 0x21 + 2 ^ 32 * 65535 + 2 ^ 48 * 513 /\
     decode_at ProductionMode L t w = Ok (d, mkVariantMonotonicNumber 1) /\
     canonical_at ProductionMode L w = Ok true) /\
  let O := mkLayout 11 13 16 23 32 48 16 in
  usable ProductionMode O /\ ~ separate ProductionMode O /\
  exists w d', encode_at ProductionMode O t Debug d = Ok w /\
     decode_at ProductionMode O t w = Ok (d', mkVariantMonotonicNumber 1) /\ src1_reg_idx d' = 10.
Proof. exact pf_C84_example. Qed.
