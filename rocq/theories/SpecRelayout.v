(** * Specification of the codecs for other places of the fields.  Definitions only. *)

From Coq Require Import NArith List Bool.
From Verif Require Import Machine Tables Decoding Relayout SpecCodec.
Import ListNotations.
Open Scope N_scope.

(** The decoder, the encoder and the canonicity check of a mode for given constants; the decoder
    reads the table [t] and the encoder uses the lookup map built from [t]. *)
Definition decode_at (m : mode) (L : layout) (t : list OpcodeVariant) (w : N)
  : res (DecodedOpcode * VariantMonotonicNumber) :=
  match m with
  | ProductionMode => prod_parse_at L (Ok t) w
  | TestingMode => test_parse_at L (Ok t) w
  end.
Definition encode_at (m : mode) (L : layout) (t : list OpcodeVariant) (bld : build)
    (d : DecodedOpcode) : res N :=
  match m with
  | ProductionMode => prod_encode_as_integer_at L (canonical_map_of_table t) bld d
  | TestingMode => test_encode_as_integer_at L (canonical_map_of_table t) bld d
  end.
Definition canonical_at (m : mode) (L : layout) (w : N) : res bool :=
  match m with
  | ProductionMode => prod_is_canonical_encoding_at L w
  | TestingMode => test_is_canonical_encoding_at L w
  end.
Definition current_layout (m : mode) : layout :=
  match m with ProductionMode => prod_layout | TestingMode => test_layout end.
Definition with_width (k : N) (L : layout) : layout :=
  mkLayout k (condition_shift L) (src_shift L) (dst_shift L) (imm0_shift L) (imm1_shift L)
    (head_bits L).

(** Every field starts inside the integer it is read from. *)
Definition usable (m : mode) (L : layout) : Prop :=
  table_width L < 64 /\ condition_shift L < 64 /\
  src_shift L < mode_word_bits m /\ dst_shift L < mode_word_bits m /\
  imm0_shift L < mode_word_bits m /\ imm1_shift L < mode_word_bits m.

(** The number, the gap and a condition make up the first [head_bits] bits. *)
Definition gap (L : layout) : N := head_bits L - table_width L - 3.
Definition gap_usable (m : mode) (L : layout) : Prop :=
  table_width L < mode_word_bits m /\ table_width L + 3 <= head_bits L /\
  gap L < mode_word_bits m.

(** The fields after the number, as a place and a length, and their values in an instruction:
    the condition, four registers, two immediates. *)
Definition places (m : mode) (L : layout) : list (N * N) :=
  [ (condition_shift L, 3);
    (src_shift L, 4); (src_shift L + 4, 4); (dst_shift L, 4); (dst_shift L + 4, 4);
    (imm0_shift L, mode_imm_bits m); (imm1_shift L, mode_imm_bits m) ].
Definition values (d : DecodedOpcode) : list N :=
  [ spec_cond_number (condition d); src0_reg_idx d; src1_reg_idx d; dst0_reg_idx d;
    dst1_reg_idx d; imm_0 d; imm_1 d ].

(** [w] has the bits of the number [n] and of every field of [d] at its place, and no others. *)
Definition spread (m : mode) (L : layout) (n : N) (d : DecodedOpcode) (w : N) : Prop :=
  w < 2 ^ mode_word_bits m /\
  forall i, i < mode_word_bits m ->
    N.testbit w i
    = N.testbit n i
      || existsb (fun '((lo, _), v) => (lo <=? i) && N.testbit v (i - lo))
           (combine (places m L) (values d)).

(** [d] is what the fields of [w] say; the condition is looked for in the low 64 bits only. *)
Definition fields_at (m : mode) (L : layout) (t : list OpcodeVariant) (w : N)
    (d : DecodedOpcode) : Prop :=
  nth_error t (N.to_nat (bits w 0 (table_width L))) = Some (variant d) /\
  spec_condition (bits (w mod 2 ^ 64) (condition_shift L) 3) = Some (condition d) /\
  src0_reg_idx d = bits w (src_shift L) 4 /\ src1_reg_idx d = bits w (src_shift L + 4) 4 /\
  dst0_reg_idx d = bits w (dst_shift L) 4 /\ dst1_reg_idx d = bits w (dst_shift L + 4) 4 /\
  imm_0 d = bits w (imm0_shift L) (mode_imm_bits m) /\
  imm_1 d = bits w (imm1_shift L) (mode_imm_bits m).

(** The fields lie inside the word, behind the number, and no two share a bit. *)
Definition separate (m : mode) (L : layout) : Prop :=
  (forall lo n, In (lo, n) (places m L) ->
     table_width L <= lo /\ lo + n <= mode_word_bits m) /\
  condition_shift L + 3 <= 64 /\
  (forall k k' lo n lo' n', k <> k' ->
     nth_error (places m L) k = Some (lo, n) -> nth_error (places m L) k' = Some (lo', n') ->
     lo + n <= lo' \/ lo' + n' <= lo).

(** The gap has no bit of a field; every bit after the number belongs to a field or the gap. *)
Definition in_field (m : mode) (L : layout) (i : N) : Prop :=
  exists lo n, In (lo, n) (places m L) /\ lo <= i < lo + n.
Definition in_gap (L : layout) (i : N) : Prop :=
  table_width L <= i < table_width L + gap L.
Definition gap_free (m : mode) (L : layout) : Prop :=
  forall i, in_gap L i -> ~ in_field m L i.
Definition gap_complete (m : mode) (L : layout) : Prop :=
  forall i, table_width L <= i < mode_word_bits m -> in_field m L i \/ in_gap L i.
