(** * Specification of the codec for an arbitrary opcode table.  Definitions only. *)

From Coq Require Import NArith List Bool.
From Verif Require Import Machine Tables Decoding SpecIsa SpecFamilies SpecCodec
  SpecSets.
Import ListNotations.
Open Scope N_scope.

(** The decoder of a mode reading the table [t], and the encoder of a mode using the lookup map
    built from [t]. *)
Definition decode_in (m : mode) (t : list OpcodeVariant) (w : N)
  : res (DecodedOpcode * VariantMonotonicNumber) :=
  match m with
  | ProductionMode => prod_parse_with (Ok t) w
  | TestingMode => test_parse_with (Ok t) w
  end.
Definition encode_in (m : mode) (t : list OpcodeVariant) (bld : build) (d : DecodedOpcode)
  : res N :=
  match m with
  | ProductionMode => prod_encode_as_integer_with (canonical_map_of_table t) bld d
  | TestingMode => test_encode_as_integer_with (canonical_map_of_table t) bld d
  end.

(** [d] is what the bit fields of [w] say when the numbers refer to [t]. *)
Definition fields_in (t : list OpcodeVariant) (iw w : N) (d : DecodedOpcode) : Prop :=
  nth_error t (N.to_nat (bits w 0 11)) = Some (variant d) /\
  spec_condition (bits w 13 3) = Some (condition d) /\
  src0_reg_idx d = bits w 16 4 /\ src1_reg_idx d = bits w 20 4 /\
  dst0_reg_idx d = bits w 24 4 /\ dst1_reg_idx d = bits w 28 4 /\
  imm_0 d = bits w 32 iw /\ imm_1 d = bits w (32 + iw) iw.

(** The first position of a variant in a table. *)
Definition first_at (t : list OpcodeVariant) (x : OpcodeVariant) (n : N) : Prop :=
  nth_error t (N.to_nat n) = Some x /\ forall j, j < n -> nth_error t (N.to_nat j) <> Some x.

(** Two instructions that differ at most in the spelling of a register source. *)
Definition same_instruction (d d' : DecodedOpcode) : Prop :=
  spec_equivalent (variant d) (variant d') /\ condition d = condition d' /\
  src0_reg_idx d = src0_reg_idx d' /\ src1_reg_idx d = src1_reg_idx d' /\
  dst0_reg_idx d = dst0_reg_idx d' /\ dst1_reg_idx d = dst1_reg_idx d' /\
  imm_0 d = imm_0 d' /\ imm_1 d = imm_1 d'.

(** No two variants of the last version up to [u] mean the same. *)
Definition unambiguous (I : InstructionSet) (u : N) : Prop :=
  forall vs w l, versions_used I u (vs ++ [w]) -> all_variants_in_version_of I w = Ok l ->
    inequivalent l.
