(** * Specification of the instruction word layout.  Definitions only.

    Both encodings have the same low 32 bits; the immediates are [iw] bits wide ([iw = 16]
    in production, [32] in testing) and start at bit 32. *)

From Coq Require Import NArith List Bool.
From Verif Require Import Machine Tables Decoding SpecIsa.
Import ListNotations.
Open Scope N_scope.

(** Bits [lo .. lo+n-1] of a word. *)
Definition bits (w lo n : N) : N := (w / 2 ^ lo) mod 2 ^ n.

Definition spec_cond_number (c : Condition) : N :=
  match c with
  | Always => 0 | Gt_ => 1 | Lt_ => 2 | Eq_ => 3 | Ge_ => 4 | Le_ => 5 | Ne_ => 6 | GtOrLt => 7
  end.

(** [None] outside 0..7 *)
Definition spec_condition (k : N) : option Condition :=
  nth_error [Always; Gt_; Lt_; Eq_; Ge_; Le_; Ne_; GtOrLt] (N.to_nat k).

(** Register nibbles, conditions and immediates at fixed positions after the number. *)
Definition spec_word (iw number : N) (d : DecodedOpcode) : N :=
  number
  + 2 ^ 13 * spec_cond_number (condition d)
  + 2 ^ 16 * src0_reg_idx d + 2 ^ 20 * src1_reg_idx d
  + 2 ^ 24 * dst0_reg_idx d + 2 ^ 28 * dst1_reg_idx d
  + 2 ^ 32 * imm_0 d + 2 ^ (32 + iw) * imm_1 d.

(** Ranges of the Rust field types. *)
Definition typed (iw : N) (d : DecodedOpcode) : Prop :=
  src0_reg_idx d < 2 ^ 8 /\ src1_reg_idx d < 2 ^ 8 /\
  dst0_reg_idx d < 2 ^ 8 /\ dst1_reg_idx d < 2 ^ 8 /\
  imm_0 d < 2 ^ iw /\ imm_1 d < 2 ^ iw.

(** Sixteen registers. *)
Definition regs_in_range (d : DecodedOpcode) : Prop :=
  src0_reg_idx d < 16 /\ src1_reg_idx d < 16 /\ dst0_reg_idx d < 16 /\ dst1_reg_idx d < 16.

(** The variant with a given number; unassigned numbers mean Invalid. *)
Definition spec_variant_at (k : N) : OpcodeVariant :=
  match nth_error spec_table_v1 (N.to_nat k) with
  | Some v => v
  | None => spec_invalid
  end.

(** [d] is what the bit fields of [w] say. *)
Definition spec_fields (iw w : N) (d : DecodedOpcode) : Prop :=
  variant d = spec_variant_at (bits w 0 11) /\
  spec_condition (bits w 13 3) = Some (condition d) /\
  src0_reg_idx d = bits w 16 4 /\ src1_reg_idx d = bits w 20 4 /\
  dst0_reg_idx d = bits w 24 4 /\ dst1_reg_idx d = bits w 28 4 /\
  imm_0 d = bits w 32 iw /\ imm_1 d = bits w (32 + iw) iw.

(** Number of assigned opcodes of version 1 (numbers [0 .. 1092]; 0 is Invalid). *)
Definition spec_assigned : N := 1093.

(** The word with the gap bits 11..12 cleared, unassigned numbers replaced by 0 and bits
    above the last immediate dropped. *)
Definition spec_normalise (iw w : N) : N :=
  (if bits w 0 11 <? spec_assigned then bits w 0 11 else 0)
  + 2 ^ 13 * bits w 13 (19 + 2 * iw).

(** The two modes, their immediate width and their word width. *)
Inductive mode := ProductionMode | TestingMode.
Definition mode_impl (m : mode) : VmEncodingMode :=
  match m with ProductionMode => EncodingModeProduction | TestingMode => EncodingModeTesting end.
Definition mode_imm_bits (m : mode) : N :=
  match m with ProductionMode => 16 | TestingMode => 32 end.
Definition mode_word_bits (m : mode) : N :=
  match m with ProductionMode => 64 | TestingMode => 128 end.

(** A variant that occurs in the opcode table. *)
Definition in_table (x : OpcodeVariant) : Prop :=
  exists t, OPCODES_TABLE = Ok t /\ In x t.

(** What a release build does to register indices of 16 and more: the high half of the
    first index of a pair spills into the second, the high half of the second is lost. *)
Definition spec_wrap (d : DecodedOpcode) : DecodedOpcode :=
  mkDecodedOpcode (variant d) (condition d)
    (src0_reg_idx d mod 16) (N.lor (src0_reg_idx d / 16) (src1_reg_idx d mod 16))
    (dst0_reg_idx d mod 16) (N.lor (dst0_reg_idx d / 16) (dst1_reg_idx d mod 16))
    (imm_0 d) (imm_1 d).

(** Value of a big-endian byte string. *)
Fixpoint be_value (l : list N) : N :=
  match l with
  | [] => 0
  | b :: r => b * 256 ^ N.of_nat (List.length r) + be_value r
  end.

Definition is_bytes (l : list N) : Prop := Forall (fun b => b < 256) l.

(** Value of a 256-bit word, and the range of its limbs. *)
Definition u256_value (v : U256) : N :=
  limb0 v + 2 ^ 64 * limb1 v + 2 ^ 128 * limb2 v + 2 ^ 192 * limb3 v.
Definition u256_typed (v : U256) : Prop :=
  limb0 v < 2 ^ 64 /\ limb1 v < 2 ^ 64 /\ limb2 v < 2 ^ 64 /\ limb3 v < 2 ^ 64.

(** Bytes per instruction. *)
Definition mode_bytes (m : mode) : nat :=
  match m with ProductionMode => 8 | TestingMode => 16 end.
(** Instructions per 32-byte word. *)
Definition mode_per_word (m : mode) : N :=
  match m with ProductionMode => 4 | TestingMode => 2 end.

(** A code page: word [k] holds the 32 bytes [32k .. 32k+31], read big-endian. *)
Definition page_holds (page : N -> U256) (bytes : list N) : Prop :=
  forall k, 32 * (k + 1) <= N.of_nat (List.length bytes) ->
    u256_typed (page k) /\
    u256_value (page k) = be_value (firstn 32 (skipn (32 * N.to_nat k) bytes)).

(** Fetching the instruction word at [pc]: split the pc, read the memory word, select. *)
Definition fetch (m : mode) (page : N -> U256) (pc : N) : res N :=
  let '(super_pc, sub_pc) := split_pc (mode_impl m) pc in
  integer_representaiton_from_u256 (mode_impl m) (page super_pc) sub_pc.
