(** * Specification for building register words, patching instruction words and laying out a
    whole program.  Definitions only. *)

From Coq Require Import NArith List Bool.
From Verif Require Import Machine Operands OpcodeTrait Opcodes AllOpcodes Tables Decoding Abi
  VersionedHash SpecIsa SpecCodec SpecAbi.
Import ListNotations.
Open Scope N_scope.

(** ** Register words *)

(** The word a caller writes for a pointer, a far call, a return and a precompile call: the
    unused bits are zero, the flags are bytes 0 or 1. *)
Definition pointer_word (p : FatPointer) : N :=
  fp_offset p + 2 ^ 32 * fp_memory_page p + 2 ^ 64 * fp_start p + 2 ^ 96 * fp_length p.

Definition far_call_mode_byte (t : FarCallForwardPageType) : N :=
  match t with FarCall_UseHeap => 0 | FarCall_ForwardFatPointer => 1 | FarCall_UseAuxHeap => 2 end.
Definition ret_mode_byte (t : RetForwardPageType) : N :=
  match t with Ret_UseHeap => 0 | Ret_ForwardFatPointer => 1 | Ret_UseAuxHeap => 2 end.

Definition far_call_word (a : FarCallABI) : N :=
  pointer_word (fc_memory_quasi_fat_pointer a)
  + 2 ^ 192 * fc_ergs_passed a
  + 2 ^ 224 * far_call_mode_byte (fc_forwarding_mode a)
  + 2 ^ 232 * fc_shard_id a
  + 2 ^ 240 * N.b2n (fc_constructor_call a)
  + 2 ^ 248 * N.b2n (fc_to_system a).
Definition far_call_ok (a : FarCallABI) : Prop :=
  fat_pointer_ok (fc_memory_quasi_fat_pointer a) /\ fc_ergs_passed a < 2 ^ 32 /\
  fc_shard_id a < 2 ^ 8.

Definition ret_word (a : RetABI) : N :=
  pointer_word (ret_memory_quasi_fat_pointer a)
  + 2 ^ 224 * ret_mode_byte (ret_page_forwarding_mode a).
Definition ret_ok (a : RetABI) : Prop := fat_pointer_ok (ret_memory_quasi_fat_pointer a).

Definition precompile_word (a : PrecompileCallABI) : N :=
  pc_input_memory_offset a + 2 ^ 32 * pc_input_memory_length a
  + 2 ^ 64 * pc_output_memory_offset a + 2 ^ 96 * pc_output_memory_length a
  + 2 ^ 192 * pc_per_precompile_interpreted a.
Definition precompile_ok (a : PrecompileCallABI) : Prop :=
  pc_input_memory_offset a < 2 ^ 32 /\ pc_input_memory_length a < 2 ^ 32 /\
  pc_output_memory_offset a < 2 ^ 32 /\ pc_output_memory_length a < 2 ^ 32 /\
  pc_per_precompile_interpreted a < 2 ^ 64.

(** Forwarding bytes 1 and 2 are special, every other one means the same as 0. *)
Definition same_forwarding (b b' : N) : Prop := (b = 1 <-> b' = 1) /\ (b = 2 <-> b' = 2).

(** ** Patching *)

(** The word with its [n] bits from bit [lo] replaced by [x]. *)
Definition overwrite (w lo n x : N) : N :=
  w mod 2 ^ lo + 2 ^ lo * x + 2 ^ (lo + n) * (w / 2 ^ (lo + n)).

(** Replacing one field of an instruction. *)
Inductive edit :=
| SetVariant (x : OpcodeVariant)
| SetCondition (c : Condition)
| SetSrc0 (r : N) | SetSrc1 (r : N) | SetDst0 (r : N) | SetDst1 (r : N)
| SetImm0 (x : N) | SetImm1 (x : N).

Definition apply_edit (e : edit) (d : DecodedOpcode) : DecodedOpcode :=
  match e, d with
  | SetVariant y, mkDecodedOpcode v c a b p q i j => mkDecodedOpcode y c a b p q i j
  | SetCondition y, mkDecodedOpcode v c a b p q i j => mkDecodedOpcode v y a b p q i j
  | SetSrc0 y, mkDecodedOpcode v c a b p q i j => mkDecodedOpcode v c y b p q i j
  | SetSrc1 y, mkDecodedOpcode v c a b p q i j => mkDecodedOpcode v c a y p q i j
  | SetDst0 y, mkDecodedOpcode v c a b p q i j => mkDecodedOpcode v c a b y q i j
  | SetDst1 y, mkDecodedOpcode v c a b p q i j => mkDecodedOpcode v c a b p y i j
  | SetImm0 y, mkDecodedOpcode v c a b p q i j => mkDecodedOpcode v c a b p q y j
  | SetImm1 y, mkDecodedOpcode v c a b p q i j => mkDecodedOpcode v c a b p q i y
  end.

(** Where the field sits (first bit, number of bits) and the number written there; [None] for
    a variant without a number. *)
Definition edit_place (iw : N) (e : edit) : N * N :=
  match e with
  | SetVariant _ => (0, 11)
  | SetCondition _ => (13, 3)
  | SetSrc0 _ => (16, 4) | SetSrc1 _ => (20, 4) | SetDst0 _ => (24, 4) | SetDst1 _ => (28, 4)
  | SetImm0 _ => (32, iw) | SetImm1 _ => (32 + iw, iw)
  end.
Definition edit_number (e : edit) : option N :=
  match e with
  | SetVariant x => spec_number x
  | SetCondition c => Some (spec_cond_number c)
  | SetSrc0 x | SetSrc1 x | SetDst0 x | SetDst1 x | SetImm0 x | SetImm1 x => Some x
  end.

(** An edit that can be made: the number exists and fits its field. *)
Definition edit_fits (iw : N) (e : edit) : Prop :=
  exists x, edit_number e = Some x /\ x < 2 ^ snd (edit_place iw e).

(** The patch of a word belonging to an edit. *)
Definition patch (iw : N) (e : edit) (w : N) : N :=
  match edit_number e with
  | Some x => overwrite w (fst (edit_place iw e)) (snd (edit_place iw e)) x
  | None => w
  end.

(** ** Programs *)

(** The instruction that an all-zero word means. *)
Definition spec_zero_instruction : DecodedOpcode :=
  mkDecodedOpcode spec_invalid Always 0 0 0 0 0 0.

(** A code page: the 32-byte words of a bytecode, read big-endian, then zero words for ever. *)
Definition code_page (page : N -> U256) (ws : list (list N)) : Prop :=
  forall k, u256_typed (page k) /\
    SpecCodec.u256_value (page k) =
    match nth_error ws (N.to_nat k) with Some w => be_value w | None => 0 end.
