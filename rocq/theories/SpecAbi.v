(** * Specification vocabulary for the register ABIs and versioned hashes.  Definitions only.

    A 256-bit register value is a number; a field is a range of its bits. *)

From Coq Require Import NArith List Bool.
From Verif Require Import Machine Abi VersionedHash.
Import ListNotations.
Open Scope N_scope.

(** The number a [U256] stands for (least significant limb first), and that its limbs are
    [u64]s. *)
Definition u256_value (v : U256) : N :=
  limb0 v + 2 ^ 64 * limb1 v + 2 ^ 128 * limb2 v + 2 ^ 192 * limb3 v.
Definition u256_ok (v : U256) : Prop :=
  limb0 v < 2 ^ 64 /\ limb1 v < 2 ^ 64 /\ limb2 v < 2 ^ 64 /\ limb3 v < 2 ^ 64.

(** [n] bits of [x] from bit [lo], and little-endian byte [i]. *)
Definition bit_field (x lo n : N) : N := (x / 2 ^ lo) mod 2 ^ n.
Definition le_byte (x i : N) : N := (x / 256 ^ i) mod 256.

(** The field types of the structures. *)
Definition fat_pointer_ok (p : FatPointer) : Prop :=
  fp_offset p < 2 ^ 32 /\ fp_memory_page p < 2 ^ 32 /\ fp_start p < 2 ^ 32 /\
  fp_length p < 2 ^ 32.
Definition inner_ok (p : PrecompileCallInnerABI) : Prop :=
  pi_input_memory_offset p < 2 ^ 32 /\ pi_input_memory_length p < 2 ^ 32 /\
  pi_output_memory_offset p < 2 ^ 32 /\ pi_output_memory_length p < 2 ^ 32 /\
  pi_memory_page_to_read p < 2 ^ 32 /\ pi_memory_page_to_write p < 2 ^ 32 /\
  pi_precompile_interpreted_data p < 2 ^ 64.
Definition meta_ok (p : VmMetaParameters) : Prop :=
  ergs_per_pubdata_byte p < 2 ^ 32 /\ heap_size p < 2 ^ 32 /\ aux_heap_size p < 2 ^ 32 /\
  this_shard_id p < 2 ^ 8 /\ caller_shard_id p < 2 ^ 8 /\ code_shard_id p < 2 ^ 8.

(** [[u8; n]] *)
Definition byte_array (n : nat) (l : list N) : Prop :=
  List.length l = n /\ Forall (fun b => b < 256) l.

(** [ContractCodeSha256Storage] *)
Definition storage_ok (s : ContractCodeSha256Storage) : Prop :=
  code_length_in_words s < 2 ^ 16 /\ extra_marker s < 2 ^ 8 /\ byte_array 28 (partial_hash s).

(** The bytes of a contract code hash: version 1, marker, big-endian word count, hash. *)
Definition hash_bytes (marker words : N) (h : list N) : list N :=
  [1; marker; words / 256; words mod 256] ++ h.

(** A digest function: it gives 32 bytes. *)
Definition digest_function (sha256 : list N -> list N) : Prop :=
  forall x, byte_array 32 (sha256 x).
