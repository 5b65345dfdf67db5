(** * What the derived [Hash] implementations feed to a hasher.  Definitions only.

    The input of a hasher is modelled as the bytes that [Hasher::write] receives, one call after
    the other.  A derived [hash] feeds the discriminant of an enum with more than one variant and
    then the fields in order; an array is fed as a slice, its length first. *)

From Verif Require Import Machine Operands OpcodeTrait Opcodes AllOpcodes Tables Decoding Abi
  VersionedHash Ordering.
Local Open Scope N_scope.

(** What the feed depends on besides the value: the bytes of a [usize], the bytes a discriminant
    is fed in (without and with [#[repr(u8)]]; this varies with the compiler version), and the
    byte order. Source: definitions/mod.rs:119. *)
Record hash_target := mkHashTarget {
  usize_bytes : nat;
  tag_bytes : nat;
  small_tag_bytes : nat;
  big_endian : bool
}.

(** [Hasher::write_uN], [x.to_ne_bytes()]. Source: definitions/abi/fat_pointer.rs:3. *)
Definition feed_int (t : hash_target) (n : nat) (x : N) : list N :=
  if big_endian t then to_be_bytes n x else to_le_bytes n x.
(** [bool: Hash]. Source: definitions/mod.rs:124. *)
Definition feed_bool (t : hash_target) (b : bool) : list N :=
  feed_int t 1 (if b then 1 else 0).
(** [[u8]: Hash] and [[bool]: Hash]: the length and then the items. Source:
    definitions/mod.rs:124. *)
Definition feed_array (t : hash_target) (items : list (list N)) : list N :=
  feed_int t (usize_bytes t) (N.of_nat (List.length items)) ++ List.concat items.
(** A discriminant, for [#[repr(u8)]] enums and for the others. Source:
    definitions/condition.rs:1. *)
Definition feed_small_tag (t : hash_target) (d : N) : list N := feed_int t (small_tag_bytes t) d.
(** Source: definitions/all.rs:3 *)
Definition feed_tag (t : hash_target) (d : N) : list N := feed_int t (tag_bytes t) d.

(** imm_mem_modifiers.rs:1 *)
Definition ImmMemHandlerFlags_hash (t : hash_target) (x : ImmMemHandlerFlags) : list N :=
  feed_small_tag t (ImmMemHandlerFlags_discriminant x).
(** imm_mem_modifiers.rs:80 *)
Definition RegOrImmFlags_hash (t : hash_target) (x : RegOrImmFlags) : list N :=
  feed_small_tag t (RegOrImmFlags_discriminant x).
(** definitions/condition.rs:1 *)
Definition Condition_hash (t : hash_target) (x : Condition) : list N :=
  feed_small_tag t (Condition_discriminant x).

(** definitions/opcode_trait.rs:3-8 *)
Definition Operand_hash (t : hash_target) (x : Operand) : list N :=
  feed_tag t (Operand_discriminant x) ++
  match x with
  | RegOnly => []
  | RegOrImm f => RegOrImmFlags_hash t f
  | Full f => ImmMemHandlerFlags_hash t f
  end.

(** definitions/all.rs:3-21; the unit structs (definitions/noop.rs:3 and the like) and the enums
    with a single variant (definitions/add.rs:3, definitions/sub.rs:3) feed nothing of their
    own *)
Definition Opcode_hash (t : hash_target) (x : Opcode) : list N :=
  feed_tag t (Opcode_discriminant x) ++
  match x with
  | Op_Invalid _ | Op_Nop _ | Op_Add _ | Op_Sub _ | Op_Mul _ | Op_Div _ | Op_Jump _
  | Op_NearCall _ => []
  | Op_Context i => feed_small_tag t (ContextOpcode_discriminant i)
  | Op_Shift i => feed_small_tag t (ShiftOpcode_discriminant i)
  | Op_Binop i => feed_small_tag t (BinopOpcode_discriminant i)
  | Op_Ptr i => feed_small_tag t (PtrOpcode_discriminant i)
  | Op_Log i => feed_small_tag t (LogOpcode_discriminant i)
  | Op_FarCall i => feed_small_tag t (FarCallOpcode_discriminant i)
  | Op_Ret i => feed_small_tag t (RetOpcode_discriminant i)
  | Op_UMA i => feed_small_tag t (UMAOpcode_discriminant i)
  end.

(** definitions/mod.rs:119-125 *)
Definition OpcodeVariant_hash (t : hash_target) (x : OpcodeVariant) : list N :=
  Opcode_hash t (opcode x) ++ Operand_hash t (src0_operand_type x)
  ++ Operand_hash t (dst0_operand_type x)
  ++ feed_array t [feed_bool t (fst (flags x)); feed_bool t (snd (flags x))].

(** decoding/mod.rs:10-11 *)
Definition VariantMonotonicNumber_hash (t : hash_target) (x : VariantMonotonicNumber) : list N :=
  feed_int t (usize_bytes t) (monotonic_number x).

(** definitions/opcode_trait.rs:19-20 *)
Definition ISAVersion_hash (t : hash_target) (x : ISAVersion) : list N := feed_int t 1 x.

(** definitions/opcode_trait.rs:42-47 *)
Definition OpcodeVariantData_hash (t : hash_target) (x : OpcodeVariantData) : list N :=
  feed_int t (usize_bytes t) (variant_idx x)
  ++ feed_int t (usize_bytes t) (num_non_exclusive_flags x)
  ++ feed_int t (usize_bytes t) (num_used_immediates x).

(** definitions/abi/fat_pointer.rs:3-9 *)
Definition FatPointer_hash (t : hash_target) (x : FatPointer) : list N :=
  feed_int t 4 (fp_offset x) ++ feed_int t 4 (fp_memory_page x) ++ feed_int t 4 (fp_start x)
  ++ feed_int t 4 (fp_length x).

(** definitions/abi/far_call.rs:8-14 *)
Definition FarCallForwardPageType_hash (t : hash_target) (x : FarCallForwardPageType) : list N :=
  feed_small_tag t (FarCallForwardPageType_discriminant x).
(** definitions/abi/far_call.rs:27-35 *)
Definition FarCallABI_hash (t : hash_target) (x : FarCallABI) : list N :=
  FatPointer_hash t (fc_memory_quasi_fat_pointer x) ++ feed_int t 4 (fc_ergs_passed x)
  ++ feed_int t 1 (fc_shard_id x) ++ FarCallForwardPageType_hash t (fc_forwarding_mode x)
  ++ feed_bool t (fc_constructor_call x) ++ feed_bool t (fc_to_system x).

(** definitions/abi/ret.rs:11-17 *)
Definition RetForwardPageType_hash (t : hash_target) (x : RetForwardPageType) : list N :=
  feed_small_tag t (RetForwardPageType_discriminant x).
(** definitions/abi/ret.rs:31-35 *)
Definition RetABI_hash (t : hash_target) (x : RetABI) : list N :=
  FatPointer_hash t (ret_memory_quasi_fat_pointer x)
  ++ RetForwardPageType_hash t (ret_page_forwarding_mode x).

(** definitions/abi/near_call.rs:3-6 *)
Definition NearCallABI_hash (t : hash_target) (x : NearCallABI) : list N :=
  feed_int t 4 (nc_ergs_passed x).

(** definitions/abi/precompile_call.rs:3-10 *)
Definition PrecompileCallABI_hash (t : hash_target) (x : PrecompileCallABI) : list N :=
  feed_int t 4 (pc_input_memory_offset x) ++ feed_int t 4 (pc_input_memory_length x)
  ++ feed_int t 4 (pc_output_memory_offset x) ++ feed_int t 4 (pc_output_memory_length x)
  ++ feed_int t 8 (pc_per_precompile_interpreted x).

(** definitions/abi/precompile_call.rs:33-42 *)
Definition PrecompileCallInnerABI_hash (t : hash_target) (x : PrecompileCallInnerABI) : list N :=
  feed_int t 4 (pi_input_memory_offset x) ++ feed_int t 4 (pi_input_memory_length x)
  ++ feed_int t 4 (pi_output_memory_offset x) ++ feed_int t 4 (pi_output_memory_length x)
  ++ feed_int t 4 (pi_memory_page_to_read x) ++ feed_int t 4 (pi_memory_page_to_write x)
  ++ feed_int t 8 (pi_precompile_interpreted_data x).

(** definitions/abi/meta.rs:3-11 *)
Definition VmMetaParameters_hash (t : hash_target) (x : VmMetaParameters) : list N :=
  feed_int t 4 (ergs_per_pubdata_byte x) ++ feed_int t 4 (heap_size x)
  ++ feed_int t 4 (aux_heap_size x) ++ feed_int t 1 (this_shard_id x)
  ++ feed_int t 1 (caller_shard_id x) ++ feed_int t 1 (code_shard_id x).

(** definitions/versioned_hash/mod.rs:54-59 *)
Definition ContractCodeSha256Storage_hash (t : hash_target) (x : ContractCodeSha256Storage)
  : list N :=
  feed_int t 2 (code_length_in_words x) ++ feed_int t 1 (extra_marker x)
  ++ feed_array t (map (fun b => [b]) (partial_hash x)).

(** definitions/versioned_hash/mod.rs:11-14, with the storage layout of [ContractCodeSha256] *)
Definition VersionedHash_hash (t : hash_target)
  (x : VersionedHashGeneric ContractCodeSha256Storage) : list N :=
  ContractCodeSha256Storage_hash t (data x).
