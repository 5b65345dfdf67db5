(** * Specification of what a hasher receives: a list of numbers, each in a fixed number of bytes.
    Definitions only. *)

From Coq Require Import NArith List Bool.
From Verif Require Import Machine Operands OpcodeTrait Opcodes AllOpcodes Tables Decoding Abi
  VersionedHash HashFeed SpecIsa SpecCodec SpecFamilies SpecAbi.
Import ListNotations.
Open Scope N_scope.

(** A number and the bytes it is given in. *)
Definition field := (nat * N)%type.

(** The bytes of a number, in the byte order of the target. *)
Definition field_bytes (big : bool) (f : field) : list N :=
  let places := if big then rev (seq 0 (fst f)) else seq 0 (fst f) in
  map (fun i => le_byte (snd f) (N.of_nat i)) places.
Definition stream (t : hash_target) (fs : list field) : list N :=
  flat_map (field_bytes (big_endian t)) fs.

(** Targets: the numbers of the variants and the lengths of the arrays fit one byte. *)
Definition sensible (t : hash_target) : Prop :=
  (1 <= usize_bytes t)%nat /\ (1 <= tag_bytes t)%nat /\ (1 <= small_tag_bytes t)%nat.

Definition b_field (b : bool) : field := (1%nat, if b then 1 else 0).
Definition u8_field (x : N) : field := (1%nat, x).
Definition u16_field (x : N) : field := (2%nat, x).
Definition u32_field (x : N) : field := (4%nat, x).
Definition u64_field (x : N) : field := (8%nat, x).
Definition usize_field (t : hash_target) (x : N) : field := (usize_bytes t, x).

(** ** Values as fields *)

(** The families with more than one member. *)
Definition has_members (o : Opcode) : bool :=
  existsb (N.eqb (spec_family o)) [7; 8; 9; 10; 12; 13; 14; 15].
Definition opcode_fields (t : hash_target) (o : Opcode) : list field :=
  (tag_bytes t, spec_family o)
    :: if has_members o then [(small_tag_bytes t, spec_sub o)] else [].
Definition operand_fields (t : hash_target) (s : Operand) : list field :=
  match s with
  | RegOnly => [(tag_bytes t, 0)]
  | RegOrImm _ => [(tag_bytes t, 1); (small_tag_bytes t, spec_operand_mode s)]
  | Full _ => [(tag_bytes t, 2); (small_tag_bytes t, spec_operand_mode s)]
  end.
Definition variant_fields (t : hash_target) (x : OpcodeVariant) : list field :=
  opcode_fields t (opcode x) ++ operand_fields t (src0_operand_type x)
  ++ operand_fields t (dst0_operand_type x)
  ++ [usize_field t 2; b_field (fst (flags x)); b_field (snd (flags x))].
Definition condition_fields (t : hash_target) (c : Condition) : list field :=
  [(small_tag_bytes t, spec_cond_number c)].
Definition index_fields (t : hash_target) (x : VariantMonotonicNumber) : list field :=
  [usize_field t (monotonic_number x)].
Definition version_fields (t : hash_target) (v : ISAVersion) : list field := [u8_field v].
Definition variant_data_fields (t : hash_target) (x : OpcodeVariantData) : list field :=
  map (usize_field t) [variant_idx x; num_non_exclusive_flags x; num_used_immediates x].

Definition pointer_fields (t : hash_target) (p : FatPointer) : list field :=
  map u32_field [fp_offset p; fp_memory_page p; fp_start p; fp_length p].
Definition far_page_fields (t : hash_target) (x : FarCallForwardPageType) : list field :=
  [(small_tag_bytes t, match x with FarCall_UseHeap => 0 | FarCall_ForwardFatPointer => 1
                       | FarCall_UseAuxHeap => 2 end)].
Definition ret_page_fields (t : hash_target) (x : RetForwardPageType) : list field :=
  [(small_tag_bytes t, match x with Ret_UseHeap => 0 | Ret_ForwardFatPointer => 1
                       | Ret_UseAuxHeap => 2 end)].
Definition far_call_fields (t : hash_target) (a : FarCallABI) : list field :=
  pointer_fields t (fc_memory_quasi_fat_pointer a)
  ++ [u32_field (fc_ergs_passed a); u8_field (fc_shard_id a)]
  ++ far_page_fields t (fc_forwarding_mode a)
  ++ [b_field (fc_constructor_call a); b_field (fc_to_system a)].
Definition ret_fields (t : hash_target) (a : RetABI) : list field :=
  pointer_fields t (ret_memory_quasi_fat_pointer a) ++ ret_page_fields t (ret_page_forwarding_mode a).
Definition near_call_fields (t : hash_target) (a : NearCallABI) : list field :=
  [u32_field (nc_ergs_passed a)].
Definition precompile_fields (t : hash_target) (a : PrecompileCallABI) : list field :=
  map u32_field [pc_input_memory_offset a; pc_input_memory_length a; pc_output_memory_offset a;
                 pc_output_memory_length a] ++ [u64_field (pc_per_precompile_interpreted a)].
Definition precompile_inner_fields (t : hash_target) (a : PrecompileCallInnerABI) : list field :=
  map u32_field [pi_input_memory_offset a; pi_input_memory_length a; pi_output_memory_offset a;
                 pi_output_memory_length a; pi_memory_page_to_read a; pi_memory_page_to_write a]
  ++ [u64_field (pi_precompile_interpreted_data a)].
Definition meta_fields (t : hash_target) (a : VmMetaParameters) : list field :=
  map u32_field [ergs_per_pubdata_byte a; heap_size a; aux_heap_size a]
  ++ map u8_field [this_shard_id a; caller_shard_id a; code_shard_id a].
Definition storage_fields (t : hash_target) (s : ContractCodeSha256Storage) : list field :=
  [u16_field (code_length_in_words s); u8_field (extra_marker s); usize_field t 28]
  ++ map u8_field (partial_hash s).

(** ** Ranges of the Rust field types *)

Definition anything {A} (_ : A) : Prop := True.
Definition index_ok (t : hash_target) (x : VariantMonotonicNumber) : Prop :=
  monotonic_number x < 256 ^ N.of_nat (usize_bytes t).
Definition variant_data_ok (t : hash_target) (x : OpcodeVariantData) : Prop :=
  variant_idx x < 256 ^ N.of_nat (usize_bytes t) /\
  num_non_exclusive_flags x < 256 ^ N.of_nat (usize_bytes t) /\
  num_used_immediates x < 256 ^ N.of_nat (usize_bytes t).
Definition far_call_ok (a : FarCallABI) : Prop :=
  fat_pointer_ok (fc_memory_quasi_fat_pointer a) /\ fc_ergs_passed a < 2 ^ 32 /\
  fc_shard_id a < 2 ^ 8.
Definition ret_ok (a : RetABI) : Prop := fat_pointer_ok (ret_memory_quasi_fat_pointer a).
Definition near_call_ok (a : NearCallABI) : Prop := nc_ergs_passed a < 2 ^ 32.
Definition precompile_ok (a : PrecompileCallABI) : Prop :=
  pc_input_memory_offset a < 2 ^ 32 /\ pc_input_memory_length a < 2 ^ 32 /\
  pc_output_memory_offset a < 2 ^ 32 /\ pc_output_memory_length a < 2 ^ 32 /\
  pc_per_precompile_interpreted a < 2 ^ 64.

(** ** Hashing several values in a row *)

(** The feeds of two values of a type are never the same, nor is one the beginning of the other:
    whatever is fed afterwards, the value can be read off. *)
Definition unmistakable {A} (ok : A -> Prop) (feed : A -> list N) : Prop :=
  forall x y r r', ok x -> ok y -> feed x ++ r = feed y ++ r' -> x = y /\ r = r'.
