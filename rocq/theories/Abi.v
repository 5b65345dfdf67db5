(** * Register ABIs: src/definitions/abi/*.rs.  Definitions only.

    [raw_value.0[i]] is the limb [limb_i]; [U256::zero()] with limbs assigned is
    [mkU256]. *)

From Verif Require Import Machine.

(** ** src/definitions/abi/fat_pointer.rs *)

(** definitions/abi/fat_pointer.rs:4-9 *)
Record FatPointer := mkFatPointer {
  fp_offset : N;
  fp_memory_page : N;
  fp_start : N;
  fp_length : N
}.

(** definitions/abi/fat_pointer.rs:11-16, the [bits] of the two flags *)
Definition OFFSET_IS_NOT_ZERO_WHEN_EXPECTED : N := shl 64 1 0.
(** definitions/abi/fat_pointer.rs:14 *)
Definition DEREF_BEYOND_HEAP_RANGE : N := shl 64 1 1.

(** [bitflags]: [empty()], and [set(f, true)] which inserts the bits of [f] (external
    crate, modelled by its documentation). Source: definitions/abi/fat_pointer.rs:47-65.
    *)
Definition exceptions_empty : N := 0.
(** definitions/abi/fat_pointer.rs:47-65 *)
Definition exceptions_set_true (e f : N) : N := N.lor e f.

(** definitions/abi/fat_pointer.rs:19 *)
Definition FAT_POINTER_PACKED_WIDTH : N := 128.

(** definitions/abi/fat_pointer.rs:22-29 *)
Definition FatPointer_empty : FatPointer := mkFatPointer 0 0 0 0.

(** definitions/abi/fat_pointer.rs:31-45 *)
Definition FatPointer_from_u256 (value : U256) : FatPointer :=
  let offset := as_u32 (limb0 value) in
  let memory_page := as_u32 (shr (limb0 value) 32) in
  let start := as_u32 (limb1 value) in
  let length := as_u32 (shr (limb1 value) 32) in
  mkFatPointer offset memory_page start length.

(** definitions/abi/fat_pointer.rs:47-65, the [bits] of the result *)
Definition FatPointer_validate (self : FatPointer) (is_fresh : bool) : N :=
  let exceptions := exceptions_empty in
  let exceptions :=
    if is_fresh && negb (fp_offset self =? 0)
    then exceptions_set_true exceptions OFFSET_IS_NOT_ZERO_WHEN_EXPECTED
    else exceptions in
  let '(_, of) := overflowing_add_w 32 (fp_start self) (fp_length self) in
  let exceptions :=
    if (of : bool) then exceptions_set_true exceptions DEREF_BEYOND_HEAP_RANGE
    else exceptions in
  exceptions.

(** definitions/abi/fat_pointer.rs:70-74 *)
Definition FatPointer_validate_in_bounds (self : FatPointer) : bool :=
  fp_offset self <? fp_length self.

(** definitions/abi/fat_pointer.rs:77-81 *)
Definition FatPointer_validate_as_slice (self : FatPointer) : bool :=
  fp_offset self <=? fp_length self.

(** definitions/abi/fat_pointer.rs:84-86 *)
Definition FatPointer_is_trivial (self : FatPointer) : bool :=
  (fp_length self =? 0) && (fp_offset self =? 0).

(** definitions/abi/fat_pointer.rs:88-95 *)
Definition FatPointer_to_u256 (self : FatPointer) : U256 :=
  mkU256 (N.lor (fp_offset self) (shl 64 (fp_memory_page self) 32))
         (N.lor (fp_start self) (shl 64 (fp_length self) 32)) 0 0.

(** ** src/definitions/abi/far_call.rs *)

(** definitions/abi/far_call.rs:3-6 *)
Definition FAR_CALL_FORWARDING_MODE_BYTE_IDX : N := 28.
(** definitions/abi/far_call.rs:4 *)
Definition FAR_CALL_SHARD_ID_BYTE_IDX : N := 29.
(** definitions/abi/far_call.rs:5 *)
Definition FAR_CALL_CONSTRUCTOR_CALL_BYTE_IDX : N := 30.
(** definitions/abi/far_call.rs:6 *)
Definition FAR_CALL_SYSTEM_CALL_BYTE_IDX : N := 31.

(** definitions/abi/far_call.rs:10-14 *)
Inductive FarCallForwardPageType :=
| FarCall_UseHeap
| FarCall_ForwardFatPointer
| FarCall_UseAuxHeap.

(** definitions/abi/far_call.rs:17-24 *)
Definition FarCallForwardPageType_from_u8 (value : N) : FarCallForwardPageType :=
  match value with
  | 0 => FarCall_UseHeap
  | 1 => FarCall_ForwardFatPointer
  | 2 => FarCall_UseAuxHeap
  | _ => FarCall_UseHeap
  end.

(** definitions/abi/far_call.rs:28-35 *)
Record FarCallABI := mkFarCallABI {
  fc_memory_quasi_fat_pointer : FatPointer;
  fc_ergs_passed : N;
  fc_shard_id : N;
  fc_forwarding_mode : FarCallForwardPageType;
  fc_constructor_call : bool;
  fc_to_system : bool
}.

(** definitions/abi/far_call.rs:38-63.  The array pattern on [to_le_bytes()] of a [u32] is four indexings
    of a four-element list; the default case of [nth] is not reached. *)
Definition FarCallABI_from_u256 (raw_value : U256) : FarCallABI :=
  let quasi_fat_pointer := FatPointer_from_u256 raw_value in
  let extra_data := limb3 raw_value in
  let ergs_passed := as_u32 extra_data in
  let extra_data := as_u32 (shr extra_data 32) in
  let bytes := to_le_bytes 4 extra_data in
  let forwarding_byte := nth 0 bytes 0 in
  let shard_id := nth 1 bytes 0 in
  let constructor_call_byte := nth 2 bytes 0 in
  let to_system_byte := nth 3 bytes 0 in
  let page_forwarding_mode := FarCallForwardPageType_from_u8 forwarding_byte in
  let constructor_call := negb (constructor_call_byte =? 0) in
  let to_system := negb (to_system_byte =? 0) in
  mkFarCallABI quasi_fat_pointer ergs_passed shard_id page_forwarding_mode
    constructor_call to_system.

(** ** src/definitions/abi/ret.rs *)

(** definitions/abi/ret.rs:3 *)
Definition RET_FORWARDING_MODE_BYTE_IDX : N := 28.

(** definitions/abi/ret.rs:13-17 *)
Inductive RetForwardPageType :=
| Ret_UseHeap
| Ret_ForwardFatPointer
| Ret_UseAuxHeap.

(** definitions/abi/ret.rs:20-28 *)
Definition RetForwardPageType_from_u8 (value : N) : RetForwardPageType :=
  match value with
  | 0 => Ret_UseHeap
  | 1 => Ret_ForwardFatPointer
  | 2 => Ret_UseAuxHeap
  | _ => Ret_UseHeap
  end.

(** definitions/abi/ret.rs:32-35 *)
Record RetABI := mkRetABI {
  ret_memory_quasi_fat_pointer : FatPointer;
  ret_page_forwarding_mode : RetForwardPageType
}.

(** definitions/abi/ret.rs:38-50 *)
Definition RetABI_from_u256 (raw_value : U256) : RetABI :=
  let quasi_fat_pointer := FatPointer_from_u256 raw_value in
  let extra_data := as_u32 (shr (limb3 raw_value) 32) in
  let forwarding_byte := nth 0 (to_le_bytes 4 extra_data) 0 in
  let page_forwarding_mode := RetForwardPageType_from_u8 forwarding_byte in
  mkRetABI quasi_fat_pointer page_forwarding_mode.

(** ** src/definitions/abi/near_call.rs *)

(** definitions/abi/near_call.rs:4-6 *)
Record NearCallABI := mkNearCallABI { nc_ergs_passed : N }.

(** definitions/abi/near_call.rs:9-14 *)
Definition NearCallABI_from_u256 (raw_value : U256) : NearCallABI :=
  let ergs_passed := as_u32 (limb0 raw_value) in
  mkNearCallABI ergs_passed.

(** ** src/definitions/abi/precompile_call.rs *)

(** definitions/abi/precompile_call.rs:4-10 *)
Record PrecompileCallABI := mkPrecompileCallABI {
  pc_input_memory_offset : N;
  pc_input_memory_length : N;
  pc_output_memory_offset : N;
  pc_output_memory_length : N;
  pc_per_precompile_interpreted : N
}.

(** definitions/abi/precompile_call.rs:13-30 *)
Definition PrecompileCallABI_from_u256 (raw_value : U256) : PrecompileCallABI :=
  let input_memory_offset := as_u32 (limb0 raw_value) in
  let input_memory_length := as_u32 (shr (limb0 raw_value) 32) in
  let output_memory_offset := as_u32 (limb1 raw_value) in
  let output_memory_length := as_u32 (shr (limb1 raw_value) 32) in
  let per_precompile_interpreted := limb3 raw_value in
  mkPrecompileCallABI input_memory_offset input_memory_length
    output_memory_offset output_memory_length per_precompile_interpreted.

(** definitions/abi/precompile_call.rs:34-42 *)
Record PrecompileCallInnerABI := mkPrecompileCallInnerABI {
  pi_input_memory_offset : N;
  pi_input_memory_length : N;
  pi_output_memory_offset : N;
  pi_output_memory_length : N;
  pi_memory_page_to_read : N;
  pi_memory_page_to_write : N;
  pi_precompile_interpreted_data : N
}.

(** definitions/abi/precompile_call.rs:45-64 *)
Definition PrecompileCallInnerABI_from_u256 (raw_value : U256) : PrecompileCallInnerABI :=
  let input_memory_offset := as_u32 (limb0 raw_value) in
  let input_memory_length := as_u32 (shr (limb0 raw_value) 32) in
  let output_memory_offset := as_u32 (limb1 raw_value) in
  let output_memory_length := as_u32 (shr (limb1 raw_value) 32) in
  let memory_page_to_read := as_u32 (limb2 raw_value) in
  let memory_page_to_write := as_u32 (shr (limb2 raw_value) 32) in
  let precompile_interpreted_data := limb3 raw_value in
  mkPrecompileCallInnerABI input_memory_offset input_memory_length
    output_memory_offset output_memory_length
    memory_page_to_read memory_page_to_write precompile_interpreted_data.

(** definitions/abi/precompile_call.rs:66-76 *)
Definition PrecompileCallInnerABI_to_u256 (self : PrecompileCallInnerABI) : U256 :=
  mkU256
    (N.lor (pi_input_memory_offset self) (shl 64 (pi_input_memory_length self) 32))
    (N.lor (pi_output_memory_offset self) (shl 64 (pi_output_memory_length self) 32))
    (N.lor (pi_memory_page_to_read self) (shl 64 (pi_memory_page_to_write self) 32))
    (pi_precompile_interpreted_data self).

(** ** src/definitions/abi/meta.rs *)

(** definitions/abi/meta.rs:4-11 *)
Record VmMetaParameters := mkVmMetaParameters {
  ergs_per_pubdata_byte : N;
  heap_size : N;
  aux_heap_size : N;
  this_shard_id : N;
  caller_shard_id : N;
  code_shard_id : N
}.

(** definitions/abi/meta.rs:14-25 *)
Definition VmMetaParameters_to_u256 (self : VmMetaParameters) : U256 :=
  let tmp := N.lor (N.lor (this_shard_id self) (shl 64 (caller_shard_id self) 8))
                   (shl 64 (code_shard_id self) 16) in
  mkU256 (ergs_per_pubdata_byte self)
         (N.lor (heap_size self) (shl 64 (aux_heap_size self) 32))
         0
         (shl 64 tmp 32).
