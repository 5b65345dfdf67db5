(** * The derived orderings ([#[derive(PartialOrd, Ord)]]).  Definitions only.

    A derived comparison of structs is lexicographic in field order, of enums by
    discriminant (declaration order, or the explicit value) and then by payload.  The order of
    [ISAVersion] (definitions/opcode_trait.rs:19) is that of its number. *)

From Verif Require Import Machine Operands OpcodeTrait Opcodes AllOpcodes Tables Decoding Abi.

(** [Ordering::then_with], the combination a derived [cmp] uses from field to field. Source:
    the derive at definitions/mod.rs:119. *)
Definition then_cmp (a b : comparison) : comparison :=
  match a with Eq => b | _ => a end.

(** [bool: Ord], [false < true]. Source: the field type at definitions/mod.rs:124. *)
Definition bool_cmp (a b : bool) : comparison :=
  match a, b with
  | false, true => Lt
  | true, false => Gt
  | _, _ => Eq
  end.

(** imm_mem_modifiers.rs:1 *)
Definition ImmMemHandlerFlags_cmp (a b : ImmMemHandlerFlags) : comparison :=
  ImmMemHandlerFlags_discriminant a ?= ImmMemHandlerFlags_discriminant b.

(** imm_mem_modifiers.rs:80 *)
Definition RegOrImmFlags_cmp (a b : RegOrImmFlags) : comparison :=
  RegOrImmFlags_discriminant a ?= RegOrImmFlags_discriminant b.

(** definitions/opcode_trait.rs:3-8, discriminants in declaration order *)
Definition Operand_discriminant (self : Operand) : N :=
  match self with
  | RegOnly => 0
  | RegOrImm _ => 1
  | Full _ => 2
  end.

(** definitions/opcode_trait.rs:3 *)
Definition Operand_cmp (a b : Operand) : comparison :=
  match a, b with
  | RegOrImm x, RegOrImm y => RegOrImmFlags_cmp x y
  | Full x, Full y => ImmMemHandlerFlags_cmp x y
  | _, _ => Operand_discriminant a ?= Operand_discriminant b
  end.

(** definitions/all.rs:4-21, discriminants in declaration order *)
Definition Opcode_discriminant (self : Opcode) : N :=
  match self with
  | Op_Invalid _ => 0
  | Op_Nop _ => 1
  | Op_Add _ => 2
  | Op_Sub _ => 3
  | Op_Mul _ => 4
  | Op_Div _ => 5
  | Op_Jump _ => 6
  | Op_Context _ => 7
  | Op_Shift _ => 8
  | Op_Binop _ => 9
  | Op_Ptr _ => 10
  | Op_NearCall _ => 11
  | Op_Log _ => 12
  | Op_FarCall _ => 13
  | Op_Ret _ => 14
  | Op_UMA _ => 15
  end.

(** definitions/all.rs:3; unit structs ([derive] at definitions/noop.rs:3 and the like) have
    one value, so two of the same kind are equal; the derives of the sub-opcode enums are at
    definitions/add.rs:3, sub.rs:3, context.rs:3, shift.rs:3, binop.rs:3, ptr.rs:4, log.rs:14,
    far_call.rs:15, ret.rs:10 and uma.rs:13 *)
Definition Opcode_cmp (a b : Opcode) : comparison :=
  match a, b with
  | Op_Add x, Op_Add y => AddOpcode_discriminant x ?= AddOpcode_discriminant y
  | Op_Sub x, Op_Sub y => SubOpcode_discriminant x ?= SubOpcode_discriminant y
  | Op_Context x, Op_Context y => ContextOpcode_discriminant x ?= ContextOpcode_discriminant y
  | Op_Shift x, Op_Shift y => ShiftOpcode_discriminant x ?= ShiftOpcode_discriminant y
  | Op_Binop x, Op_Binop y => BinopOpcode_discriminant x ?= BinopOpcode_discriminant y
  | Op_Ptr x, Op_Ptr y => PtrOpcode_discriminant x ?= PtrOpcode_discriminant y
  | Op_Log x, Op_Log y => LogOpcode_discriminant x ?= LogOpcode_discriminant y
  | Op_FarCall x, Op_FarCall y => FarCallOpcode_discriminant x ?= FarCallOpcode_discriminant y
  | Op_Ret x, Op_Ret y => RetOpcode_discriminant x ?= RetOpcode_discriminant y
  | Op_UMA x, Op_UMA y => UMAOpcode_discriminant x ?= UMAOpcode_discriminant y
  | _, _ => Opcode_discriminant a ?= Opcode_discriminant b
  end.

(** [[bool; 2]: Ord], lexicographic. Source: the field at definitions/mod.rs:124. *)
Definition flags_cmp (a b : bool * bool) : comparison :=
  then_cmp (bool_cmp (fst a) (fst b)) (bool_cmp (snd a) (snd b)).

(** definitions/mod.rs:119-125 *)
Definition OpcodeVariant_cmp (a b : OpcodeVariant) : comparison :=
  then_cmp (Opcode_cmp (opcode a) (opcode b))
  (then_cmp (Operand_cmp (src0_operand_type a) (src0_operand_type b))
  (then_cmp (Operand_cmp (dst0_operand_type a) (dst0_operand_type b))
            (flags_cmp (flags a) (flags b)))).

(** definitions/condition.rs:3-12 (first discriminant 0, each next one more) *)
Definition Condition_discriminant (self : Condition) : N :=
  match self with
  | Always => 0
  | Gt_ => 1
  | Lt_ => 2
  | Eq_ => 3
  | Ge_ => 4
  | Le_ => 5
  | Ne_ => 6
  | GtOrLt => 7
  end.

(** definitions/condition.rs:1 *)
Definition Condition_cmp (a b : Condition) : comparison :=
  Condition_discriminant a ?= Condition_discriminant b.

(** definitions/abi/fat_pointer.rs:3-9 *)
Definition FatPointer_cmp (a b : FatPointer) : comparison :=
  then_cmp (fp_offset a ?= fp_offset b)
  (then_cmp (fp_memory_page a ?= fp_memory_page b)
  (then_cmp (fp_start a ?= fp_start b)
            (fp_length a ?= fp_length b))).

(** definitions/abi/far_call.rs:8-14 (first discriminant 0, each next one more) *)
Definition FarCallForwardPageType_discriminant (self : FarCallForwardPageType) : N :=
  match self with
  | FarCall_UseHeap => 0
  | FarCall_ForwardFatPointer => 1
  | FarCall_UseAuxHeap => 2
  end.

(** definitions/abi/far_call.rs:8 *)
Definition FarCallForwardPageType_cmp (a b : FarCallForwardPageType) : comparison :=
  FarCallForwardPageType_discriminant a ?= FarCallForwardPageType_discriminant b.

(** definitions/abi/far_call.rs:27-35 *)
Definition FarCallABI_cmp (a b : FarCallABI) : comparison :=
  then_cmp (FatPointer_cmp (fc_memory_quasi_fat_pointer a) (fc_memory_quasi_fat_pointer b))
  (then_cmp (fc_ergs_passed a ?= fc_ergs_passed b)
  (then_cmp (fc_shard_id a ?= fc_shard_id b)
  (then_cmp (FarCallForwardPageType_cmp (fc_forwarding_mode a) (fc_forwarding_mode b))
  (then_cmp (bool_cmp (fc_constructor_call a) (fc_constructor_call b))
            (bool_cmp (fc_to_system a) (fc_to_system b)))))).

(** definitions/abi/ret.rs:11-17 (first discriminant 0, each next one more) *)
Definition RetForwardPageType_discriminant (self : RetForwardPageType) : N :=
  match self with
  | Ret_UseHeap => 0
  | Ret_ForwardFatPointer => 1
  | Ret_UseAuxHeap => 2
  end.

(** definitions/abi/ret.rs:11 *)
Definition RetForwardPageType_cmp (a b : RetForwardPageType) : comparison :=
  RetForwardPageType_discriminant a ?= RetForwardPageType_discriminant b.

(** definitions/abi/ret.rs:31-35 *)
Definition RetABI_cmp (a b : RetABI) : comparison :=
  then_cmp (FatPointer_cmp (ret_memory_quasi_fat_pointer a) (ret_memory_quasi_fat_pointer b))
           (RetForwardPageType_cmp (ret_page_forwarding_mode a) (ret_page_forwarding_mode b)).

(** definitions/abi/near_call.rs:3-6 *)
Definition NearCallABI_cmp (a b : NearCallABI) : comparison :=
  nc_ergs_passed a ?= nc_ergs_passed b.

(** definitions/abi/precompile_call.rs:3-10 *)
Definition PrecompileCallABI_cmp (a b : PrecompileCallABI) : comparison :=
  then_cmp (pc_input_memory_offset a ?= pc_input_memory_offset b)
  (then_cmp (pc_input_memory_length a ?= pc_input_memory_length b)
  (then_cmp (pc_output_memory_offset a ?= pc_output_memory_offset b)
  (then_cmp (pc_output_memory_length a ?= pc_output_memory_length b)
            (pc_per_precompile_interpreted a ?= pc_per_precompile_interpreted b)))).

(** definitions/abi/precompile_call.rs:33-42 *)
Definition PrecompileCallInnerABI_cmp (a b : PrecompileCallInnerABI) : comparison :=
  then_cmp (pi_input_memory_offset a ?= pi_input_memory_offset b)
  (then_cmp (pi_input_memory_length a ?= pi_input_memory_length b)
  (then_cmp (pi_output_memory_offset a ?= pi_output_memory_offset b)
  (then_cmp (pi_output_memory_length a ?= pi_output_memory_length b)
  (then_cmp (pi_memory_page_to_read a ?= pi_memory_page_to_read b)
  (then_cmp (pi_memory_page_to_write a ?= pi_memory_page_to_write b)
            (pi_precompile_interpreted_data a ?= pi_precompile_interpreted_data b)))))).

(** definitions/abi/meta.rs:3-11 *)
Definition VmMetaParameters_cmp (a b : VmMetaParameters) : comparison :=
  then_cmp (ergs_per_pubdata_byte a ?= ergs_per_pubdata_byte b)
  (then_cmp (heap_size a ?= heap_size b)
  (then_cmp (aux_heap_size a ?= aux_heap_size b)
  (then_cmp (this_shard_id a ?= this_shard_id b)
  (then_cmp (caller_shard_id a ?= caller_shard_id b)
            (code_shard_id a ?= code_shard_id b))))).

(** definitions/opcode_trait.rs:42-47 *)
Definition OpcodeVariantData_cmp (a b : OpcodeVariantData) : comparison :=
  then_cmp (variant_idx a ?= variant_idx b)
  (then_cmp (num_non_exclusive_flags a ?= num_non_exclusive_flags b)
            (num_used_immediates a ?= num_used_immediates b)).
