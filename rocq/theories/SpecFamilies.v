(** * Specification of the per-opcode attributes: numbers, prices, permissions, operands.

    Plain tables over the public data types, independent of the model's functions.
    Definitions only. *)

From Coq Require Import NArith List Bool String.
From Verif Require Import Machine Operands OpcodeTrait Opcodes AllOpcodes Tables SpecIsa.
Import ListNotations.
Open Scope N_scope.

(** Number of the opcode family (its bit in the circuit bitmask). *)
Definition spec_family (o : Opcode) : N :=
  match o with
  | Op_Invalid _ => 0 | Op_Nop _ => 1 | Op_Add _ => 2 | Op_Sub _ => 3
  | Op_Mul _ => 4 | Op_Div _ => 5 | Op_Jump _ => 6 | Op_Context _ => 7
  | Op_Shift _ => 8 | Op_Binop _ => 9 | Op_Ptr _ => 10 | Op_NearCall _ => 11
  | Op_Log _ => 12 | Op_FarCall _ => 13 | Op_Ret _ => 14 | Op_UMA _ => 15
  end.

(** Number of an opcode within its family. *)
Definition spec_sub (o : Opcode) : N :=
  match o with
  | Op_Binop BinopOpcode_And => 1
  | Op_Binop BinopOpcode_Or => 2
  | Op_Shift ShiftOpcode_Shr => 1
  | Op_Shift ShiftOpcode_Rol => 2
  | Op_Shift ShiftOpcode_Ror => 3
  | Op_Ptr PtrOpcode_Sub => 1
  | Op_Ptr PtrOpcode_Pack => 2
  | Op_Ptr PtrOpcode_Shrink => 3
  | Op_Context ContextOpcode_Caller => 1
  | Op_Context ContextOpcode_CodeAddress => 2
  | Op_Context ContextOpcode_Meta => 3
  | Op_Context ContextOpcode_ErgsLeft => 4
  | Op_Context ContextOpcode_Sp => 5
  | Op_Context ContextOpcode_GetContextU128 => 6
  | Op_Context ContextOpcode_SetContextU128 => 7
  | Op_Context ContextOpcode_SetErgsPerPubdataByte => 8
  | Op_Context ContextOpcode_IncrementTxNumber => 9
  | Op_Log LogOpcode_StorageWrite => 1
  | Op_Log LogOpcode_ToL1Message => 2
  | Op_Log LogOpcode_Event => 3
  | Op_Log LogOpcode_PrecompileCall => 4
  | Op_FarCall FarCallOpcode_Delegate => 1
  | Op_FarCall FarCallOpcode_Mimic => 2
  | Op_Ret RetOpcode_Revert => 1
  | Op_Ret RetOpcode_Panic => 2
  | Op_UMA UMAOpcode_HeapWrite => 1
  | Op_UMA UMAOpcode_AuxHeapRead => 2
  | Op_UMA UMAOpcode_AuxHeapWrite => 3
  | Op_UMA UMAOpcode_FatPointerRead => 4
  | _ => 0
  end.

(** Number of opcodes in the family of [o]. *)
Definition spec_sub_count (o : Opcode) : N :=
  match o with
  | Op_Binop _ | Op_FarCall _ | Op_Ret _ => 3
  | Op_Shift _ | Op_Ptr _ => 4
  | Op_Log _ | Op_UMA _ => 5
  | Op_Context _ => 10
  | _ => 1
  end.

(** Human-readable family names. *)
Definition spec_name (o : Opcode) : string :=
  match o with
  | Op_Invalid _ => "Invalid opcode" | Op_Nop _ => "Nop opcode" | Op_Add _ => "Add opcode"
  | Op_Sub _ => "Sub opcode" | Op_Mul _ => "Mul opcode" | Op_Div _ => "Div opcode"
  | Op_Jump _ => "Jump opcode" | Op_Context _ => "Context opcode"
  | Op_Shift _ => "Shift opcode" | Op_Binop _ => "Binop opcode" | Op_Ptr _ => "Ptr opcode"
  | Op_NearCall _ => "Near call opcode" | Op_Log _ => "Log opcode"
  | Op_FarCall _ => "Far call opcode" | Op_Ret _ => "Ret opcode" | Op_UMA _ => "UMA opcode"
  end%string.

(** Prices in ergs. *)
Definition spec_price (o : Opcode) : N :=
  match o with
  | Op_Invalid _ => 2 ^ 32 - 1
  | Op_Nop _ | Op_Add _ | Op_Sub _ | Op_Mul _ | Op_Div _ | Op_Jump _
  | Op_Binop _ | Op_Shift _ | Op_Ptr _ => 6
  | Op_Context _ | Op_Ret _ => 5
  | Op_NearCall _ => 25
  | Op_FarCall _ => 182
  | Op_Log LogOpcode_StorageRead => 158
  | Op_Log LogOpcode_StorageWrite => 3501
  | Op_Log LogOpcode_ToL1Message => 156250
  | Op_Log LogOpcode_Event => 38
  | Op_Log LogOpcode_PrecompileCall => 6
  | Op_UMA UMAOpcode_HeapWrite | Op_UMA UMAOpcode_AuxHeapWrite => 13
  | Op_UMA _ => 7
  end.

(** Opcodes reserved for system contracts. *)
Definition spec_kernel (o : Opcode) : bool :=
  match o with
  | Op_FarCall FarCallOpcode_Mimic
  | Op_Context ContextOpcode_SetContextU128
  | Op_Context ContextOpcode_SetErgsPerPubdataByte
  | Op_Context ContextOpcode_IncrementTxNumber
  | Op_Log LogOpcode_Event | Op_Log LogOpcode_ToL1Message | Op_Log LogOpcode_PrecompileCall => true
  | _ => false
  end.

(** Opcodes forbidden in a static call. *)
Definition spec_not_static (o : Opcode) : bool :=
  match o with
  | Op_Context ContextOpcode_SetContextU128
  | Op_Context ContextOpcode_SetErgsPerPubdataByte
  | Op_Context ContextOpcode_IncrementTxNumber
  | Op_Log LogOpcode_StorageWrite | Op_Log LogOpcode_Event | Op_Log LogOpcode_ToL1Message => true
  | _ => false
  end.

Definition spec_is_invalid (o : Opcode) : bool :=
  match o with Op_Invalid _ => true | _ => false end.

(** Immediates an opcode takes. *)
Definition spec_num_immediates (o : Opcode) : N :=
  match o with
  | Op_Nop _ | Op_Add _ | Op_Sub _ | Op_Mul _ | Op_Div _ | Op_Binop _ | Op_Shift _ | Op_Ptr _
  | Op_NearCall _ => 2
  | Op_Jump _ | Op_FarCall _ | Op_Ret _ => 1
  | _ => 0
  end.

(** Kinds of operands an opcode reads and writes, version [v].  [Full UseRegOnly] stands for
    "any mode". *)
Definition spec_inputs (v : N) (o : Opcode) : list Operand :=
  match o with
  | Op_Invalid _ => []
  | Op_Nop _ | Op_Jump _ => [Full UseRegOnly]
  | Op_Add _ | Op_Sub _ | Op_Mul _ | Op_Div _ | Op_Binop _ | Op_Shift _ | Op_Ptr _ =>
      [Full UseRegOnly; RegOnly]
  | Op_NearCall _ => [RegOnly]
  | Op_Context ContextOpcode_SetContextU128
  | Op_Context ContextOpcode_SetErgsPerPubdataByte => [RegOnly]
  | Op_Context _ => []
  | Op_Log LogOpcode_StorageRead | Op_Log LogOpcode_PrecompileCall => [RegOnly]
  | Op_Log _ => [RegOnly; RegOnly]
  | Op_FarCall _ => [RegOnly; RegOnly]
  | Op_Ret RetOpcode_Panic => []
  | Op_Ret _ => [RegOnly]
  | Op_UMA UMAOpcode_FatPointerRead => [RegOnly]
  | Op_UMA UMAOpcode_HeapRead | Op_UMA UMAOpcode_AuxHeapRead =>
      if v =? 0 then [RegOnly] else [RegOrImm RI_UseRegOnly]
  | Op_UMA UMAOpcode_HeapWrite | Op_UMA UMAOpcode_AuxHeapWrite =>
      if v =? 0 then [RegOnly; RegOnly] else [RegOrImm RI_UseRegOnly; RegOnly]
  end.

Definition spec_outputs (o : Opcode) : list Operand :=
  match o with
  | Op_Nop _ | Op_Add _ | Op_Sub _ | Op_Binop _ | Op_Shift _ | Op_Ptr _ => [Full UseRegOnly]
  | Op_Mul _ | Op_Div _ => [Full UseRegOnly; RegOnly]
  | Op_Context ContextOpcode_SetContextU128
  | Op_Context ContextOpcode_SetErgsPerPubdataByte
  | Op_Context ContextOpcode_IncrementTxNumber => []
  | Op_Context _ => [RegOnly]
  | Op_Log LogOpcode_StorageRead | Op_Log LogOpcode_PrecompileCall => [RegOnly]
  | Op_UMA UMAOpcode_HeapWrite | Op_UMA UMAOpcode_AuxHeapWrite => [RegOnly]
  | Op_UMA _ => [RegOnly; RegOnly]
  | _ => []
  end.

(** The circuit bitmask, bit by bit. *)
Definition spec_mask_bit (x : OpcodeVariant) (i : N) : bool :=
  let o := opcode x in
  if i <? 16 then i =? spec_family o
  else if i <? 26 then i - 16 =? spec_sub o
  else if i =? 26 then fst (flags x)
  else if i =? 27 then snd (flags x)
  else if i <? 34 then i - 28 =? spec_operand_mode (src0_operand_type x)
  else if i <? 40 then i - 34 =? spec_operand_mode (dst0_operand_type x)
  else if i =? 48 then spec_kernel o
  else if i =? 49 then negb (spec_not_static o)
  else if i =? 50 then spec_is_invalid o
  else false.

(** [RegOnly] and a register used where an immediate is also allowed mean the same. *)
Definition spec_norm_source (s : Operand) : Operand :=
  match s with RegOrImm RI_UseRegOnly => RegOnly | _ => s end.

Definition spec_equivalent (a b : OpcodeVariant) : Prop :=
  opcode a = opcode b /\ flags a = flags b /\ dst0_operand_type a = dst0_operand_type b /\
  spec_norm_source (src0_operand_type a) = spec_norm_source (src0_operand_type b).

(** The same as a test. *)
Definition spec_norm (x : OpcodeVariant) : OpcodeVariant :=
  mkOpcodeVariant (opcode x) (spec_norm_source (src0_operand_type x)) (dst0_operand_type x)
    (flags x).
Definition spec_equivalentb (a b : OpcodeVariant) : bool :=
  OpcodeVariant_eqb (spec_norm a) (spec_norm b).

(** ** Families as seen through the traits *)

(** The trait object of an opcode. *)
Definition spec_props (o : Opcode) : OpcodeProps :=
  match o with
  | Op_Invalid s => InvalidOpcode_Props s | Op_Nop s => NopOpcode_Props s
  | Op_Add s => AddOpcode_Props s | Op_Sub s => SubOpcode_Props s
  | Op_Mul s => MulOpcode_Props s | Op_Div s => DivOpcode_Props s
  | Op_Jump s => JumpOpcode_Props s | Op_Context s => ContextOpcode_Props s
  | Op_Shift s => ShiftOpcode_Props s | Op_Binop s => BinopOpcode_Props s
  | Op_Ptr s => PtrOpcode_Props s | Op_NearCall s => NearCallOpcode_Props s
  | Op_Log s => LogOpcode_Props s | Op_FarCall s => FarCallOpcode_Props s
  | Op_Ret s => RetOpcode_Props s | Op_UMA s => UMAOpcode_Props s
  end.

(** A statement about the trait implementations of all sixteen families, with the number
    of opcodes in each. *)
Definition for_all_families (Q : forall T, OpcodeVariantProps T -> N -> Prop) : Prop :=
  Q _ InvalidOpcode_VariantProps 1 /\ Q _ NopOpcode_VariantProps 1 /\
  Q _ AddOpcode_VariantProps 1 /\ Q _ SubOpcode_VariantProps 1 /\
  Q _ MulOpcode_VariantProps 1 /\ Q _ DivOpcode_VariantProps 1 /\
  Q _ JumpOpcode_VariantProps 1 /\ Q _ ContextOpcode_VariantProps 10 /\
  Q _ ShiftOpcode_VariantProps 4 /\ Q _ BinopOpcode_VariantProps 3 /\
  Q _ PtrOpcode_VariantProps 4 /\ Q _ NearCallOpcode_VariantProps 1 /\
  Q _ LogOpcode_VariantProps 5 /\ Q _ FarCallOpcode_VariantProps 3 /\
  Q _ RetOpcode_VariantProps 3 /\ Q _ UMAOpcode_VariantProps 5.

(** [from_variant_index_for_version] inverts [variant_index], whose range is [0..n-1], and
    [all_variants] is sorted by it; the version does not matter. *)
Definition spec_numbered (T : Type) (P : OpcodeVariantProps T) (n : N) : Prop :=
  (forall v i x, from_variant_index_for_version P i v = Some x <-> variant_index P x = i) /\
  (forall v i, from_variant_index_for_version P i v = None <-> n <= i) /\
  (forall i x, nth_error (all_variants P) (N.to_nat i) = Some x <-> variant_index P x = i) /\
  List.length (all_variants P) = N.to_nat n.

(** Every variant exists since version 0, and the availability queries of later versions
    answer "no". *)
Definition spec_availability (T : Type) (P : OpcodeVariantProps T) (n : N) : Prop :=
  forall v,
    (forall x, minimal_version P x = 0) /\
    (forall x, is_available_for_version P x v = true <-> v = 0) /\
    (forall x, is_added_in_version P x v = true <-> v = 0) /\
    variants_for_version P v = (if v =? 0 then all_variants P else []) /\
    variants_added_in_version P v = (if v =? 0 then all_variants P else []).

(** What the descriptor of a family lists: number, flags and immediates of each opcode. *)
Definition spec_variants_data (o : Opcode) : list OpcodeVariantData :=
  map (fun o' => mkOpcodeVariantData (spec_sub o') (spec_num_flags o') (spec_num_immediates o'))
    (filter (fun o' => spec_family o' =? spec_family o) spec_all_opcodes).

Definition spec_is_uma (o : Opcode) : bool :=
  match o with Op_UMA _ => true | _ => false end.

(** A mode that reads or writes memory. *)
Definition spec_mem_mode (f : ImmMemHandlerFlags) : bool :=
  match f with UseRegOnly | UseImm16Only => false | _ => true end.
Definition spec_in_memory (s : Operand) : bool :=
  match s with Full f => spec_mem_mode f | _ => false end.

(** Ways to address the operands. *)
Definition spec_num_addressings (a : addressing) : N :=
  match a with RegistersOnly => 1 | FullSource => 6 | FullBoth => 24 | RegisterOrImm => 2 end.

(** Position of a family in the prototype lists. *)
Definition spec_position (o : Opcode) : N :=
  match o with
  | Op_Invalid _ => 0 | Op_Nop _ => 1 | Op_Add _ => 2 | Op_Sub _ => 3
  | Op_Mul _ => 4 | Op_Div _ => 5 | Op_Jump _ => 6 | Op_Binop _ => 7
  | Op_Shift _ => 8 | Op_Ptr _ => 9 | Op_NearCall _ => 10 | Op_Context _ => 11
  | Op_Log _ => 12 | Op_FarCall _ => 13 | Op_Ret _ => 14 | Op_UMA _ => 15
  end.

