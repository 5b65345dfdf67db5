(** * Specification of the instruction set: which variants exist and what number each has.

    Independent of the model's synthesis code: plain tables and mixed-radix arithmetic over
    the public data types.  Definitions only. *)

From Coq Require Import NArith List Bool String.
From Verif Require Import Machine Operands Opcodes AllOpcodes Tables.
Import ListNotations.
Open Scope N_scope.

(** How an opcode addresses its operands. *)
Inductive addressing :=
| RegistersOnly   (* both operands are registers *)
| FullSource      (* any source mode, register destination *)
| FullBoth        (* any source mode, any writable destination mode *)
| RegisterOrImm.  (* the source is a register or an immediate *)

(** [v] is the ISA version. *)
Definition spec_addressing (v : N) (o : Opcode) : addressing :=
  match o with
  | Op_Nop _ | Op_Add _ | Op_Sub _ | Op_Mul _ | Op_Div _
  | Op_Binop _ | Op_Shift _ | Op_Ptr _ => FullBoth
  | Op_Jump _ => FullSource
  | Op_UMA UMAOpcode_FatPointerRead => RegistersOnly
  | Op_UMA _ => if v =? 0 then RegistersOnly else RegisterOrImm
  | _ => RegistersOnly
  end.

(** Number of modifier flags an opcode has. *)
Definition spec_num_flags (o : Opcode) : N :=
  match o with
  | Op_Sub _ | Op_Div _ | Op_Shift _ | Op_FarCall _ => 2
  | Op_Add _ | Op_Mul _ | Op_Binop _ | Op_Ptr _ | Op_Ret _ | Op_UMA _ => 1
  | Op_Log LogOpcode_ToL1Message | Op_Log LogOpcode_Event => 1
  | _ => 0
  end.

(** A destination can be a register or a stack slot. *)
Definition spec_writable (f : ImmMemHandlerFlags) : bool :=
  match f with
  | UseRegOnly | UseStackWithPushPop | UseStackWithOffset | UseAbsoluteOnStack => true
  | UseImm16Only | UseCodePage => false
  end.

Definition spec_operands_ok (a : addressing) (src dst : Operand) : bool :=
  match a, src, dst with
  | RegistersOnly, RegOnly, RegOnly => true
  | FullSource, Full _, RegOnly => true
  | FullBoth, Full _, Full d => spec_writable d
  | RegisterOrImm, RegOrImm _, RegOnly => true
  | _, _, _ => false
  end.

Definition spec_flags_ok (n : N) (fl : bool * bool) : bool :=
  match n, fl with
  | 0, (false, false) => true
  | 1, (_, false) => true
  | 2, _ => true
  | _, _ => false
  end.

(** The legal instruction variants of version [v]. *)
Definition spec_well_formed (v : N) (x : OpcodeVariant) : bool :=
  spec_operands_ok (spec_addressing v (opcode x)) (src0_operand_type x) (dst0_operand_type x)
  && spec_flags_ok (spec_num_flags (opcode x)) (flags x).

(** ** Opcode numbers (version 1) *)

(** First number of the block of one sub-opcode. *)
Definition spec_base (o : Opcode) : N :=
  match o with
  | Op_Invalid _ => 0
  | Op_Nop _ => 1
  | Op_Add _ => 25
  | Op_Sub _ => 73
  | Op_Mul _ => 169
  | Op_Div _ => 217
  | Op_Jump _ => 313
  | Op_Binop BinopOpcode_Xor => 319
  | Op_Binop BinopOpcode_And => 367
  | Op_Binop BinopOpcode_Or => 415
  | Op_Shift ShiftOpcode_Shl => 463
  | Op_Shift ShiftOpcode_Shr => 559
  | Op_Shift ShiftOpcode_Rol => 655
  | Op_Shift ShiftOpcode_Ror => 751
  | Op_Ptr PtrOpcode_Add => 847
  | Op_Ptr PtrOpcode_Sub => 895
  | Op_Ptr PtrOpcode_Pack => 943
  | Op_Ptr PtrOpcode_Shrink => 991
  | Op_NearCall _ => 1039
  | Op_Context ContextOpcode_This => 1040
  | Op_Context ContextOpcode_Caller => 1041
  | Op_Context ContextOpcode_CodeAddress => 1042
  | Op_Context ContextOpcode_Meta => 1043
  | Op_Context ContextOpcode_ErgsLeft => 1044
  | Op_Context ContextOpcode_Sp => 1045
  | Op_Context ContextOpcode_GetContextU128 => 1046
  | Op_Context ContextOpcode_SetContextU128 => 1047
  | Op_Context ContextOpcode_SetErgsPerPubdataByte => 1048
  | Op_Context ContextOpcode_IncrementTxNumber => 1049
  | Op_Log LogOpcode_StorageRead => 1050
  | Op_Log LogOpcode_StorageWrite => 1051
  | Op_Log LogOpcode_ToL1Message => 1052
  | Op_Log LogOpcode_Event => 1054
  | Op_Log LogOpcode_PrecompileCall => 1056
  | Op_FarCall FarCallOpcode_Normal => 1057
  | Op_FarCall FarCallOpcode_Delegate => 1061
  | Op_FarCall FarCallOpcode_Mimic => 1065
  | Op_Ret RetOpcode_Ok => 1069
  | Op_Ret RetOpcode_Revert => 1071
  | Op_Ret RetOpcode_Panic => 1073
  | Op_UMA UMAOpcode_HeapRead => 1075
  | Op_UMA UMAOpcode_HeapWrite => 1077
  | Op_UMA UMAOpcode_AuxHeapRead => 1079
  | Op_UMA UMAOpcode_AuxHeapWrite => 1081
  | Op_UMA UMAOpcode_FatPointerRead => 1083
  end.

(** First number of the immediate-source block added in version 1. *)
Definition spec_imm_base (o : Opcode) : N :=
  match o with
  | Op_UMA UMAOpcode_HeapRead => 1085
  | Op_UMA UMAOpcode_HeapWrite => 1087
  | Op_UMA UMAOpcode_AuxHeapRead => 1089
  | _ => 1091
  end.

Definition spec_mode (f : ImmMemHandlerFlags) : N :=
  match f with
  | UseRegOnly => 0
  | UseStackWithPushPop => 1
  | UseStackWithOffset => 2
  | UseAbsoluteOnStack => 3
  | UseImm16Only => 4
  | UseCodePage => 5
  end.

Definition spec_operand_mode (x : Operand) : N :=
  match x with
  | RegOnly => 0
  | RegOrImm RI_UseRegOnly => 0
  | RegOrImm RI_UseImm16Only => 4
  | Full f => spec_mode f
  end.

(** Flags read as a binary number, first flag most significant. *)
Definition spec_flag_number (n : N) (fl : bool * bool) : N :=
  match n, fl with
  | 1, (f0, _) => N.b2n f0
  | 2, (f0, f1) => 2 * N.b2n f0 + N.b2n f1
  | _, _ => 0
  end.

(** The number of a variant of version 1, if it is legal: base of the sub-opcode, then
    source mode, destination mode (radix 4) and flags (radix [2^flags]). *)
Definition spec_number (x : OpcodeVariant) : option N :=
  if spec_well_formed 1 x then
    let o := opcode x in
    let n := spec_num_flags o in
    let f := spec_flag_number n (flags x) in
    let s := spec_operand_mode (src0_operand_type x) in
    let d := spec_operand_mode (dst0_operand_type x) in
    match spec_addressing 1 o with
    | RegistersOnly => Some (spec_base o + f)
    | FullSource => Some (spec_base o + s * 2 ^ n + f)
    | FullBoth => Some (spec_base o + (4 * s + d) * 2 ^ n + f)
    | RegisterOrImm => Some ((if s =? 0 then spec_base o else spec_imm_base o) + f)
    end
  else None.

(** ** All values of the public types *)

Definition spec_all_opcodes : list Opcode :=
  [ Op_Invalid invalidOpcode; Op_Nop nopOpcode; Op_Add AddOpcode_Add; Op_Sub SubOpcode_Sub;
    Op_Mul mulOpcode; Op_Div divOpcode; Op_Jump jumpOpcode;
    Op_Binop BinopOpcode_Xor; Op_Binop BinopOpcode_And; Op_Binop BinopOpcode_Or;
    Op_Shift ShiftOpcode_Shl; Op_Shift ShiftOpcode_Shr; Op_Shift ShiftOpcode_Rol;
    Op_Shift ShiftOpcode_Ror;
    Op_Ptr PtrOpcode_Add; Op_Ptr PtrOpcode_Sub; Op_Ptr PtrOpcode_Pack; Op_Ptr PtrOpcode_Shrink;
    Op_NearCall nearCallOpcode;
    Op_Context ContextOpcode_This; Op_Context ContextOpcode_Caller;
    Op_Context ContextOpcode_CodeAddress; Op_Context ContextOpcode_Meta;
    Op_Context ContextOpcode_ErgsLeft; Op_Context ContextOpcode_Sp;
    Op_Context ContextOpcode_GetContextU128; Op_Context ContextOpcode_SetContextU128;
    Op_Context ContextOpcode_SetErgsPerPubdataByte; Op_Context ContextOpcode_IncrementTxNumber;
    Op_Log LogOpcode_StorageRead; Op_Log LogOpcode_StorageWrite; Op_Log LogOpcode_ToL1Message;
    Op_Log LogOpcode_Event; Op_Log LogOpcode_PrecompileCall;
    Op_FarCall FarCallOpcode_Normal; Op_FarCall FarCallOpcode_Delegate;
    Op_FarCall FarCallOpcode_Mimic;
    Op_Ret RetOpcode_Ok; Op_Ret RetOpcode_Revert; Op_Ret RetOpcode_Panic;
    Op_UMA UMAOpcode_HeapRead; Op_UMA UMAOpcode_HeapWrite; Op_UMA UMAOpcode_AuxHeapRead;
    Op_UMA UMAOpcode_AuxHeapWrite; Op_UMA UMAOpcode_FatPointerRead ].

Definition spec_all_modes : list ImmMemHandlerFlags :=
  [ UseRegOnly; UseStackWithPushPop; UseStackWithOffset; UseAbsoluteOnStack; UseImm16Only;
    UseCodePage ].

Definition spec_all_operands : list Operand :=
  [ RegOnly; RegOrImm RI_UseRegOnly; RegOrImm RI_UseImm16Only ] ++ map Full spec_all_modes.

Definition spec_all_flags : list (bool * bool) :=
  [ (false, false); (false, true); (true, false); (true, true) ].

Definition spec_all_variants : list OpcodeVariant :=
  flat_map (fun o => flat_map (fun s => flat_map (fun d =>
    map (fun f => mkOpcodeVariant o s d f) spec_all_flags)
    spec_all_operands) spec_all_operands) spec_all_opcodes.

(** ** The two tables, written out without the synthesis code *)

(** Version 0: opcode blocks in order; within a block source mode, destination mode, then
    flags, each ascending. *)
Definition spec_variants_of (v : N) (o : Opcode) : list OpcodeVariant :=
  flat_map (fun s => flat_map (fun d =>
    filter (spec_well_formed v)
      (map (fun f => mkOpcodeVariant o s d f) spec_all_flags))
    spec_all_operands) spec_all_operands.

Definition spec_table_v0 : list OpcodeVariant :=
  flat_map (spec_variants_of 0) spec_all_opcodes.

(** Version 1: as version 0, with the register form of heap accesses re-typed in place, and
    the immediate forms appended. *)
Definition spec_retype (x : OpcodeVariant) : OpcodeVariant :=
  match spec_addressing 1 (opcode x), src0_operand_type x with
  | RegisterOrImm, RegOnly =>
      mkOpcodeVariant (opcode x) (RegOrImm RI_UseRegOnly) (dst0_operand_type x) (flags x)
  | _, _ => x
  end.

Definition spec_is_imm_heap_access (x : OpcodeVariant) : bool :=
  match src0_operand_type x with RegOrImm RI_UseImm16Only => true | _ => false end.

Definition spec_table_v1 : list OpcodeVariant :=
  map spec_retype spec_table_v0
  ++ filter spec_is_imm_heap_access (flat_map (spec_variants_of 1) spec_all_opcodes).

(** The versions known are 0 and 1; later ones change nothing. *)
Definition spec_table (v : N) : list OpcodeVariant :=
  if v =? 0 then spec_table_v0 else spec_table_v1.

Definition spec_invalid : OpcodeVariant :=
  mkOpcodeVariant (Op_Invalid invalidOpcode) RegOnly RegOnly (false, false).

(** Position of the first occurrence. *)
Fixpoint first_index (l : list OpcodeVariant) (x : OpcodeVariant) : option N :=
  match l with
  | [] => None
  | y :: r =>
      if OpcodeVariant_eqb y x then Some 0
      else match first_index r x with Some i => Some (i + 1) | None => None end
  end.

(** The legal variants of one version in the order opcode, source, destination, flags. *)
Definition spec_enumeration (v : N) : list OpcodeVariant :=
  flat_map (spec_variants_of v) spec_all_opcodes.

(** Numbers in use, the invalid one included. *)
Definition spec_count (v : N) : N := if v =? 0 then 1085 else 1093.

(** Some variant other than the invalid one occurs twice. *)
Definition spec_repeats (t : list OpcodeVariant) : Prop :=
  exists i j x, i < j /\ nth_error t (N.to_nat i) = Some x /\
                nth_error t (N.to_nat j) = Some x /\ x <> spec_invalid.
