(** * Specification vocabulary for derived quantities: work per instruction, flag roles and
    code reachability.  Definitions only. *)

From Coq Require Import NArith List Bool.
From Verif Require Import Machine Constants Operands Opcodes AllOpcodes Tables SpecIsa SpecFamilies.
Import ListNotations.
Open Scope N_scope.

(** ** Work an instruction can cause in the proving circuits

    Taken from the pricing comments (lib.rs:232-240 and the per-opcode prices): every
    instruction needs a machine cycle and one memory query to fetch it, and one more query
    per operand in memory.  Unaligned heap access touches two words: a read queries both, a
    write queries both twice and takes a second cycle. *)
Definition operand_queries (x : Operand) : N :=
  match x with
  | Full UseStackWithPushPop | Full UseStackWithOffset | Full UseAbsoluteOnStack
  | Full UseCodePage => 1
  | _ => 0
  end.

Definition heap_queries (o : Opcode) : N :=
  match o with
  | Op_UMA UMAOpcode_HeapWrite | Op_UMA UMAOpcode_AuxHeapWrite => 4
  | Op_UMA _ => 2
  | _ => 0
  end.

Definition cycles_of (o : Opcode) : N :=
  match o with
  | Op_UMA UMAOpcode_HeapWrite | Op_UMA UMAOpcode_AuxHeapWrite => 2
  | _ => 1
  end.

Definition worst_work (x : OpcodeVariant) : N :=
  VM_CYCLE_COST_IN_ERGS * cycles_of (opcode x)
  + RAM_PERMUTATION_COST_IN_ERGS
    * (1 + operand_queries (src0_operand_type x) + operand_queries (dst0_operand_type x)
       + heap_queries (opcode x)).

Definition both_in_memory (x : OpcodeVariant) : bool :=
  (operand_queries (src0_operand_type x) =? 1) && (operand_queries (dst0_operand_type x) =? 1).

Definition total (f : OpcodeVariant -> N) (l : list OpcodeVariant) : N :=
  fold_right (fun x s => f x + s) 0 l.

(** ** Roles of the modifier flags

    The exported indices that name the flags of each opcode. *)
Definition flag_roles (o : Opcode) : list N :=
  match o with
  | Op_Add _ | Op_Mul _ | Op_Binop _ => [SET_FLAGS_FLAG_IDX]
  | Op_Sub _ | Op_Div _ | Op_Shift _ =>
      [SET_FLAGS_FLAG_IDX; SWAP_OPERANDS_FLAG_IDX_FOR_ARITH_OPCODES]
  | Op_Ptr _ => [SWAP_OPERANDS_FLAG_IDX_FOR_PTR_OPCODE]
  | Op_FarCall _ => [FAR_CALL_STATIC_FLAG_IDX; FAR_CALL_SHARD_FLAG_IDX]
  | Op_Ret _ => [RET_TO_LABEL_BIT_IDX]
  | Op_UMA _ => [UMA_INCREMENT_FLAG_IDX]
  | Op_Log LogOpcode_ToL1Message | Op_Log LogOpcode_Event => [FIRST_MESSAGE_FLAG_IDX]
  | _ => []
  end.

(** Flag number [i] of a variant ([flags[i]]; there are two). *)
Definition flag_at (x : OpcodeVariant) (i : N) : bool :=
  if i =? 0 then fst (flags x) else if i =? 1 then snd (flags x) else false.
