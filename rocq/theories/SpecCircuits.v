(** * Specification of the circuits a run fills.  Definitions only. *)

From Coq Require Import NArith List Bool.
From Verif Require Import Machine Constants Operands Opcodes AllOpcodes Tables PricingGen
  SpecCodec SpecLayout.
Import ListNotations.
Open Scope N_scope.

(** ** What a cycle puts into the circuits

    A cycle executes an instruction, or panics ([None]).  The numbers are those of the pricing
    comments and formulas of the crate (lib.rs:232-241, definitions/log.rs:58-97,
    definitions/far_call.rs:56-63, definitions/uma.rs:65-79): what can be rolled back counts twice.
    A panic is an instruction without operands in memory.  In addition to what its price lists, a
    far call is taken to log its read of the code hash. *)
Definition machine_cycles (x : option OpcodeVariant) : N :=
  match option_map opcode x with
  | Some (Op_Log LogOpcode_StorageWrite) | Some (Op_Log LogOpcode_ToL1Message)
  | Some (Op_Log LogOpcode_Event) | Some (Op_FarCall _)
  | Some (Op_UMA UMAOpcode_HeapWrite) | Some (Op_UMA UMAOpcode_AuxHeapWrite) => 2
  | _ => 1
  end.

Definition memory_queries (x : option OpcodeVariant) : N :=
  match x with
  | Some x => 1 + operand_queries (src0_operand_type x) + operand_queries (dst0_operand_type x)
              + heap_queries (opcode x)
  | None => 1
  end.

Definition log_entries (x : option OpcodeVariant) : N :=
  match option_map opcode x with
  | Some (Op_Log LogOpcode_StorageWrite) | Some (Op_Log LogOpcode_ToL1Message)
  | Some (Op_Log LogOpcode_Event) => 2
  | Some (Op_Log _) | Some (Op_FarCall _) => 1
  | _ => 0
  end.

Definition storage_entries (x : option OpcodeVariant) : N :=
  match option_map opcode x with
  | Some (Op_Log LogOpcode_StorageWrite) => 2
  | Some (Op_Log LogOpcode_StorageRead) | Some (Op_FarCall _) => 1
  | _ => 0
  end.

Definition event_entries (x : option OpcodeVariant) : N :=
  match option_map opcode x with
  | Some (Op_Log LogOpcode_ToL1Message) | Some (Op_Log LogOpcode_Event) => 2
  | _ => 0
  end.

Definition code_requests (x : option OpcodeVariant) : N :=
  match option_map opcode x with Some (Op_FarCall _) => 1 | _ => 0 end.

(** The circuits that the prices of instructions pay for: how many units an instance holds, and
    how many a cycle takes. *)
Definition circuits : list (N * (option OpcodeVariant -> N)) :=
  [ (CYCLES_PER_VM_SNAPSHOT, machine_cycles);
    (CYCLES_PER_RAM_PERMUTATION, memory_queries);
    (CYCLES_FOR_LOG_DEMUXER, log_entries);
    (CYCLES_FOR_STORAGE_SORTER, storage_entries);
    (CYCLES_FOR_EVENTS_OR_L1_MESSAGES_SORTER, event_entries);
    (CYCLES_FOR_CODE_DECOMMITTER_SORTER, code_requests) ].

Definition units (f : option OpcodeVariant -> N) (l : list (option OpcodeVariant)) : N :=
  fold_right (fun x n => f x + n) 0 l.

(** The instances filled by a sequence of cycles. *)
Definition filled (l : list (option OpcodeVariant)) : N :=
  fold_right (fun c n => units (snd c) l / fst c + n) 0 circuits.

(** Units bought in addition to instructions (rounds of a precompile, words of code): capacity of the
    circuit, price of a unit, number of units.  Instances they fill, and what they cost. *)
Definition filled_extra (xs : list (N * N * N)) : N :=
  fold_right (fun '(c, _, n) k => n / c + k) 0 xs.
Definition cost_extra (xs : list (N * N * N)) : N :=
  fold_right (fun '(_, q, n) k => n * q + k) 0 xs.

(** Storage slots read, if they all differ. *)
Definition slots_read (x : option OpcodeVariant) : N :=
  match option_map opcode x with Some (Op_Log LogOpcode_StorageRead) => 1 | _ => 0 end.

(** The instructions are of the opcode table. *)
Definition from_table (x : option OpcodeVariant) : Prop :=
  match x with Some x => in_table x | None => True end.

(** What the machine of C53 sees of a cycle. *)
Definition opcodes (l : list (option OpcodeVariant)) : list (option Opcode) :=
  map (option_map opcode) l.
