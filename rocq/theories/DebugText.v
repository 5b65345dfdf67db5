(** * [{:?}] and [{:#?}] of the types that derive [Debug].  Definitions only.

    The builders of [core::fmt] are modelled by their documentation; a formatter is its
    alternate flag, and formatting a value gives the text written. *)

From Verif Require Import Machine Constants Operands OpcodeTrait Opcodes AllOpcodes Tables
  Decoding Abi VersionedHash PricingGen Display.
Local Open Scope string_scope.
Local Open Scope N_scope.

(** ** The builders of [core::fmt], used by every [derive(Debug)] (e.g.
    definitions/abi/fat_pointer.rs:3) *)

(** How a value prints, given whether the alternate form was asked for.
    Source: opcode.rs:9. *)
Definition debugged := bool -> string.

(** [PadAdapter]: four spaces in front of every line. Source: opcode.rs:9. *)
Fixpoint pad (on_newline : bool) (s : string) : string :=
  match s with
  | EmptyString => EmptyString
  | String c r =>
      let rest := String c (pad (Ascii.eqb c (ascii_of_N 10)) r) in
      if on_newline then ("    " ++ rest)%string else rest
  end.

(** [DebugStruct::field] for each field and [finish]. Source: opcode.rs:9. *)
Fixpoint debug_fields (has_fields : bool) (fields : list (string * debugged)) (alternate : bool)
  : string :=
  match fields with
  | [] => if has_fields then (if alternate then "}" else " }") else ""
  | (name, value) :: rest =>
      if alternate
      then ((if has_fields then "" else " {" ++ nl)
            ++ pad true (name ++ ": " ++ value true ++ "," ++ nl)
            ++ debug_fields true rest alternate)%string
      else ((if has_fields then ", " else " { ") ++ name ++ ": " ++ value false
            ++ debug_fields true rest alternate)%string
  end.
(** Source: opcode.rs:9 *)
Definition debug_struct (name : string) (fields : list (string * debugged)) : debugged :=
  fun alternate => (name ++ debug_fields false fields alternate)%string.

(** [DebugTuple::field] for each field and [finish]; the trailing comma is for tuples without a
    name, which do not occur. Source: definitions/all.rs:3. *)
Fixpoint debug_positions (has_fields : bool) (fields : list debugged) (alternate : bool)
  : string :=
  match fields with
  | [] => if has_fields then ")" else ""
  | value :: rest =>
      if alternate
      then ((if has_fields then "" else "(" ++ nl)
            ++ pad true (value true ++ "," ++ nl) ++ debug_positions true rest alternate)%string
      else ((if has_fields then ", " else "(") ++ value false
            ++ debug_positions true rest alternate)%string
  end.
(** Source: definitions/all.rs:3 *)
Definition debug_named_tuple (name : string) (fields : list debugged) : debugged :=
  fun alternate => (name ++ debug_positions false fields alternate)%string.

(** [DebugList::entries] and [finish], for arrays. Source: definitions/mod.rs:124. *)
Fixpoint debug_entries (has_fields : bool) (entries : list debugged) (alternate : bool)
  : string :=
  match entries with
  | [] => "]"
  | value :: rest =>
      if alternate
      then ((if has_fields then "" else nl)
            ++ pad true (value true ++ "," ++ nl) ++ debug_entries true rest alternate)%string
      else ((if has_fields then ", " else "") ++ value false
            ++ debug_entries true rest alternate)%string
  end.
(** Source: definitions/mod.rs:124 *)
Definition debug_array (entries : list debugged) : debugged :=
  fun alternate => ("[" ++ debug_entries false entries alternate)%string.

(** A unit variant or unit struct, an integer, a boolean: the same in both forms.
    Source: definitions/condition.rs:1. *)
Definition debug_unit (name : string) : debugged := fun _ => name.
(** Source: definitions/abi/fat_pointer.rs:5 *)
Definition debug_int (x : N) : debugged := fun _ => fmt_u32 x.
(** Source: definitions/abi/far_call.rs:33 *)
Definition debug_bool (b : bool) : debugged := fun _ => if b then "true" else "false".

(** ** The instances *)

(** definitions/opcode_trait.rs:3-8 *)
Definition Operand_fmt (x : Operand) : debugged :=
  match x with
  | RegOnly => debug_unit "RegOnly"
  | RegOrImm f => debug_named_tuple "RegOrImm" [debug_unit (RegOrImmFlags_debug f)]
  | Full f => debug_named_tuple "Full" [debug_unit (ImmMemHandlerFlags_debug f)]
  end.

(** definitions/all.rs:3-21 *)
Definition Opcode_fmt (x : Opcode) : debugged :=
  match x with
  | Op_Invalid i => debug_named_tuple "Invalid" [debug_unit (InvalidOpcode_debug i)]
  | Op_Nop i => debug_named_tuple "Nop" [debug_unit (NopOpcode_debug i)]
  | Op_Add i => debug_named_tuple "Add" [debug_unit (AddOpcode_debug i)]
  | Op_Sub i => debug_named_tuple "Sub" [debug_unit (SubOpcode_debug i)]
  | Op_Mul i => debug_named_tuple "Mul" [debug_unit (MulOpcode_debug i)]
  | Op_Div i => debug_named_tuple "Div" [debug_unit (DivOpcode_debug i)]
  | Op_Jump i => debug_named_tuple "Jump" [debug_unit (JumpOpcode_debug i)]
  | Op_Context i => debug_named_tuple "Context" [debug_unit (ContextOpcode_debug i)]
  | Op_Shift i => debug_named_tuple "Shift" [debug_unit (ShiftOpcode_debug i)]
  | Op_Binop i => debug_named_tuple "Binop" [debug_unit (BinopOpcode_debug i)]
  | Op_Ptr i => debug_named_tuple "Ptr" [debug_unit (PtrOpcode_debug i)]
  | Op_NearCall i => debug_named_tuple "NearCall" [debug_unit (NearCallOpcode_debug i)]
  | Op_Log i => debug_named_tuple "Log" [debug_unit (LogOpcode_debug i)]
  | Op_FarCall i => debug_named_tuple "FarCall" [debug_unit (FarCallOpcode_debug i)]
  | Op_Ret i => debug_named_tuple "Ret" [debug_unit (RetOpcode_debug i)]
  | Op_UMA i => debug_named_tuple "UMA" [debug_unit (UMAOpcode_debug i)]
  end.

(** definitions/mod.rs:119-125 *)
Definition OpcodeVariant_fmt (x : OpcodeVariant) : debugged :=
  debug_struct "OpcodeVariant"
    [ ("opcode", Opcode_fmt (opcode x));
      ("src0_operand_type", Operand_fmt (src0_operand_type x));
      ("dst0_operand_type", Operand_fmt (dst0_operand_type x));
      ("flags", debug_array [debug_bool (fst (flags x)); debug_bool (snd (flags x))]) ].

(** opcode.rs:9-19 *)
Definition DecodedOpcode_fmt (x : DecodedOpcode) : debugged :=
  debug_struct "DecodedOpcode"
    [ ("variant", OpcodeVariant_fmt (variant x));
      ("condition", debug_unit (Condition_debug (condition x)));
      ("src0_reg_idx", debug_int (src0_reg_idx x)); ("src1_reg_idx", debug_int (src1_reg_idx x));
      ("dst0_reg_idx", debug_int (dst0_reg_idx x)); ("dst1_reg_idx", debug_int (dst1_reg_idx x));
      ("imm_0", debug_int (imm_0 x)); ("imm_1", debug_int (imm_1 x)) ].

(** decoding/mod.rs:10-11 *)
Definition VariantMonotonicNumber_fmt (x : VariantMonotonicNumber) : debugged :=
  debug_named_tuple "VariantMonotonicNumber" [debug_int (monotonic_number x)].

(** definitions/opcode_trait.rs:19-20 *)
Definition ISAVersion_fmt (x : ISAVersion) : debugged :=
  debug_named_tuple "ISAVersion" [debug_int x].

(** definitions/opcode_trait.rs:42-47 *)
Definition OpcodeVariantData_fmt (x : OpcodeVariantData) : debugged :=
  debug_struct "OpcodeVariantData"
    [ ("variant_idx", debug_int (variant_idx x));
      ("num_non_exclusive_flags", debug_int (num_non_exclusive_flags x));
      ("num_used_immediates", debug_int (num_used_immediates x)) ].

(** definitions/abi/fat_pointer.rs:3-9 *)
Definition FatPointer_fmt (x : FatPointer) : debugged :=
  debug_struct "FatPointer"
    [ ("offset", debug_int (fp_offset x)); ("memory_page", debug_int (fp_memory_page x));
      ("start", debug_int (fp_start x)); ("length", debug_int (fp_length x)) ].

(** definitions/abi/far_call.rs:8-15 *)
Definition FarCallForwardPageType_fmt (x : FarCallForwardPageType) : debugged :=
  debug_unit (match x with
              | FarCall_UseHeap => "UseHeap"
              | FarCall_ForwardFatPointer => "ForwardFatPointer"
              | FarCall_UseAuxHeap => "UseAuxHeap"
              end).

(** definitions/abi/far_call.rs:27-35 *)
Definition FarCallABI_fmt (x : FarCallABI) : debugged :=
  debug_struct "FarCallABI"
    [ ("memory_quasi_fat_pointer", FatPointer_fmt (fc_memory_quasi_fat_pointer x));
      ("ergs_passed", debug_int (fc_ergs_passed x)); ("shard_id", debug_int (fc_shard_id x));
      ("forwarding_mode", FarCallForwardPageType_fmt (fc_forwarding_mode x));
      ("constructor_call", debug_bool (fc_constructor_call x));
      ("to_system", debug_bool (fc_to_system x)) ].

(** definitions/abi/ret.rs:11-17 *)
Definition RetForwardPageType_fmt (x : RetForwardPageType) : debugged :=
  debug_unit (match x with
              | Ret_UseHeap => "UseHeap"
              | Ret_ForwardFatPointer => "ForwardFatPointer"
              | Ret_UseAuxHeap => "UseAuxHeap"
              end).

(** definitions/abi/ret.rs:31-35 *)
Definition RetABI_fmt (x : RetABI) : debugged :=
  debug_struct "RetABI"
    [ ("memory_quasi_fat_pointer", FatPointer_fmt (ret_memory_quasi_fat_pointer x));
      ("page_forwarding_mode", RetForwardPageType_fmt (ret_page_forwarding_mode x)) ].

(** definitions/abi/near_call.rs:3-6 *)
Definition NearCallABI_fmt (x : NearCallABI) : debugged :=
  debug_struct "NearCallABI" [ ("ergs_passed", debug_int (nc_ergs_passed x)) ].

(** definitions/abi/precompile_call.rs:3-10 *)
Definition PrecompileCallABI_fmt (x : PrecompileCallABI) : debugged :=
  debug_struct "PrecompileCallABI"
    [ ("input_memory_offset", debug_int (pc_input_memory_offset x));
      ("input_memory_length", debug_int (pc_input_memory_length x));
      ("output_memory_offset", debug_int (pc_output_memory_offset x));
      ("output_memory_length", debug_int (pc_output_memory_length x));
      ("per_precompile_interpreted", debug_int (pc_per_precompile_interpreted x)) ].

(** definitions/abi/precompile_call.rs:33-42 *)
Definition PrecompileCallInnerABI_fmt (x : PrecompileCallInnerABI) : debugged :=
  debug_struct "PrecompileCallInnerABI"
    [ ("input_memory_offset", debug_int (pi_input_memory_offset x));
      ("input_memory_length", debug_int (pi_input_memory_length x));
      ("output_memory_offset", debug_int (pi_output_memory_offset x));
      ("output_memory_length", debug_int (pi_output_memory_length x));
      ("memory_page_to_read", debug_int (pi_memory_page_to_read x));
      ("memory_page_to_write", debug_int (pi_memory_page_to_write x));
      ("precompile_interpreted_data", debug_int (pi_precompile_interpreted_data x)) ].

(** definitions/abi/meta.rs:3-11 *)
Definition VmMetaParameters_fmt (x : VmMetaParameters) : debugged :=
  debug_struct "VmMetaParameters"
    [ ("ergs_per_pubdata_byte", debug_int (ergs_per_pubdata_byte x));
      ("heap_size", debug_int (heap_size x)); ("aux_heap_size", debug_int (aux_heap_size x));
      ("this_shard_id", debug_int (this_shard_id x));
      ("caller_shard_id", debug_int (caller_shard_id x));
      ("code_shard_id", debug_int (code_shard_id x)) ].

(** definitions/versioned_hash/mod.rs:54-59 *)
Definition ContractCodeSha256Storage_fmt (x : ContractCodeSha256Storage) : debugged :=
  debug_struct "ContractCodeSha256Storage"
    [ ("code_length_in_words", debug_int (code_length_in_words x));
      ("extra_marker", debug_int (extra_marker x));
      ("partial_hash", debug_array (map debug_int (partial_hash x))) ].

(** definitions/versioned_hash/mod.rs:11-14, with the storage layout of [ContractCodeSha256] *)
Definition VersionedHash_fmt (x : VersionedHashGeneric ContractCodeSha256Storage) : debugged :=
  debug_struct "VersionedHashGeneric" [ ("data", ContractCodeSha256Storage_fmt (data x)) ].
