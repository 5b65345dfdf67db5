(** * Text output: [Display] of [OpcodeVariant] (definitions/mod.rs:176-187) and of
    [DecodedOpcode] (opcode.rs:76-89), and [compute_decoding_format]
    (definitions/mod.rs:894-912).  Definitions only.

    [{:?}] of a derived [Debug] enum prints the variant name, with the payload in
    parentheses; of a unit struct, its name. *)

From Verif Require Import Machine Constants Operands OpcodeTrait Opcodes AllOpcodes Tables
  Decoding PricingGen.
Local Open Scope string_scope.
Local Open Scope N_scope.

(** [derive(Debug)] of definitions/invalid_opcode.rs:4 *)
Definition InvalidOpcode_debug (x : InvalidOpcode) : string := "InvalidOpcode".

(** [derive(Debug)] of definitions/noop.rs:4 *)
Definition NopOpcode_debug (x : NopOpcode) : string := "NopOpcode".

(** [derive(Debug)] of definitions/add.rs:5-7 *)
Definition AddOpcode_debug (x : AddOpcode) : string :=
  match x with
  | AddOpcode_Add => "Add"
  end.

(** [derive(Debug)] of definitions/sub.rs:5-7 *)
Definition SubOpcode_debug (x : SubOpcode) : string :=
  match x with
  | SubOpcode_Sub => "Sub"
  end.

(** [derive(Debug)] of definitions/mul.rs:4 *)
Definition MulOpcode_debug (x : MulOpcode) : string := "MulOpcode".

(** [derive(Debug)] of definitions/div.rs:4 *)
Definition DivOpcode_debug (x : DivOpcode) : string := "DivOpcode".

(** [derive(Debug)] of definitions/jump.rs:4 *)
Definition JumpOpcode_debug (x : JumpOpcode) : string := "JumpOpcode".

(** [derive(Debug)] of definitions/context.rs:5-16 *)
Definition ContextOpcode_debug (x : ContextOpcode) : string :=
  match x with
  | ContextOpcode_This => "This"
  | ContextOpcode_Caller => "Caller"
  | ContextOpcode_CodeAddress => "CodeAddress"
  | ContextOpcode_Meta => "Meta"
  | ContextOpcode_ErgsLeft => "ErgsLeft"
  | ContextOpcode_Sp => "Sp"
  | ContextOpcode_GetContextU128 => "GetContextU128"
  | ContextOpcode_SetContextU128 => "SetContextU128"
  | ContextOpcode_SetErgsPerPubdataByte => "SetErgsPerPubdataByte"
  | ContextOpcode_IncrementTxNumber => "IncrementTxNumber"
  end.

(** [derive(Debug)] of definitions/shift.rs:5-10 *)
Definition ShiftOpcode_debug (x : ShiftOpcode) : string :=
  match x with
  | ShiftOpcode_Shl => "Shl"
  | ShiftOpcode_Shr => "Shr"
  | ShiftOpcode_Rol => "Rol"
  | ShiftOpcode_Ror => "Ror"
  end.

(** [derive(Debug)] of definitions/binop.rs:5-9 *)
Definition BinopOpcode_debug (x : BinopOpcode) : string :=
  match x with
  | BinopOpcode_Xor => "Xor"
  | BinopOpcode_And => "And"
  | BinopOpcode_Or => "Or"
  end.

(** [derive(Debug)] of definitions/ptr.rs:6-11 *)
Definition PtrOpcode_debug (x : PtrOpcode) : string :=
  match x with
  | PtrOpcode_Add => "Add"
  | PtrOpcode_Sub => "Sub"
  | PtrOpcode_Pack => "Pack"
  | PtrOpcode_Shrink => "Shrink"
  end.

(** [derive(Debug)] of definitions/near_call.rs:4 *)
Definition NearCallOpcode_debug (x : NearCallOpcode) : string := "NearCallOpcode".

(** [derive(Debug)] of definitions/log.rs:16-22 *)
Definition LogOpcode_debug (x : LogOpcode) : string :=
  match x with
  | LogOpcode_StorageRead => "StorageRead"
  | LogOpcode_StorageWrite => "StorageWrite"
  | LogOpcode_ToL1Message => "ToL1Message"
  | LogOpcode_Event => "Event"
  | LogOpcode_PrecompileCall => "PrecompileCall"
  end.

(** [derive(Debug)] of definitions/far_call.rs:17-21 *)
Definition FarCallOpcode_debug (x : FarCallOpcode) : string :=
  match x with
  | FarCallOpcode_Normal => "Normal"
  | FarCallOpcode_Delegate => "Delegate"
  | FarCallOpcode_Mimic => "Mimic"
  end.

(** [derive(Debug)] of definitions/ret.rs:12-16 *)
Definition RetOpcode_debug (x : RetOpcode) : string :=
  match x with
  | RetOpcode_Ok => "Ok"
  | RetOpcode_Revert => "Revert"
  | RetOpcode_Panic => "Panic"
  end.

(** [derive(Debug)] of definitions/uma.rs:15-21 *)
Definition UMAOpcode_debug (x : UMAOpcode) : string :=
  match x with
  | UMAOpcode_HeapRead => "HeapRead"
  | UMAOpcode_HeapWrite => "HeapWrite"
  | UMAOpcode_AuxHeapRead => "AuxHeapRead"
  | UMAOpcode_AuxHeapWrite => "AuxHeapWrite"
  | UMAOpcode_FatPointerRead => "FatPointerRead"
  end.

(** [Name(payload)]. Source: definitions/all.rs:4-21. *)
Definition debug_tuple (name payload : string) : string :=
  (name ++ "(" ++ payload ++ ")")%string.

(** [derive(Debug)] of definitions/all.rs:4-21 *)
Definition Opcode_debug (x : Opcode) : string :=
  match x with
  | Op_Invalid inner => debug_tuple "Invalid" (InvalidOpcode_debug inner)
  | Op_Nop inner => debug_tuple "Nop" (NopOpcode_debug inner)
  | Op_Add inner => debug_tuple "Add" (AddOpcode_debug inner)
  | Op_Sub inner => debug_tuple "Sub" (SubOpcode_debug inner)
  | Op_Mul inner => debug_tuple "Mul" (MulOpcode_debug inner)
  | Op_Div inner => debug_tuple "Div" (DivOpcode_debug inner)
  | Op_Jump inner => debug_tuple "Jump" (JumpOpcode_debug inner)
  | Op_Context inner => debug_tuple "Context" (ContextOpcode_debug inner)
  | Op_Shift inner => debug_tuple "Shift" (ShiftOpcode_debug inner)
  | Op_Binop inner => debug_tuple "Binop" (BinopOpcode_debug inner)
  | Op_Ptr inner => debug_tuple "Ptr" (PtrOpcode_debug inner)
  | Op_NearCall inner => debug_tuple "NearCall" (NearCallOpcode_debug inner)
  | Op_Log inner => debug_tuple "Log" (LogOpcode_debug inner)
  | Op_FarCall inner => debug_tuple "FarCall" (FarCallOpcode_debug inner)
  | Op_Ret inner => debug_tuple "Ret" (RetOpcode_debug inner)
  | Op_UMA inner => debug_tuple "UMA" (UMAOpcode_debug inner)
  end.

(** [derive(Debug)] of imm_mem_modifiers.rs:3-10 *)
Definition ImmMemHandlerFlags_debug (x : ImmMemHandlerFlags) : string :=
  match x with
  | UseRegOnly => "UseRegOnly"
  | UseStackWithPushPop => "UseStackWithPushPop"
  | UseStackWithOffset => "UseStackWithOffset"
  | UseAbsoluteOnStack => "UseAbsoluteOnStack"
  | UseImm16Only => "UseImm16Only"
  | UseCodePage => "UseCodePage"
  end.

(** [derive(Debug)] of imm_mem_modifiers.rs:82-85 *)
Definition RegOrImmFlags_debug (x : RegOrImmFlags) : string :=
  match x with
  | RI_UseRegOnly => "UseRegOnly"
  | RI_UseImm16Only => "UseImm16Only"
  end.

(** [derive(Debug)] of definitions/opcode_trait.rs:4-8 *)
Definition Operand_debug (x : Operand) : string :=
  match x with
  | RegOnly => "RegOnly"
  | RegOrImm f => debug_tuple "RegOrImm" (RegOrImmFlags_debug f)
  | Full f => debug_tuple "Full" (ImmMemHandlerFlags_debug f)
  end.

(** [derive(Debug)] of definitions/condition.rs:3-12 *)
Definition Condition_debug (x : Condition) : string :=
  match x with
  | Always => "Always"
  | Gt_ => "Gt"
  | Lt_ => "Lt"
  | Eq_ => "Eq"
  | Ge_ => "Ge"
  | Le_ => "Le"
  | Ne_ => "Ne"
  | GtOrLt => "GtOrLt"
  end.

(** [{:#01}] of a [bool]: [Display for bool] pads ["true"]/["false"] to width 1, which
    never adds anything. Source: definitions/mod.rs:184. *)
Definition fmt_bool (b : bool) : string := if b then "true" else "false".

(** definitions/mod.rs:177-186 *)
Definition OpcodeVariant_display (self : OpcodeVariant) : string :=
  ("Opcode and variant: " ++ Opcode_debug (opcode self) ++ nl
   ++ "Src0 operand type: " ++ Operand_debug (src0_operand_type self) ++ nl
   ++ "Dst0 operand type: " ++ Operand_debug (dst0_operand_type self) ++ nl
   ++ "Non-exclusive flags: " ++ fmt_bool (fst (flags self)) ++ "|"
   ++ fmt_bool (snd (flags self)))%string.

(** One lower-case hexadecimal digit. Source: opcode.rs:77-88. *)
Definition hex_digit (d : N) : ascii :=
  if d <? 10 then ascii_of_N (48 + d) else ascii_of_N (87 + d).

(** The hexadecimal digits of [x], most significant first, at most [fuel] of them, no
    leading zeros; ["0"] for 0. Source: opcode.rs:77-88. *)
Fixpoint hex_digits (fuel : nat) (x : N) (acc : string) : string :=
  match fuel with
  | O => acc
  | S f =>
      let acc := String (hex_digit (x mod 16)) acc in
      if x / 16 =? 0 then acc else hex_digits f (x / 16) acc
  end.

(** [n] zero digits in front. Source: opcode.rs:77-88. *)
Fixpoint zeros (n : nat) (s : string) : string :=
  match n with O => s | S k => String "0" (zeros k s) end.

(** [{:#08x}]: ["0x"], then zeros up to total width 8, then the digits (at most 8 for a
    [u32]). Source: opcode.rs:77-88. *)
Definition fmt_hex_08 (x : N) : string :=
  let digits := hex_digits 8 x EmptyString in
  ("0x" ++ zeros (6 - String.length digits) digits)%string.

(** opcode.rs:77-88; the register indices are [u8] printed in decimal *)
Definition DecodedOpcode_display (self : DecodedOpcode) : string :=
  (OpcodeVariant_display (variant self) ++ nl
   ++ "Condition: " ++ Condition_debug (condition self) ++ nl
   ++ "Register selections: src0 = r" ++ fmt_u32 (src0_reg_idx self)
   ++ ", src1 = r" ++ fmt_u32 (src1_reg_idx self)
   ++ ", dst0 = r" ++ fmt_u32 (dst0_reg_idx self)
   ++ ", dst1 = r" ++ fmt_u32 (dst1_reg_idx self) ++ nl
   ++ "IMM0 constant: " ++ fmt_hex_08 (imm_0 self) ++ nl
   ++ "IMM1 constant: " ++ fmt_hex_08 (imm_1 self))%string.

(** definitions/mod.rs:894-912, for an arbitrary instruction set *)
Definition compute_decoding_format_of (I : InstructionSet) (assert_version : ISAVersion)
  : res string :=
  let* all_opcodes := set_objects I in
  let num_opcodes := len all_opcodes in
  let* num_options := max_num_variants_for_version_of I assert_version in
  let* num_flags := max_num_flags_for_version_of I assert_version in
  let input_flags := ImmMemHandlerFlags_num_src_variants in
  let output_flags := ImmMemHandlerFlags_num_dst_variants in
  let total_bits := num_opcodes + num_options + num_flags + input_flags + output_flags in
  Ok (fmt_u32 total_bits ++ " bits in total." ++ nl
      ++ fmt_u32 num_opcodes ++ " bit flags for opcode|"
      ++ fmt_u32 num_options ++ " bit flags for variant|"
      ++ fmt_u32 num_flags ++ " bit flags for flags|"
      ++ fmt_u32 input_flags ++ " bits flags for input type|"
      ++ fmt_u32 output_flags ++ " bit flags for output type")%string.

(** definitions/mod.rs:894-912, for the instruction set of the source *)
Definition compute_decoding_format : ISAVersion -> res string :=
  compute_decoding_format_of current_set.
