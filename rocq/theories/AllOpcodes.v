(** * The [Opcode] enum: src/definitions/all.rs.  Definitions only. *)

From Verif Require Import Machine Constants Operands OpcodeTrait Opcodes.

(** definitions/all.rs:4-21; the variant [Opcode::X] is the constructor [Op_X] *)
Inductive Opcode :=
| Op_Invalid (inner : InvalidOpcode)
| Op_Nop (inner : NopOpcode)
| Op_Add (inner : AddOpcode)
| Op_Sub (inner : SubOpcode)
| Op_Mul (inner : MulOpcode)
| Op_Div (inner : DivOpcode)
| Op_Jump (inner : JumpOpcode)
| Op_Context (inner : ContextOpcode)
| Op_Shift (inner : ShiftOpcode)
| Op_Binop (inner : BinopOpcode)
| Op_Ptr (inner : PtrOpcode)
| Op_NearCall (inner : NearCallOpcode)
| Op_Log (inner : LogOpcode)
| Op_FarCall (inner : FarCallOpcode)
| Op_Ret (inner : RetOpcode)
| Op_UMA (inner : UMAOpcode).
Scheme Equality for Opcode.

(** definitions/all.rs:24-43 *)
Definition Opcode_ergs_price (self : Opcode) : N :=
  match self with
  | Op_Invalid inner => ergs_price InvalidOpcode_VariantProps inner
  | Op_Nop inner => ergs_price NopOpcode_VariantProps inner
  | Op_Add inner => ergs_price AddOpcode_VariantProps inner
  | Op_Sub inner => ergs_price SubOpcode_VariantProps inner
  | Op_Mul inner => ergs_price MulOpcode_VariantProps inner
  | Op_Div inner => ergs_price DivOpcode_VariantProps inner
  | Op_Jump inner => ergs_price JumpOpcode_VariantProps inner
  | Op_Context inner => ergs_price ContextOpcode_VariantProps inner
  | Op_Shift inner => ergs_price ShiftOpcode_VariantProps inner
  | Op_Binop inner => ergs_price BinopOpcode_VariantProps inner
  | Op_Ptr inner => ergs_price PtrOpcode_VariantProps inner
  | Op_NearCall inner => ergs_price NearCallOpcode_VariantProps inner
  | Op_Log inner => ergs_price LogOpcode_VariantProps inner
  | Op_FarCall inner => ergs_price FarCallOpcode_VariantProps inner
  | Op_Ret inner => ergs_price RetOpcode_VariantProps inner
  | Op_UMA inner => ergs_price UMAOpcode_VariantProps inner
  end.

(** definitions/all.rs:45-102 *)
Definition Opcode_materialize_subvariant_from_prototype (self : Opcode) (idx : N) (version : ISAVersion) : res Opcode :=
  match self with
  | Op_Invalid _ =>
      let* sub := unwrap (from_variant_index_for_version InvalidOpcode_VariantProps idx version) in
      Ok (Op_Invalid sub)
  | Op_Nop _ =>
      let* sub := unwrap (from_variant_index_for_version NopOpcode_VariantProps idx version) in
      Ok (Op_Nop sub)
  | Op_Add _ =>
      let* sub := unwrap (from_variant_index_for_version AddOpcode_VariantProps idx version) in
      Ok (Op_Add sub)
  | Op_Sub _ =>
      let* sub := unwrap (from_variant_index_for_version SubOpcode_VariantProps idx version) in
      Ok (Op_Sub sub)
  | Op_Mul _ =>
      let* sub := unwrap (from_variant_index_for_version MulOpcode_VariantProps idx version) in
      Ok (Op_Mul sub)
  | Op_Div _ =>
      let* sub := unwrap (from_variant_index_for_version DivOpcode_VariantProps idx version) in
      Ok (Op_Div sub)
  | Op_Jump _ =>
      let* sub := unwrap (from_variant_index_for_version JumpOpcode_VariantProps idx version) in
      Ok (Op_Jump sub)
  | Op_Context _ =>
      let* sub := unwrap (from_variant_index_for_version ContextOpcode_VariantProps idx version) in
      Ok (Op_Context sub)
  | Op_Shift _ =>
      let* sub := unwrap (from_variant_index_for_version ShiftOpcode_VariantProps idx version) in
      Ok (Op_Shift sub)
  | Op_Binop _ =>
      let* sub := unwrap (from_variant_index_for_version BinopOpcode_VariantProps idx version) in
      Ok (Op_Binop sub)
  | Op_Ptr _ =>
      let* sub := unwrap (from_variant_index_for_version PtrOpcode_VariantProps idx version) in
      Ok (Op_Ptr sub)
  | Op_NearCall _ =>
      let* sub := unwrap (from_variant_index_for_version NearCallOpcode_VariantProps idx version) in
      Ok (Op_NearCall sub)
  | Op_Log _ =>
      let* sub := unwrap (from_variant_index_for_version LogOpcode_VariantProps idx version) in
      Ok (Op_Log sub)
  | Op_FarCall _ =>
      let* sub := unwrap (from_variant_index_for_version FarCallOpcode_VariantProps idx version) in
      Ok (Op_FarCall sub)
  | Op_Ret _ =>
      let* sub := unwrap (from_variant_index_for_version RetOpcode_VariantProps idx version) in
      Ok (Op_Ret sub)
  | Op_UMA _ =>
      let* sub := unwrap (from_variant_index_for_version UMAOpcode_VariantProps idx version) in
      Ok (Op_UMA sub)
  end.

(** definitions/all.rs:104-123 *)
Definition Opcode_variant_idx (self : Opcode) : N :=
  match self with
  | Op_Invalid _ => 0
  | Op_Nop _ => 1
  | Op_Add _ => 2
  | Op_Sub _ => 3
  | Op_Mul _ => 4
  | Op_Div _ => 5
  | Op_Jump _ => 6
  | Op_Context _ => 7
  | Op_Shift _ => 8
  | Op_Binop _ => 9
  | Op_Ptr _ => 10
  | Op_NearCall _ => 11
  | Op_Log _ => 12
  | Op_FarCall _ => 13
  | Op_Ret _ => 14
  | Op_UMA _ => 15
  end.

(** definitions/all.rs:125-144 *)
Definition Opcode_materialize_subvariant_idx (self : Opcode) : N :=
  match self with
  | Op_Invalid sub => variant_index InvalidOpcode_VariantProps sub
  | Op_Nop sub => variant_index NopOpcode_VariantProps sub
  | Op_Add sub => variant_index AddOpcode_VariantProps sub
  | Op_Sub sub => variant_index SubOpcode_VariantProps sub
  | Op_Mul sub => variant_index MulOpcode_VariantProps sub
  | Op_Div sub => variant_index DivOpcode_VariantProps sub
  | Op_Jump sub => variant_index JumpOpcode_VariantProps sub
  | Op_Context sub => variant_index ContextOpcode_VariantProps sub
  | Op_Shift sub => variant_index ShiftOpcode_VariantProps sub
  | Op_Binop sub => variant_index BinopOpcode_VariantProps sub
  | Op_Ptr sub => variant_index PtrOpcode_VariantProps sub
  | Op_NearCall sub => variant_index NearCallOpcode_VariantProps sub
  | Op_Log sub => variant_index LogOpcode_VariantProps sub
  | Op_FarCall sub => variant_index FarCallOpcode_VariantProps sub
  | Op_Ret sub => variant_index RetOpcode_VariantProps sub
  | Op_UMA sub => variant_index UMAOpcode_VariantProps sub
  end.

(** definitions/all.rs:146-165 *)
Definition Opcode_requires_kernel_mode (self : Opcode) : bool :=
  match self with
  | Op_Invalid sub => requires_kernel_mode (InvalidOpcode_Props sub)
  | Op_Nop sub => requires_kernel_mode (NopOpcode_Props sub)
  | Op_Add sub => requires_kernel_mode (AddOpcode_Props sub)
  | Op_Sub sub => requires_kernel_mode (SubOpcode_Props sub)
  | Op_Mul sub => requires_kernel_mode (MulOpcode_Props sub)
  | Op_Div sub => requires_kernel_mode (DivOpcode_Props sub)
  | Op_Jump sub => requires_kernel_mode (JumpOpcode_Props sub)
  | Op_Context sub => requires_kernel_mode (ContextOpcode_Props sub)
  | Op_Shift sub => requires_kernel_mode (ShiftOpcode_Props sub)
  | Op_Binop sub => requires_kernel_mode (BinopOpcode_Props sub)
  | Op_Ptr sub => requires_kernel_mode (PtrOpcode_Props sub)
  | Op_NearCall sub => requires_kernel_mode (NearCallOpcode_Props sub)
  | Op_Log sub => requires_kernel_mode (LogOpcode_Props sub)
  | Op_FarCall sub => requires_kernel_mode (FarCallOpcode_Props sub)
  | Op_Ret sub => requires_kernel_mode (RetOpcode_Props sub)
  | Op_UMA sub => requires_kernel_mode (UMAOpcode_Props sub)
  end.

(** definitions/all.rs:167-186 *)
Definition Opcode_can_be_used_in_static_context (self : Opcode) : bool :=
  match self with
  | Op_Invalid sub => can_be_used_in_static_context (InvalidOpcode_Props sub)
  | Op_Nop sub => can_be_used_in_static_context (NopOpcode_Props sub)
  | Op_Add sub => can_be_used_in_static_context (AddOpcode_Props sub)
  | Op_Sub sub => can_be_used_in_static_context (SubOpcode_Props sub)
  | Op_Mul sub => can_be_used_in_static_context (MulOpcode_Props sub)
  | Op_Div sub => can_be_used_in_static_context (DivOpcode_Props sub)
  | Op_Jump sub => can_be_used_in_static_context (JumpOpcode_Props sub)
  | Op_Context sub => can_be_used_in_static_context (ContextOpcode_Props sub)
  | Op_Shift sub => can_be_used_in_static_context (ShiftOpcode_Props sub)
  | Op_Binop sub => can_be_used_in_static_context (BinopOpcode_Props sub)
  | Op_Ptr sub => can_be_used_in_static_context (PtrOpcode_Props sub)
  | Op_NearCall sub => can_be_used_in_static_context (NearCallOpcode_Props sub)
  | Op_Log sub => can_be_used_in_static_context (LogOpcode_Props sub)
  | Op_FarCall sub => can_be_used_in_static_context (FarCallOpcode_Props sub)
  | Op_Ret sub => can_be_used_in_static_context (RetOpcode_Props sub)
  | Op_UMA sub => can_be_used_in_static_context (UMAOpcode_Props sub)
  end.

(** definitions/all.rs:188-207 *)
Definition Opcode_can_have_src0_from_mem (self : Opcode) (version : ISAVersion) : res bool :=
  match self with
  | Op_Invalid sub => can_have_src0_from_mem (InvalidOpcode_Props sub) version
  | Op_Nop sub => can_have_src0_from_mem (NopOpcode_Props sub) version
  | Op_Add sub => can_have_src0_from_mem (AddOpcode_Props sub) version
  | Op_Sub sub => can_have_src0_from_mem (SubOpcode_Props sub) version
  | Op_Mul sub => can_have_src0_from_mem (MulOpcode_Props sub) version
  | Op_Div sub => can_have_src0_from_mem (DivOpcode_Props sub) version
  | Op_Jump sub => can_have_src0_from_mem (JumpOpcode_Props sub) version
  | Op_Context sub => can_have_src0_from_mem (ContextOpcode_Props sub) version
  | Op_Shift sub => can_have_src0_from_mem (ShiftOpcode_Props sub) version
  | Op_Binop sub => can_have_src0_from_mem (BinopOpcode_Props sub) version
  | Op_Ptr sub => can_have_src0_from_mem (PtrOpcode_Props sub) version
  | Op_NearCall sub => can_have_src0_from_mem (NearCallOpcode_Props sub) version
  | Op_Log sub => can_have_src0_from_mem (LogOpcode_Props sub) version
  | Op_FarCall sub => can_have_src0_from_mem (FarCallOpcode_Props sub) version
  | Op_Ret sub => can_have_src0_from_mem (RetOpcode_Props sub) version
  | Op_UMA sub => can_have_src0_from_mem (UMAOpcode_Props sub) version
  end.

(** definitions/all.rs:209-228 *)
Definition Opcode_can_write_dst0_into_memory (self : Opcode) (version : ISAVersion) : res bool :=
  match self with
  | Op_Invalid sub => can_write_dst0_into_memory (InvalidOpcode_Props sub) version
  | Op_Nop sub => can_write_dst0_into_memory (NopOpcode_Props sub) version
  | Op_Add sub => can_write_dst0_into_memory (AddOpcode_Props sub) version
  | Op_Sub sub => can_write_dst0_into_memory (SubOpcode_Props sub) version
  | Op_Mul sub => can_write_dst0_into_memory (MulOpcode_Props sub) version
  | Op_Div sub => can_write_dst0_into_memory (DivOpcode_Props sub) version
  | Op_Jump sub => can_write_dst0_into_memory (JumpOpcode_Props sub) version
  | Op_Context sub => can_write_dst0_into_memory (ContextOpcode_Props sub) version
  | Op_Shift sub => can_write_dst0_into_memory (ShiftOpcode_Props sub) version
  | Op_Binop sub => can_write_dst0_into_memory (BinopOpcode_Props sub) version
  | Op_Ptr sub => can_write_dst0_into_memory (PtrOpcode_Props sub) version
  | Op_NearCall sub => can_write_dst0_into_memory (NearCallOpcode_Props sub) version
  | Op_Log sub => can_write_dst0_into_memory (LogOpcode_Props sub) version
  | Op_FarCall sub => can_write_dst0_into_memory (FarCallOpcode_Props sub) version
  | Op_Ret sub => can_write_dst0_into_memory (RetOpcode_Props sub) version
  | Op_UMA sub => can_write_dst0_into_memory (UMAOpcode_Props sub) version
  end.

(** definitions/all.rs:230-249 *)
Definition Opcode_input_operands (self : Opcode) (version : ISAVersion) : res (list Operand) :=
  match self with
  | Op_Invalid sub => input_operands (InvalidOpcode_Props sub) version
  | Op_Nop sub => input_operands (NopOpcode_Props sub) version
  | Op_Add sub => input_operands (AddOpcode_Props sub) version
  | Op_Sub sub => input_operands (SubOpcode_Props sub) version
  | Op_Mul sub => input_operands (MulOpcode_Props sub) version
  | Op_Div sub => input_operands (DivOpcode_Props sub) version
  | Op_Jump sub => input_operands (JumpOpcode_Props sub) version
  | Op_Context sub => input_operands (ContextOpcode_Props sub) version
  | Op_Shift sub => input_operands (ShiftOpcode_Props sub) version
  | Op_Binop sub => input_operands (BinopOpcode_Props sub) version
  | Op_Ptr sub => input_operands (PtrOpcode_Props sub) version
  | Op_NearCall sub => input_operands (NearCallOpcode_Props sub) version
  | Op_Log sub => input_operands (LogOpcode_Props sub) version
  | Op_FarCall sub => input_operands (FarCallOpcode_Props sub) version
  | Op_Ret sub => input_operands (RetOpcode_Props sub) version
  | Op_UMA sub => input_operands (UMAOpcode_Props sub) version
  end.

(** definitions/all.rs:251-270 *)
Definition Opcode_output_operands (self : Opcode) (version : ISAVersion) : res (list Operand) :=
  match self with
  | Op_Invalid sub => output_operands (InvalidOpcode_Props sub) version
  | Op_Nop sub => output_operands (NopOpcode_Props sub) version
  | Op_Add sub => output_operands (AddOpcode_Props sub) version
  | Op_Sub sub => output_operands (SubOpcode_Props sub) version
  | Op_Mul sub => output_operands (MulOpcode_Props sub) version
  | Op_Div sub => output_operands (DivOpcode_Props sub) version
  | Op_Jump sub => output_operands (JumpOpcode_Props sub) version
  | Op_Context sub => output_operands (ContextOpcode_Props sub) version
  | Op_Shift sub => output_operands (ShiftOpcode_Props sub) version
  | Op_Binop sub => output_operands (BinopOpcode_Props sub) version
  | Op_Ptr sub => output_operands (PtrOpcode_Props sub) version
  | Op_NearCall sub => output_operands (NearCallOpcode_Props sub) version
  | Op_Log sub => output_operands (LogOpcode_Props sub) version
  | Op_FarCall sub => output_operands (FarCallOpcode_Props sub) version
  | Op_Ret sub => output_operands (RetOpcode_Props sub) version
  | Op_UMA sub => output_operands (UMAOpcode_Props sub) version
  end.
