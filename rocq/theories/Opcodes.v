(** * The sixteen opcode families: src/definitions/{invalid_opcode,noop,add,sub,mul,div,jump,
    context,shift,binop,ptr,near_call,log,far_call,ret,uma}.rs.  Definitions only.

    For each family: the type, its [OpcodeVariantProps] methods, its [OpcodeProps] methods
    and the two trait records.  A Rust unit struct [XOpcode] is a one-constructor type with
    constructor [xOpcode]; an enum variant [XOpcode::V] is the constructor [XOpcode_V].
    [unimplemented!()] is [Panic].  Prices are [u32] sums written as [N] sums; that they
    stay below [2^32] is part of the price theorems (Repricing.v has the [u32] sums). *)

From Verif Require Import Machine Constants Operands OpcodeTrait.

(** ** src/definitions/invalid_opcode.rs *)

(** definitions/invalid_opcode.rs:4 *)
Inductive InvalidOpcode := invalidOpcode.
Scheme Equality for InvalidOpcode.

(** definitions/invalid_opcode.rs:7-9 *)
Definition InvalidOpcode_all_variants : list InvalidOpcode := [invalidOpcode].

(** definitions/invalid_opcode.rs:19-21 *)
Definition InvalidOpcode_variant_index (self : InvalidOpcode) : N := 0.

(** definitions/invalid_opcode.rs:11-13 *)
Definition InvalidOpcode_max_variant_idx_for_version (version : ISAVersion) : res N :=
  Ok (InvalidOpcode_variant_index invalidOpcode).

(** definitions/invalid_opcode.rs:15-17 *)
Definition InvalidOpcode_minimal_version (self : InvalidOpcode) : ISAVersion := ISA_VERSION_0.

(** definitions/invalid_opcode.rs:23-28 *)
Definition InvalidOpcode_from_variant_index_for_version (index : N) (_version : ISAVersion)
  : option InvalidOpcode :=
  match index with 0 => Some invalidOpcode | _ => None end.

(** definitions/invalid_opcode.rs:30-32 *)
Definition InvalidOpcode_ergs_price (self : InvalidOpcode) : N := INVALID_OPCODE_ERGS.

(** definitions/invalid_opcode.rs:6-33, [impl OpcodeVariantProps for InvalidOpcode] *)
Definition InvalidOpcode_VariantProps : OpcodeVariantProps InvalidOpcode := {|
  all_variants := InvalidOpcode_all_variants;
  minimal_version := InvalidOpcode_minimal_version;
  max_variant_idx_for_version := InvalidOpcode_max_variant_idx_for_version;
  variant_index := InvalidOpcode_variant_index;
  from_variant_index_for_version := InvalidOpcode_from_variant_index_for_version;
  ergs_price := InvalidOpcode_ergs_price
|}.

(** definitions/invalid_opcode.rs:36-38 *)
Definition InvalidOpcode_name (self : InvalidOpcode) : string := "Invalid opcode"%string.

(** definitions/invalid_opcode.rs:39-49 *)
Definition InvalidOpcode_variants_data (self : InvalidOpcode) (version : ISAVersion)
  : res (list OpcodeVariantData) :=
  match version with
  | 0 => let* m := InvalidOpcode_max_variant_idx_for_version version in
         Ok (full_variants_product 0 m 0 0)
  | 1 => let* m := InvalidOpcode_max_variant_idx_for_version version in
         Ok (full_variants_product 0 m 0 0)
  | _ => Panic
  end.

(** definitions/invalid_opcode.rs:50-52 *)
Definition InvalidOpcode_max_variant_idx (self : InvalidOpcode) (version : ISAVersion) : res N :=
  Ok (InvalidOpcode_variant_index invalidOpcode).

(** definitions/invalid_opcode.rs:53-55 *)
Definition InvalidOpcode_input_operands (self : InvalidOpcode) (version : ISAVersion)
  : res (list Operand) := Ok [].

(** definitions/invalid_opcode.rs:56-58 *)
Definition InvalidOpcode_output_operands (self : InvalidOpcode) (version : ISAVersion)
  : res (list Operand) := Ok [].

(** definitions/invalid_opcode.rs:59-61 *)
Definition InvalidOpcode_requires_kernel_mode (self : InvalidOpcode) : bool := false.

(** definitions/invalid_opcode.rs:62-64 *)
Definition InvalidOpcode_can_be_used_in_static_context (self : InvalidOpcode) : bool := true.

(** definitions/invalid_opcode.rs:35-65, [impl OpcodeProps for InvalidOpcode] *)
Definition InvalidOpcode_Props (self : InvalidOpcode) : OpcodeProps := {|
  name := InvalidOpcode_name self;
  variants_data := InvalidOpcode_variants_data self;
  max_variant_idx := InvalidOpcode_max_variant_idx self;
  input_operands := InvalidOpcode_input_operands self;
  output_operands := InvalidOpcode_output_operands self;
  requires_kernel_mode := InvalidOpcode_requires_kernel_mode self;
  can_be_used_in_static_context := InvalidOpcode_can_be_used_in_static_context self
|}.

(** ** src/definitions/noop.rs *)

(** definitions/noop.rs:4 *)
Inductive NopOpcode := nopOpcode.
Scheme Equality for NopOpcode.

(** definitions/noop.rs:7-9 *)
Definition NopOpcode_all_variants : list NopOpcode := [nopOpcode].

(** definitions/noop.rs:19-21 *)
Definition NopOpcode_variant_index (self : NopOpcode) : N := 0.

(** definitions/noop.rs:11-13 *)
Definition NopOpcode_max_variant_idx_for_version (version : ISAVersion) : res N :=
  Ok (NopOpcode_variant_index nopOpcode).

(** definitions/noop.rs:15-17 *)
Definition NopOpcode_minimal_version (self : NopOpcode) : ISAVersion := ISA_VERSION_0.

(** definitions/noop.rs:23-28 *)
Definition NopOpcode_from_variant_index_for_version (index : N) (_version : ISAVersion)
  : option NopOpcode :=
  match index with 0 => Some nopOpcode | _ => None end.

(** definitions/noop.rs:30-32 *)
Definition NopOpcode_ergs_price (self : NopOpcode) : N := RICH_ADDRESSING_OPCODE_ERGS.

(** definitions/noop.rs:6-33, [impl OpcodeVariantProps for NopOpcode] *)
Definition NopOpcode_VariantProps : OpcodeVariantProps NopOpcode := {|
  all_variants := NopOpcode_all_variants;
  minimal_version := NopOpcode_minimal_version;
  max_variant_idx_for_version := NopOpcode_max_variant_idx_for_version;
  variant_index := NopOpcode_variant_index;
  from_variant_index_for_version := NopOpcode_from_variant_index_for_version;
  ergs_price := NopOpcode_ergs_price
|}.

(** definitions/noop.rs:36-38 *)
Definition NopOpcode_name (self : NopOpcode) : string := "Nop opcode"%string.

(** definitions/noop.rs:39-49 *)
Definition NopOpcode_variants_data (self : NopOpcode) (version : ISAVersion)
  : res (list OpcodeVariantData) :=
  match version with
  | 0 => let* m := NopOpcode_max_variant_idx_for_version version in
         Ok (full_variants_product 0 m 0 2)
  | 1 => let* m := NopOpcode_max_variant_idx_for_version version in
         Ok (full_variants_product 0 m 0 2)
  | _ => Panic
  end.

(** definitions/noop.rs:50-52 *)
Definition NopOpcode_max_variant_idx (self : NopOpcode) (version : ISAVersion) : res N :=
  Ok (NopOpcode_variant_index nopOpcode).

(** definitions/noop.rs:53-55 *)
Definition NopOpcode_input_operands (self : NopOpcode) (version : ISAVersion)
  : res (list Operand) := Ok [Full UseRegOnly].

(** definitions/noop.rs:56-58 *)
Definition NopOpcode_output_operands (self : NopOpcode) (version : ISAVersion)
  : res (list Operand) := Ok [Full UseRegOnly].

(** definitions/noop.rs:59-61 *)
Definition NopOpcode_requires_kernel_mode (self : NopOpcode) : bool := false.

(** definitions/noop.rs:62-64 *)
Definition NopOpcode_can_be_used_in_static_context (self : NopOpcode) : bool := true.

(** definitions/noop.rs:35-65, [impl OpcodeProps for NopOpcode] *)
Definition NopOpcode_Props (self : NopOpcode) : OpcodeProps := {|
  name := NopOpcode_name self;
  variants_data := NopOpcode_variants_data self;
  max_variant_idx := NopOpcode_max_variant_idx self;
  input_operands := NopOpcode_input_operands self;
  output_operands := NopOpcode_output_operands self;
  requires_kernel_mode := NopOpcode_requires_kernel_mode self;
  can_be_used_in_static_context := NopOpcode_can_be_used_in_static_context self
|}.

(** ** src/definitions/add.rs *)

(** definitions/add.rs:5-7 *)
Inductive AddOpcode :=
| AddOpcode_Add.
Scheme Equality for AddOpcode.

(** definitions/add.rs:10-12 *)
Definition AddOpcode_all_variants : list AddOpcode :=
  [ AddOpcode_Add ].

(** [*self as u8] for the discriminants of definitions/add.rs:5-7 *)
Definition AddOpcode_discriminant (self : AddOpcode) : N :=
  match self with
  | AddOpcode_Add => 0
  end.

(** definitions/add.rs:22-24 *)
Definition AddOpcode_variant_index (self : AddOpcode) : N := AddOpcode_discriminant self.

(** definitions/add.rs:14-16 *)
Definition AddOpcode_max_variant_idx_for_version (version : ISAVersion) : res N :=
  Ok (AddOpcode_variant_index AddOpcode_Add).

(** definitions/add.rs:18-20 *)
Definition AddOpcode_minimal_version (self : AddOpcode) : ISAVersion := ISA_VERSION_0.

(** definitions/add.rs:26-31 *)
Definition AddOpcode_from_variant_index_for_version (index : N) (_version : ISAVersion)
  : option AddOpcode :=
  if index =? AddOpcode_variant_index AddOpcode_Add then Some AddOpcode_Add else None.

(** definitions/add.rs:33-35 *)
Definition AddOpcode_ergs_price (self : AddOpcode) : N := RICH_ADDRESSING_OPCODE_ERGS.

(** definitions/add.rs:9-36, [impl OpcodeVariantProps for AddOpcode] *)
Definition AddOpcode_VariantProps : OpcodeVariantProps AddOpcode := {|
  all_variants := AddOpcode_all_variants;
  minimal_version := AddOpcode_minimal_version;
  max_variant_idx_for_version := AddOpcode_max_variant_idx_for_version;
  variant_index := AddOpcode_variant_index;
  from_variant_index_for_version := AddOpcode_from_variant_index_for_version;
  ergs_price := AddOpcode_ergs_price
|}.

(** definitions/add.rs:39-41 *)
Definition AddOpcode_name (self : AddOpcode) : string := "Add opcode"%string.

(** definitions/add.rs:42-52 *)
Definition AddOpcode_variants_data (self : AddOpcode) (version : ISAVersion)
  : res (list OpcodeVariantData) :=
  match version with
  | 0 => let* m := AddOpcode_max_variant_idx_for_version version in
         Ok (full_variants_product 0 m 1 2)
  | 1 => let* m := AddOpcode_max_variant_idx_for_version version in
         Ok (full_variants_product 0 m 1 2)
  | _ => Panic
  end.

(** definitions/add.rs:53-55 *)
Definition AddOpcode_max_variant_idx (self : AddOpcode) (version : ISAVersion) : res N :=
  Ok (AddOpcode_variant_index AddOpcode_Add).

(** definitions/add.rs:56-61 *)
Definition AddOpcode_input_operands (self : AddOpcode) (version : ISAVersion)
  : res (list Operand) := Ok [Full UseRegOnly; RegOnly].

(** definitions/add.rs:62-64 *)
Definition AddOpcode_output_operands (self : AddOpcode) (version : ISAVersion)
  : res (list Operand) := Ok [Full UseRegOnly].

(** definitions/add.rs:65-67 *)
Definition AddOpcode_requires_kernel_mode (self : AddOpcode) : bool := false.

(** definitions/add.rs:68-70 *)
Definition AddOpcode_can_be_used_in_static_context (self : AddOpcode) : bool := true.

(** definitions/add.rs:38-71, [impl OpcodeProps for AddOpcode] *)
Definition AddOpcode_Props (self : AddOpcode) : OpcodeProps := {|
  name := AddOpcode_name self;
  variants_data := AddOpcode_variants_data self;
  max_variant_idx := AddOpcode_max_variant_idx self;
  input_operands := AddOpcode_input_operands self;
  output_operands := AddOpcode_output_operands self;
  requires_kernel_mode := AddOpcode_requires_kernel_mode self;
  can_be_used_in_static_context := AddOpcode_can_be_used_in_static_context self
|}.

(** ** src/definitions/sub.rs *)

(** definitions/sub.rs:5-7 *)
Inductive SubOpcode :=
| SubOpcode_Sub.
Scheme Equality for SubOpcode.

(** definitions/sub.rs:10-12 *)
Definition SubOpcode_all_variants : list SubOpcode :=
  [ SubOpcode_Sub ].

(** [*self as u8] for the discriminants of definitions/sub.rs:5-7 *)
Definition SubOpcode_discriminant (self : SubOpcode) : N :=
  match self with
  | SubOpcode_Sub => 0
  end.

(** definitions/sub.rs:22-24 *)
Definition SubOpcode_variant_index (self : SubOpcode) : N := SubOpcode_discriminant self.

(** definitions/sub.rs:14-16 *)
Definition SubOpcode_max_variant_idx_for_version (version : ISAVersion) : res N :=
  Ok (SubOpcode_variant_index SubOpcode_Sub).

(** definitions/sub.rs:18-20 *)
Definition SubOpcode_minimal_version (self : SubOpcode) : ISAVersion := ISA_VERSION_0.

(** definitions/sub.rs:26-31 *)
Definition SubOpcode_from_variant_index_for_version (index : N) (_version : ISAVersion)
  : option SubOpcode :=
  if index =? SubOpcode_variant_index SubOpcode_Sub then Some SubOpcode_Sub else None.

(** definitions/sub.rs:33-35 *)
Definition SubOpcode_ergs_price (self : SubOpcode) : N := RICH_ADDRESSING_OPCODE_ERGS.

(** definitions/sub.rs:9-36, [impl OpcodeVariantProps for SubOpcode] *)
Definition SubOpcode_VariantProps : OpcodeVariantProps SubOpcode := {|
  all_variants := SubOpcode_all_variants;
  minimal_version := SubOpcode_minimal_version;
  max_variant_idx_for_version := SubOpcode_max_variant_idx_for_version;
  variant_index := SubOpcode_variant_index;
  from_variant_index_for_version := SubOpcode_from_variant_index_for_version;
  ergs_price := SubOpcode_ergs_price
|}.

(** definitions/sub.rs:39-41 *)
Definition SubOpcode_name (self : SubOpcode) : string := "Sub opcode"%string.

(** definitions/sub.rs:42-52 *)
Definition SubOpcode_variants_data (self : SubOpcode) (version : ISAVersion)
  : res (list OpcodeVariantData) :=
  match version with
  | 0 => let* m := SubOpcode_max_variant_idx_for_version version in
         Ok (full_variants_product 0 m 2 2)
  | 1 => let* m := SubOpcode_max_variant_idx_for_version version in
         Ok (full_variants_product 0 m 2 2)
  | _ => Panic
  end.

(** definitions/sub.rs:53-55 *)
Definition SubOpcode_max_variant_idx (self : SubOpcode) (version : ISAVersion) : res N :=
  Ok (SubOpcode_variant_index SubOpcode_Sub).

(** definitions/sub.rs:56-61 *)
Definition SubOpcode_input_operands (self : SubOpcode) (version : ISAVersion)
  : res (list Operand) := Ok [Full UseRegOnly; RegOnly].

(** definitions/sub.rs:62-64 *)
Definition SubOpcode_output_operands (self : SubOpcode) (version : ISAVersion)
  : res (list Operand) := Ok [Full UseRegOnly].

(** definitions/sub.rs:65-67 *)
Definition SubOpcode_requires_kernel_mode (self : SubOpcode) : bool := false.

(** definitions/sub.rs:68-70 *)
Definition SubOpcode_can_be_used_in_static_context (self : SubOpcode) : bool := true.

(** definitions/sub.rs:38-71, [impl OpcodeProps for SubOpcode] *)
Definition SubOpcode_Props (self : SubOpcode) : OpcodeProps := {|
  name := SubOpcode_name self;
  variants_data := SubOpcode_variants_data self;
  max_variant_idx := SubOpcode_max_variant_idx self;
  input_operands := SubOpcode_input_operands self;
  output_operands := SubOpcode_output_operands self;
  requires_kernel_mode := SubOpcode_requires_kernel_mode self;
  can_be_used_in_static_context := SubOpcode_can_be_used_in_static_context self
|}.

(** ** src/definitions/mul.rs *)

(** definitions/mul.rs:4 *)
Inductive MulOpcode := mulOpcode.
Scheme Equality for MulOpcode.

(** definitions/mul.rs:7-9 *)
Definition MulOpcode_all_variants : list MulOpcode := [mulOpcode].

(** definitions/mul.rs:19-21 *)
Definition MulOpcode_variant_index (self : MulOpcode) : N := 0.

(** definitions/mul.rs:11-13 *)
Definition MulOpcode_max_variant_idx_for_version (version : ISAVersion) : res N :=
  Ok (MulOpcode_variant_index mulOpcode).

(** definitions/mul.rs:15-17 *)
Definition MulOpcode_minimal_version (self : MulOpcode) : ISAVersion := ISA_VERSION_0.

(** definitions/mul.rs:23-28 *)
Definition MulOpcode_from_variant_index_for_version (index : N) (_version : ISAVersion)
  : option MulOpcode :=
  match index with 0 => Some mulOpcode | _ => None end.

(** definitions/mul.rs:30-32 *)
Definition MulOpcode_ergs_price (self : MulOpcode) : N := RICH_ADDRESSING_OPCODE_ERGS.

(** definitions/mul.rs:6-33, [impl OpcodeVariantProps for MulOpcode] *)
Definition MulOpcode_VariantProps : OpcodeVariantProps MulOpcode := {|
  all_variants := MulOpcode_all_variants;
  minimal_version := MulOpcode_minimal_version;
  max_variant_idx_for_version := MulOpcode_max_variant_idx_for_version;
  variant_index := MulOpcode_variant_index;
  from_variant_index_for_version := MulOpcode_from_variant_index_for_version;
  ergs_price := MulOpcode_ergs_price
|}.

(** definitions/mul.rs:36-38 *)
Definition MulOpcode_name (self : MulOpcode) : string := "Mul opcode"%string.

(** definitions/mul.rs:39-49 *)
Definition MulOpcode_variants_data (self : MulOpcode) (version : ISAVersion)
  : res (list OpcodeVariantData) :=
  match version with
  | 0 => let* m := MulOpcode_max_variant_idx_for_version version in
         Ok (full_variants_product 0 m 1 2)
  | 1 => let* m := MulOpcode_max_variant_idx_for_version version in
         Ok (full_variants_product 0 m 1 2)
  | _ => Panic
  end.

(** definitions/mul.rs:50-52 *)
Definition MulOpcode_max_variant_idx (self : MulOpcode) (version : ISAVersion) : res N :=
  Ok (MulOpcode_variant_index mulOpcode).

(** definitions/mul.rs:53-58 *)
Definition MulOpcode_input_operands (self : MulOpcode) (version : ISAVersion)
  : res (list Operand) := Ok [Full UseRegOnly; RegOnly].

(** definitions/mul.rs:59-64 *)
Definition MulOpcode_output_operands (self : MulOpcode) (version : ISAVersion)
  : res (list Operand) := Ok [Full UseRegOnly; RegOnly].

(** definitions/mul.rs:65-67 *)
Definition MulOpcode_requires_kernel_mode (self : MulOpcode) : bool := false.

(** definitions/mul.rs:68-70 *)
Definition MulOpcode_can_be_used_in_static_context (self : MulOpcode) : bool := true.

(** definitions/mul.rs:35-71, [impl OpcodeProps for MulOpcode] *)
Definition MulOpcode_Props (self : MulOpcode) : OpcodeProps := {|
  name := MulOpcode_name self;
  variants_data := MulOpcode_variants_data self;
  max_variant_idx := MulOpcode_max_variant_idx self;
  input_operands := MulOpcode_input_operands self;
  output_operands := MulOpcode_output_operands self;
  requires_kernel_mode := MulOpcode_requires_kernel_mode self;
  can_be_used_in_static_context := MulOpcode_can_be_used_in_static_context self
|}.

(** ** src/definitions/div.rs *)

(** definitions/div.rs:4 *)
Inductive DivOpcode := divOpcode.
Scheme Equality for DivOpcode.

(** definitions/div.rs:7-9 *)
Definition DivOpcode_all_variants : list DivOpcode := [divOpcode].

(** definitions/div.rs:19-21 *)
Definition DivOpcode_variant_index (self : DivOpcode) : N := 0.

(** definitions/div.rs:11-13 *)
Definition DivOpcode_max_variant_idx_for_version (version : ISAVersion) : res N :=
  Ok (DivOpcode_variant_index divOpcode).

(** definitions/div.rs:15-17 *)
Definition DivOpcode_minimal_version (self : DivOpcode) : ISAVersion := ISA_VERSION_0.

(** definitions/div.rs:23-28 *)
Definition DivOpcode_from_variant_index_for_version (index : N) (_version : ISAVersion)
  : option DivOpcode :=
  match index with 0 => Some divOpcode | _ => None end.

(** definitions/div.rs:30-32 *)
Definition DivOpcode_ergs_price (self : DivOpcode) : N := RICH_ADDRESSING_OPCODE_ERGS.

(** definitions/div.rs:6-33, [impl OpcodeVariantProps for DivOpcode] *)
Definition DivOpcode_VariantProps : OpcodeVariantProps DivOpcode := {|
  all_variants := DivOpcode_all_variants;
  minimal_version := DivOpcode_minimal_version;
  max_variant_idx_for_version := DivOpcode_max_variant_idx_for_version;
  variant_index := DivOpcode_variant_index;
  from_variant_index_for_version := DivOpcode_from_variant_index_for_version;
  ergs_price := DivOpcode_ergs_price
|}.

(** definitions/div.rs:36-38 *)
Definition DivOpcode_name (self : DivOpcode) : string := "Div opcode"%string.

(** definitions/div.rs:39-49 *)
Definition DivOpcode_variants_data (self : DivOpcode) (version : ISAVersion)
  : res (list OpcodeVariantData) :=
  match version with
  | 0 => let* m := DivOpcode_max_variant_idx_for_version version in
         Ok (full_variants_product 0 m 2 2)
  | 1 => let* m := DivOpcode_max_variant_idx_for_version version in
         Ok (full_variants_product 0 m 2 2)
  | _ => Panic
  end.

(** definitions/div.rs:50-52 *)
Definition DivOpcode_max_variant_idx (self : DivOpcode) (version : ISAVersion) : res N :=
  Ok (DivOpcode_variant_index divOpcode).

(** definitions/div.rs:53-58 *)
Definition DivOpcode_input_operands (self : DivOpcode) (version : ISAVersion)
  : res (list Operand) := Ok [Full UseRegOnly; RegOnly].

(** definitions/div.rs:59-64 *)
Definition DivOpcode_output_operands (self : DivOpcode) (version : ISAVersion)
  : res (list Operand) := Ok [Full UseRegOnly; RegOnly].

(** definitions/div.rs:65-67 *)
Definition DivOpcode_requires_kernel_mode (self : DivOpcode) : bool := false.

(** definitions/div.rs:68-70 *)
Definition DivOpcode_can_be_used_in_static_context (self : DivOpcode) : bool := true.

(** definitions/div.rs:35-71, [impl OpcodeProps for DivOpcode] *)
Definition DivOpcode_Props (self : DivOpcode) : OpcodeProps := {|
  name := DivOpcode_name self;
  variants_data := DivOpcode_variants_data self;
  max_variant_idx := DivOpcode_max_variant_idx self;
  input_operands := DivOpcode_input_operands self;
  output_operands := DivOpcode_output_operands self;
  requires_kernel_mode := DivOpcode_requires_kernel_mode self;
  can_be_used_in_static_context := DivOpcode_can_be_used_in_static_context self
|}.

(** ** src/definitions/jump.rs *)

(** definitions/jump.rs:4 *)
Inductive JumpOpcode := jumpOpcode.
Scheme Equality for JumpOpcode.

(** definitions/jump.rs:7-9 *)
Definition JumpOpcode_all_variants : list JumpOpcode := [jumpOpcode].

(** definitions/jump.rs:19-21 *)
Definition JumpOpcode_variant_index (self : JumpOpcode) : N := 0.

(** definitions/jump.rs:11-13 *)
Definition JumpOpcode_max_variant_idx_for_version (version : ISAVersion) : res N :=
  Ok (JumpOpcode_variant_index jumpOpcode).

(** definitions/jump.rs:15-17 *)
Definition JumpOpcode_minimal_version (self : JumpOpcode) : ISAVersion := ISA_VERSION_0.

(** definitions/jump.rs:23-28 *)
Definition JumpOpcode_from_variant_index_for_version (index : N) (_version : ISAVersion)
  : option JumpOpcode :=
  match index with 0 => Some jumpOpcode | _ => None end.

(** definitions/jump.rs:30-32 *)
Definition JumpOpcode_ergs_price (self : JumpOpcode) : N := RICH_ADDRESSING_OPCODE_ERGS.

(** definitions/jump.rs:6-33, [impl OpcodeVariantProps for JumpOpcode] *)
Definition JumpOpcode_VariantProps : OpcodeVariantProps JumpOpcode := {|
  all_variants := JumpOpcode_all_variants;
  minimal_version := JumpOpcode_minimal_version;
  max_variant_idx_for_version := JumpOpcode_max_variant_idx_for_version;
  variant_index := JumpOpcode_variant_index;
  from_variant_index_for_version := JumpOpcode_from_variant_index_for_version;
  ergs_price := JumpOpcode_ergs_price
|}.

(** definitions/jump.rs:36-38 *)
Definition JumpOpcode_name (self : JumpOpcode) : string := "Jump opcode"%string.

(** definitions/jump.rs:39-49 *)
Definition JumpOpcode_variants_data (self : JumpOpcode) (version : ISAVersion)
  : res (list OpcodeVariantData) :=
  match version with
  | 0 => let* m := JumpOpcode_max_variant_idx_for_version version in
         Ok (full_variants_product 0 m 0 1)
  | 1 => let* m := JumpOpcode_max_variant_idx_for_version version in
         Ok (full_variants_product 0 m 0 1)
  | _ => Panic
  end.

(** definitions/jump.rs:50-52 *)
Definition JumpOpcode_max_variant_idx (self : JumpOpcode) (version : ISAVersion) : res N :=
  Ok (JumpOpcode_variant_index jumpOpcode).

(** definitions/jump.rs:53-55 *)
Definition JumpOpcode_input_operands (self : JumpOpcode) (version : ISAVersion)
  : res (list Operand) := Ok [Full UseRegOnly].

(** definitions/jump.rs:56-58 *)
Definition JumpOpcode_output_operands (self : JumpOpcode) (version : ISAVersion)
  : res (list Operand) := Ok [].

(** definitions/jump.rs:59-61 *)
Definition JumpOpcode_requires_kernel_mode (self : JumpOpcode) : bool := false.

(** definitions/jump.rs:62-64 *)
Definition JumpOpcode_can_be_used_in_static_context (self : JumpOpcode) : bool := true.

(** definitions/jump.rs:35-65, [impl OpcodeProps for JumpOpcode] *)
Definition JumpOpcode_Props (self : JumpOpcode) : OpcodeProps := {|
  name := JumpOpcode_name self;
  variants_data := JumpOpcode_variants_data self;
  max_variant_idx := JumpOpcode_max_variant_idx self;
  input_operands := JumpOpcode_input_operands self;
  output_operands := JumpOpcode_output_operands self;
  requires_kernel_mode := JumpOpcode_requires_kernel_mode self;
  can_be_used_in_static_context := JumpOpcode_can_be_used_in_static_context self
|}.

(** ** src/definitions/context.rs *)

(** definitions/context.rs:5-16 *)
Inductive ContextOpcode :=
| ContextOpcode_This
| ContextOpcode_Caller
| ContextOpcode_CodeAddress
| ContextOpcode_Meta
| ContextOpcode_ErgsLeft
| ContextOpcode_Sp
| ContextOpcode_GetContextU128
| ContextOpcode_SetContextU128
| ContextOpcode_SetErgsPerPubdataByte
| ContextOpcode_IncrementTxNumber.
Scheme Equality for ContextOpcode.

(** definitions/context.rs:19-32 *)
Definition ContextOpcode_all_variants : list ContextOpcode :=
  [ ContextOpcode_This;
    ContextOpcode_Caller;
    ContextOpcode_CodeAddress;
    ContextOpcode_Meta;
    ContextOpcode_ErgsLeft;
    ContextOpcode_Sp;
    ContextOpcode_GetContextU128;
    ContextOpcode_SetContextU128;
    ContextOpcode_SetErgsPerPubdataByte;
    ContextOpcode_IncrementTxNumber ].

(** [*self as u8] for the discriminants of definitions/context.rs:5-16 *)
Definition ContextOpcode_discriminant (self : ContextOpcode) : N :=
  match self with
  | ContextOpcode_This => 0
  | ContextOpcode_Caller => 1
  | ContextOpcode_CodeAddress => 2
  | ContextOpcode_Meta => 3
  | ContextOpcode_ErgsLeft => 4
  | ContextOpcode_Sp => 5
  | ContextOpcode_GetContextU128 => 6
  | ContextOpcode_SetContextU128 => 7
  | ContextOpcode_SetErgsPerPubdataByte => 8
  | ContextOpcode_IncrementTxNumber => 9
  end.

(** definitions/context.rs:42-44 *)
Definition ContextOpcode_variant_index (self : ContextOpcode) : N := ContextOpcode_discriminant self.

(** definitions/context.rs:34-36 *)
Definition ContextOpcode_max_variant_idx_for_version (version : ISAVersion) : res N :=
  Ok (ContextOpcode_variant_index ContextOpcode_IncrementTxNumber).

(** definitions/context.rs:38-40 *)
Definition ContextOpcode_minimal_version (self : ContextOpcode) : ISAVersion := ISA_VERSION_0.

(** definitions/context.rs:46-70 *)
Definition ContextOpcode_from_variant_index_for_version (index : N) (_version : ISAVersion)
  : option ContextOpcode :=
  if index =? ContextOpcode_variant_index ContextOpcode_This then Some ContextOpcode_This else
  if index =? ContextOpcode_variant_index ContextOpcode_Caller then Some ContextOpcode_Caller else
  if index =? ContextOpcode_variant_index ContextOpcode_CodeAddress then Some ContextOpcode_CodeAddress else
  if index =? ContextOpcode_variant_index ContextOpcode_Meta then Some ContextOpcode_Meta else
  if index =? ContextOpcode_variant_index ContextOpcode_ErgsLeft then Some ContextOpcode_ErgsLeft else
  if index =? ContextOpcode_variant_index ContextOpcode_Sp then Some ContextOpcode_Sp else
  if index =? ContextOpcode_variant_index ContextOpcode_GetContextU128 then Some ContextOpcode_GetContextU128 else
  if index =? ContextOpcode_variant_index ContextOpcode_SetContextU128 then Some ContextOpcode_SetContextU128 else
  if index =? ContextOpcode_variant_index ContextOpcode_SetErgsPerPubdataByte then Some ContextOpcode_SetErgsPerPubdataByte else
  if index =? ContextOpcode_variant_index ContextOpcode_IncrementTxNumber then Some ContextOpcode_IncrementTxNumber else None.

(** definitions/context.rs:72-74 *)
Definition ContextOpcode_ergs_price (self : ContextOpcode) : N := AVERAGE_OPCODE_ERGS.

(** definitions/context.rs:18-75, [impl OpcodeVariantProps for ContextOpcode] *)
Definition ContextOpcode_VariantProps : OpcodeVariantProps ContextOpcode := {|
  all_variants := ContextOpcode_all_variants;
  minimal_version := ContextOpcode_minimal_version;
  max_variant_idx_for_version := ContextOpcode_max_variant_idx_for_version;
  variant_index := ContextOpcode_variant_index;
  from_variant_index_for_version := ContextOpcode_from_variant_index_for_version;
  ergs_price := ContextOpcode_ergs_price
|}.

(** definitions/context.rs:78-80 *)
Definition ContextOpcode_name (self : ContextOpcode) : string := "Context opcode"%string.

(** definitions/context.rs:81-91 *)
Definition ContextOpcode_variants_data (self : ContextOpcode) (version : ISAVersion)
  : res (list OpcodeVariantData) :=
  match version with
  | 0 => let* m := ContextOpcode_max_variant_idx_for_version version in
         Ok (full_variants_product 0 m 0 0)
  | 1 => let* m := ContextOpcode_max_variant_idx_for_version version in
         Ok (full_variants_product 0 m 0 0)
  | _ => Panic
  end.

(** definitions/context.rs:92-94 *)
Definition ContextOpcode_max_variant_idx (self : ContextOpcode) (version : ISAVersion) : res N :=
  Ok (ContextOpcode_variant_index ContextOpcode_IncrementTxNumber).

(** definitions/context.rs:95-102 *)
Definition ContextOpcode_input_operands (self : ContextOpcode) (version : ISAVersion)
  : res (list Operand) :=
  match self with
  | ContextOpcode_SetContextU128 | ContextOpcode_SetErgsPerPubdataByte => Ok [RegOnly]
  | _ => Ok []
  end.

(** definitions/context.rs:103-110 *)
Definition ContextOpcode_output_operands (self : ContextOpcode) (version : ISAVersion)
  : res (list Operand) :=
  match self with
  | ContextOpcode_SetContextU128 | ContextOpcode_SetErgsPerPubdataByte
  | ContextOpcode_IncrementTxNumber => Ok []
  | _ => Ok [RegOnly]
  end.

(** definitions/context.rs:111-118 *)
Definition ContextOpcode_requires_kernel_mode (self : ContextOpcode) : bool :=
  match self with
  | ContextOpcode_SetContextU128 | ContextOpcode_SetErgsPerPubdataByte
  | ContextOpcode_IncrementTxNumber => true
  | _ => false
  end.

(** definitions/context.rs:119-126 *)
Definition ContextOpcode_can_be_used_in_static_context (self : ContextOpcode) : bool :=
  match self with
  | ContextOpcode_SetContextU128 | ContextOpcode_SetErgsPerPubdataByte
  | ContextOpcode_IncrementTxNumber => false
  | _ => true
  end.

(** definitions/context.rs:77-127, [impl OpcodeProps for ContextOpcode] *)
Definition ContextOpcode_Props (self : ContextOpcode) : OpcodeProps := {|
  name := ContextOpcode_name self;
  variants_data := ContextOpcode_variants_data self;
  max_variant_idx := ContextOpcode_max_variant_idx self;
  input_operands := ContextOpcode_input_operands self;
  output_operands := ContextOpcode_output_operands self;
  requires_kernel_mode := ContextOpcode_requires_kernel_mode self;
  can_be_used_in_static_context := ContextOpcode_can_be_used_in_static_context self
|}.

(** ** src/definitions/shift.rs *)

(** definitions/shift.rs:5-10 *)
Inductive ShiftOpcode :=
| ShiftOpcode_Shl
| ShiftOpcode_Shr
| ShiftOpcode_Rol
| ShiftOpcode_Ror.
Scheme Equality for ShiftOpcode.

(** definitions/shift.rs:13-20 *)
Definition ShiftOpcode_all_variants : list ShiftOpcode :=
  [ ShiftOpcode_Shl;
    ShiftOpcode_Shr;
    ShiftOpcode_Rol;
    ShiftOpcode_Ror ].

(** [*self as u8] for the discriminants of definitions/shift.rs:5-10 *)
Definition ShiftOpcode_discriminant (self : ShiftOpcode) : N :=
  match self with
  | ShiftOpcode_Shl => 0
  | ShiftOpcode_Shr => 1
  | ShiftOpcode_Rol => 2
  | ShiftOpcode_Ror => 3
  end.

(** definitions/shift.rs:30-32 *)
Definition ShiftOpcode_variant_index (self : ShiftOpcode) : N := ShiftOpcode_discriminant self.

(** definitions/shift.rs:22-24 *)
Definition ShiftOpcode_max_variant_idx_for_version (version : ISAVersion) : res N :=
  Ok (ShiftOpcode_variant_index ShiftOpcode_Ror).

(** definitions/shift.rs:26-28 *)
Definition ShiftOpcode_minimal_version (self : ShiftOpcode) : ISAVersion := ISA_VERSION_0.

(** definitions/shift.rs:34-42 *)
Definition ShiftOpcode_from_variant_index_for_version (index : N) (_version : ISAVersion)
  : option ShiftOpcode :=
  if index =? ShiftOpcode_variant_index ShiftOpcode_Shl then Some ShiftOpcode_Shl else
  if index =? ShiftOpcode_variant_index ShiftOpcode_Shr then Some ShiftOpcode_Shr else
  if index =? ShiftOpcode_variant_index ShiftOpcode_Rol then Some ShiftOpcode_Rol else
  if index =? ShiftOpcode_variant_index ShiftOpcode_Ror then Some ShiftOpcode_Ror else None.

(** definitions/shift.rs:44-46 *)
Definition ShiftOpcode_ergs_price (self : ShiftOpcode) : N := RICH_ADDRESSING_OPCODE_ERGS.

(** definitions/shift.rs:12-47, [impl OpcodeVariantProps for ShiftOpcode] *)
Definition ShiftOpcode_VariantProps : OpcodeVariantProps ShiftOpcode := {|
  all_variants := ShiftOpcode_all_variants;
  minimal_version := ShiftOpcode_minimal_version;
  max_variant_idx_for_version := ShiftOpcode_max_variant_idx_for_version;
  variant_index := ShiftOpcode_variant_index;
  from_variant_index_for_version := ShiftOpcode_from_variant_index_for_version;
  ergs_price := ShiftOpcode_ergs_price
|}.

(** definitions/shift.rs:50-52 *)
Definition ShiftOpcode_name (self : ShiftOpcode) : string := "Shift opcode"%string.

(** definitions/shift.rs:53-63 *)
Definition ShiftOpcode_variants_data (self : ShiftOpcode) (version : ISAVersion)
  : res (list OpcodeVariantData) :=
  match version with
  | 0 => let* m := ShiftOpcode_max_variant_idx_for_version version in
         Ok (full_variants_product 0 m 2 2)
  | 1 => let* m := ShiftOpcode_max_variant_idx_for_version version in
         Ok (full_variants_product 0 m 2 2)
  | _ => Panic
  end.

(** definitions/shift.rs:64-66 *)
Definition ShiftOpcode_max_variant_idx (self : ShiftOpcode) (version : ISAVersion) : res N :=
  Ok (ShiftOpcode_variant_index ShiftOpcode_Ror).

(** definitions/shift.rs:67-72 *)
Definition ShiftOpcode_input_operands (self : ShiftOpcode) (version : ISAVersion)
  : res (list Operand) := Ok [Full UseRegOnly; RegOnly].

(** definitions/shift.rs:73-75 *)
Definition ShiftOpcode_output_operands (self : ShiftOpcode) (version : ISAVersion)
  : res (list Operand) := Ok [Full UseRegOnly].

(** definitions/shift.rs:76-78 *)
Definition ShiftOpcode_requires_kernel_mode (self : ShiftOpcode) : bool := false.

(** definitions/shift.rs:79-81 *)
Definition ShiftOpcode_can_be_used_in_static_context (self : ShiftOpcode) : bool := true.

(** definitions/shift.rs:49-82, [impl OpcodeProps for ShiftOpcode] *)
Definition ShiftOpcode_Props (self : ShiftOpcode) : OpcodeProps := {|
  name := ShiftOpcode_name self;
  variants_data := ShiftOpcode_variants_data self;
  max_variant_idx := ShiftOpcode_max_variant_idx self;
  input_operands := ShiftOpcode_input_operands self;
  output_operands := ShiftOpcode_output_operands self;
  requires_kernel_mode := ShiftOpcode_requires_kernel_mode self;
  can_be_used_in_static_context := ShiftOpcode_can_be_used_in_static_context self
|}.

(** ** src/definitions/binop.rs *)

(** definitions/binop.rs:5-9 *)
Inductive BinopOpcode :=
| BinopOpcode_Xor
| BinopOpcode_And
| BinopOpcode_Or.
Scheme Equality for BinopOpcode.

(** definitions/binop.rs:12-14 *)
Definition BinopOpcode_all_variants : list BinopOpcode :=
  [ BinopOpcode_Xor;
    BinopOpcode_And;
    BinopOpcode_Or ].

(** [*self as u8] for the discriminants of definitions/binop.rs:5-9 *)
Definition BinopOpcode_discriminant (self : BinopOpcode) : N :=
  match self with
  | BinopOpcode_Xor => 0
  | BinopOpcode_And => 1
  | BinopOpcode_Or => 2
  end.

(** definitions/binop.rs:24-26 *)
Definition BinopOpcode_variant_index (self : BinopOpcode) : N := BinopOpcode_discriminant self.

(** definitions/binop.rs:16-18 *)
Definition BinopOpcode_max_variant_idx_for_version (version : ISAVersion) : res N :=
  Ok (BinopOpcode_variant_index BinopOpcode_Or).

(** definitions/binop.rs:20-22 *)
Definition BinopOpcode_minimal_version (self : BinopOpcode) : ISAVersion := ISA_VERSION_0.

(** definitions/binop.rs:28-35 *)
Definition BinopOpcode_from_variant_index_for_version (index : N) (_version : ISAVersion)
  : option BinopOpcode :=
  if index =? BinopOpcode_variant_index BinopOpcode_Xor then Some BinopOpcode_Xor else
  if index =? BinopOpcode_variant_index BinopOpcode_And then Some BinopOpcode_And else
  if index =? BinopOpcode_variant_index BinopOpcode_Or then Some BinopOpcode_Or else None.

(** definitions/binop.rs:37-39 *)
Definition BinopOpcode_ergs_price (self : BinopOpcode) : N := RICH_ADDRESSING_OPCODE_ERGS.

(** definitions/binop.rs:11-40, [impl OpcodeVariantProps for BinopOpcode] *)
Definition BinopOpcode_VariantProps : OpcodeVariantProps BinopOpcode := {|
  all_variants := BinopOpcode_all_variants;
  minimal_version := BinopOpcode_minimal_version;
  max_variant_idx_for_version := BinopOpcode_max_variant_idx_for_version;
  variant_index := BinopOpcode_variant_index;
  from_variant_index_for_version := BinopOpcode_from_variant_index_for_version;
  ergs_price := BinopOpcode_ergs_price
|}.

(** definitions/binop.rs:43-45 *)
Definition BinopOpcode_name (self : BinopOpcode) : string := "Binop opcode"%string.

(** definitions/binop.rs:46-56 *)
Definition BinopOpcode_variants_data (self : BinopOpcode) (version : ISAVersion)
  : res (list OpcodeVariantData) :=
  match version with
  | 0 => let* m := BinopOpcode_max_variant_idx_for_version version in
         Ok (full_variants_product 0 m 1 2)
  | 1 => let* m := BinopOpcode_max_variant_idx_for_version version in
         Ok (full_variants_product 0 m 1 2)
  | _ => Panic
  end.

(** definitions/binop.rs:57-59 *)
Definition BinopOpcode_max_variant_idx (self : BinopOpcode) (version : ISAVersion) : res N :=
  Ok (BinopOpcode_variant_index BinopOpcode_Or).

(** definitions/binop.rs:60-65 *)
Definition BinopOpcode_input_operands (self : BinopOpcode) (version : ISAVersion)
  : res (list Operand) := Ok [Full UseRegOnly; RegOnly].

(** definitions/binop.rs:66-68 *)
Definition BinopOpcode_output_operands (self : BinopOpcode) (version : ISAVersion)
  : res (list Operand) := Ok [Full UseRegOnly].

(** definitions/binop.rs:69-71 *)
Definition BinopOpcode_requires_kernel_mode (self : BinopOpcode) : bool := false.

(** definitions/binop.rs:72-74 *)
Definition BinopOpcode_can_be_used_in_static_context (self : BinopOpcode) : bool := true.

(** definitions/binop.rs:42-75, [impl OpcodeProps for BinopOpcode] *)
Definition BinopOpcode_Props (self : BinopOpcode) : OpcodeProps := {|
  name := BinopOpcode_name self;
  variants_data := BinopOpcode_variants_data self;
  max_variant_idx := BinopOpcode_max_variant_idx self;
  input_operands := BinopOpcode_input_operands self;
  output_operands := BinopOpcode_output_operands self;
  requires_kernel_mode := BinopOpcode_requires_kernel_mode self;
  can_be_used_in_static_context := BinopOpcode_can_be_used_in_static_context self
|}.

(** ** src/definitions/ptr.rs *)

(** definitions/ptr.rs:6-11 *)
Inductive PtrOpcode :=
| PtrOpcode_Add
| PtrOpcode_Sub
| PtrOpcode_Pack
| PtrOpcode_Shrink.
Scheme Equality for PtrOpcode.

(** definitions/ptr.rs:16-23 *)
Definition PtrOpcode_all_variants : list PtrOpcode :=
  [ PtrOpcode_Add;
    PtrOpcode_Sub;
    PtrOpcode_Pack;
    PtrOpcode_Shrink ].

(** [*self as u8] for the discriminants of definitions/ptr.rs:6-11 *)
Definition PtrOpcode_discriminant (self : PtrOpcode) : N :=
  match self with
  | PtrOpcode_Add => 0
  | PtrOpcode_Sub => 1
  | PtrOpcode_Pack => 2
  | PtrOpcode_Shrink => 3
  end.

(** definitions/ptr.rs:33-35 *)
Definition PtrOpcode_variant_index (self : PtrOpcode) : N := PtrOpcode_discriminant self.

(** definitions/ptr.rs:25-27 *)
Definition PtrOpcode_max_variant_idx_for_version (version : ISAVersion) : res N :=
  Ok (PtrOpcode_variant_index PtrOpcode_Shrink).

(** definitions/ptr.rs:29-31 *)
Definition PtrOpcode_minimal_version (self : PtrOpcode) : ISAVersion := ISA_VERSION_0.

(** definitions/ptr.rs:37-45 *)
Definition PtrOpcode_from_variant_index_for_version (index : N) (_version : ISAVersion)
  : option PtrOpcode :=
  if index =? PtrOpcode_variant_index PtrOpcode_Add then Some PtrOpcode_Add else
  if index =? PtrOpcode_variant_index PtrOpcode_Sub then Some PtrOpcode_Sub else
  if index =? PtrOpcode_variant_index PtrOpcode_Pack then Some PtrOpcode_Pack else
  if index =? PtrOpcode_variant_index PtrOpcode_Shrink then Some PtrOpcode_Shrink else None.

(** definitions/ptr.rs:47-49 *)
Definition PtrOpcode_ergs_price (self : PtrOpcode) : N := RICH_ADDRESSING_OPCODE_ERGS.

(** definitions/ptr.rs:15-50, [impl OpcodeVariantProps for PtrOpcode] *)
Definition PtrOpcode_VariantProps : OpcodeVariantProps PtrOpcode := {|
  all_variants := PtrOpcode_all_variants;
  minimal_version := PtrOpcode_minimal_version;
  max_variant_idx_for_version := PtrOpcode_max_variant_idx_for_version;
  variant_index := PtrOpcode_variant_index;
  from_variant_index_for_version := PtrOpcode_from_variant_index_for_version;
  ergs_price := PtrOpcode_ergs_price
|}.

(** definitions/ptr.rs:53-55 *)
Definition PtrOpcode_name (self : PtrOpcode) : string := "Ptr opcode"%string.

(** definitions/ptr.rs:56-66 *)
Definition PtrOpcode_variants_data (self : PtrOpcode) (version : ISAVersion)
  : res (list OpcodeVariantData) :=
  match version with
  | 0 => let* m := PtrOpcode_max_variant_idx_for_version version in
         Ok (full_variants_product 0 m 1 2)
  | 1 => let* m := PtrOpcode_max_variant_idx_for_version version in
         Ok (full_variants_product 0 m 1 2)
  | _ => Panic
  end.

(** definitions/ptr.rs:67-69 *)
Definition PtrOpcode_max_variant_idx (self : PtrOpcode) (version : ISAVersion) : res N :=
  Ok (PtrOpcode_variant_index PtrOpcode_Pack).

(** definitions/ptr.rs:70-75 *)
Definition PtrOpcode_input_operands (self : PtrOpcode) (version : ISAVersion)
  : res (list Operand) := Ok [Full UseRegOnly; RegOnly].

(** definitions/ptr.rs:76-78 *)
Definition PtrOpcode_output_operands (self : PtrOpcode) (version : ISAVersion)
  : res (list Operand) := Ok [Full UseRegOnly].

(** definitions/ptr.rs:79-81 *)
Definition PtrOpcode_requires_kernel_mode (self : PtrOpcode) : bool := false.

(** definitions/ptr.rs:82-84 *)
Definition PtrOpcode_can_be_used_in_static_context (self : PtrOpcode) : bool := true.

(** definitions/ptr.rs:52-85, [impl OpcodeProps for PtrOpcode] *)
Definition PtrOpcode_Props (self : PtrOpcode) : OpcodeProps := {|
  name := PtrOpcode_name self;
  variants_data := PtrOpcode_variants_data self;
  max_variant_idx := PtrOpcode_max_variant_idx self;
  input_operands := PtrOpcode_input_operands self;
  output_operands := PtrOpcode_output_operands self;
  requires_kernel_mode := PtrOpcode_requires_kernel_mode self;
  can_be_used_in_static_context := PtrOpcode_can_be_used_in_static_context self
|}.

(** ** src/definitions/near_call.rs *)

(** definitions/near_call.rs:4 *)
Inductive NearCallOpcode := nearCallOpcode.
Scheme Equality for NearCallOpcode.

(** definitions/near_call.rs:7-9 *)
Definition NearCallOpcode_all_variants : list NearCallOpcode := [nearCallOpcode].

(** definitions/near_call.rs:19-21 *)
Definition NearCallOpcode_variant_index (self : NearCallOpcode) : N := 0.

(** definitions/near_call.rs:11-13 *)
Definition NearCallOpcode_max_variant_idx_for_version (version : ISAVersion) : res N :=
  Ok (NearCallOpcode_variant_index nearCallOpcode).

(** definitions/near_call.rs:15-17 *)
Definition NearCallOpcode_minimal_version (self : NearCallOpcode) : ISAVersion := ISA_VERSION_0.

(** definitions/near_call.rs:23-28 *)
Definition NearCallOpcode_from_variant_index_for_version (index : N) (_version : ISAVersion)
  : option NearCallOpcode :=
  match index with 0 => Some nearCallOpcode | _ => None end.

(** definitions/near_call.rs:30-32 *)
Definition NearCallOpcode_ergs_price (self : NearCallOpcode) : N :=
  AVERAGE_OPCODE_ERGS + CALL_LIKE_ERGS_COST.

(** definitions/near_call.rs:6-33, [impl OpcodeVariantProps for NearCallOpcode] *)
Definition NearCallOpcode_VariantProps : OpcodeVariantProps NearCallOpcode := {|
  all_variants := NearCallOpcode_all_variants;
  minimal_version := NearCallOpcode_minimal_version;
  max_variant_idx_for_version := NearCallOpcode_max_variant_idx_for_version;
  variant_index := NearCallOpcode_variant_index;
  from_variant_index_for_version := NearCallOpcode_from_variant_index_for_version;
  ergs_price := NearCallOpcode_ergs_price
|}.

(** definitions/near_call.rs:36-38 *)
Definition NearCallOpcode_name (self : NearCallOpcode) : string := "Near call opcode"%string.

(** definitions/near_call.rs:39-49 *)
Definition NearCallOpcode_variants_data (self : NearCallOpcode) (version : ISAVersion)
  : res (list OpcodeVariantData) :=
  match version with
  | 0 => let* m := NearCallOpcode_max_variant_idx_for_version version in
         Ok (full_variants_product 0 m 0 2)
  | 1 => let* m := NearCallOpcode_max_variant_idx_for_version version in
         Ok (full_variants_product 0 m 0 2)
  | _ => Panic
  end.

(** definitions/near_call.rs:50-52 *)
Definition NearCallOpcode_max_variant_idx (self : NearCallOpcode) (version : ISAVersion) : res N :=
  Ok (NearCallOpcode_variant_index nearCallOpcode).

(** definitions/near_call.rs:53-55 *)
Definition NearCallOpcode_input_operands (self : NearCallOpcode) (version : ISAVersion)
  : res (list Operand) := Ok [RegOnly].

(** definitions/near_call.rs:56-58 *)
Definition NearCallOpcode_output_operands (self : NearCallOpcode) (version : ISAVersion)
  : res (list Operand) := Ok [].

(** definitions/near_call.rs:59-61 *)
Definition NearCallOpcode_requires_kernel_mode (self : NearCallOpcode) : bool := false.

(** definitions/near_call.rs:62-64 *)
Definition NearCallOpcode_can_be_used_in_static_context (self : NearCallOpcode) : bool := true.

(** definitions/near_call.rs:35-65, [impl OpcodeProps for NearCallOpcode] *)
Definition NearCallOpcode_Props (self : NearCallOpcode) : OpcodeProps := {|
  name := NearCallOpcode_name self;
  variants_data := NearCallOpcode_variants_data self;
  max_variant_idx := NearCallOpcode_max_variant_idx self;
  input_operands := NearCallOpcode_input_operands self;
  output_operands := NearCallOpcode_output_operands self;
  requires_kernel_mode := NearCallOpcode_requires_kernel_mode self;
  can_be_used_in_static_context := NearCallOpcode_can_be_used_in_static_context self
|}.

(** ** src/definitions/log.rs *)

(** definitions/log.rs:16-22 *)
Inductive LogOpcode :=
| LogOpcode_StorageRead
| LogOpcode_StorageWrite
| LogOpcode_ToL1Message
| LogOpcode_Event
| LogOpcode_PrecompileCall.
Scheme Equality for LogOpcode.

(** definitions/log.rs:25-33 *)
Definition LogOpcode_all_variants : list LogOpcode :=
  [ LogOpcode_StorageRead;
    LogOpcode_StorageWrite;
    LogOpcode_ToL1Message;
    LogOpcode_Event;
    LogOpcode_PrecompileCall ].

(** [*self as u8] for the discriminants of definitions/log.rs:16-22 *)
Definition LogOpcode_discriminant (self : LogOpcode) : N :=
  match self with
  | LogOpcode_StorageRead => 0
  | LogOpcode_StorageWrite => 1
  | LogOpcode_ToL1Message => 2
  | LogOpcode_Event => 3
  | LogOpcode_PrecompileCall => 4
  end.

(** definitions/log.rs:43-45 *)
Definition LogOpcode_variant_index (self : LogOpcode) : N := LogOpcode_discriminant self.

(** definitions/log.rs:35-37 *)
Definition LogOpcode_max_variant_idx_for_version (version : ISAVersion) : res N :=
  Ok (LogOpcode_variant_index LogOpcode_PrecompileCall).

(** definitions/log.rs:39-41 *)
Definition LogOpcode_minimal_version (self : LogOpcode) : ISAVersion := ISA_VERSION_0.

(** definitions/log.rs:47-56 *)
Definition LogOpcode_from_variant_index_for_version (index : N) (_version : ISAVersion)
  : option LogOpcode :=
  if index =? LogOpcode_variant_index LogOpcode_StorageRead then Some LogOpcode_StorageRead else
  if index =? LogOpcode_variant_index LogOpcode_StorageWrite then Some LogOpcode_StorageWrite else
  if index =? LogOpcode_variant_index LogOpcode_ToL1Message then Some LogOpcode_ToL1Message else
  if index =? LogOpcode_variant_index LogOpcode_Event then Some LogOpcode_Event else
  if index =? LogOpcode_variant_index LogOpcode_PrecompileCall then Some LogOpcode_PrecompileCall else None.

(** definitions/log.rs:58-97 *)
Definition LogOpcode_ergs_price (self : LogOpcode) : N :=
  match self with
  | LogOpcode_StorageRead =>
      STORAGE_READ_IO_PRICE + VM_CYCLE_COST_IN_ERGS + RAM_PERMUTATION_COST_IN_ERGS
      + LOG_DEMUXER_COST_IN_ERGS + STORAGE_SORTER_COST_IN_ERGS
  | LogOpcode_StorageWrite =>
      let intrinsic :=
        STORAGE_WRITE_IO_PRICE + 2 * VM_CYCLE_COST_IN_ERGS + RAM_PERMUTATION_COST_IN_ERGS
        + 2 * LOG_DEMUXER_COST_IN_ERGS + 2 * STORAGE_SORTER_COST_IN_ERGS in
      N.max intrinsic MIN_STORAGE_WRITE_COST
  | LogOpcode_ToL1Message =>
      let intrinsic_cost :=
        L1_MESSAGE_IO_PRICE + 2 * VM_CYCLE_COST_IN_ERGS + RAM_PERMUTATION_COST_IN_ERGS
        + 2 * LOG_DEMUXER_COST_IN_ERGS + 2 * EVENTS_OR_L1_MESSAGES_SORTER_COST_IN_ERGS in
      N.max intrinsic_cost L1_MESSAGE_MIN_COST_IN_ERGS
  | LogOpcode_Event =>
      EVENT_IO_PRICE + 2 * VM_CYCLE_COST_IN_ERGS + RAM_PERMUTATION_COST_IN_ERGS
      + 2 * LOG_DEMUXER_COST_IN_ERGS + 2 * EVENTS_OR_L1_MESSAGES_SORTER_COST_IN_ERGS
  | LogOpcode_PrecompileCall =>
      VM_CYCLE_COST_IN_ERGS + RAM_PERMUTATION_COST_IN_ERGS + LOG_DEMUXER_COST_IN_ERGS
  end.

(** definitions/log.rs:24-98, [impl OpcodeVariantProps for LogOpcode] *)
Definition LogOpcode_VariantProps : OpcodeVariantProps LogOpcode := {|
  all_variants := LogOpcode_all_variants;
  minimal_version := LogOpcode_minimal_version;
  max_variant_idx_for_version := LogOpcode_max_variant_idx_for_version;
  variant_index := LogOpcode_variant_index;
  from_variant_index_for_version := LogOpcode_from_variant_index_for_version;
  ergs_price := LogOpcode_ergs_price
|}.

(** definitions/log.rs:101-103 *)
Definition LogOpcode_name (self : LogOpcode) : string := "Log opcode"%string.

(** definitions/log.rs:104-142 *)
Definition LogOpcode_variants_data (self : LogOpcode) (version : ISAVersion)
  : res (list OpcodeVariantData) :=
  match version with
  | 0 | 1 =>
      Ok [ mkOpcodeVariantData (LogOpcode_variant_index LogOpcode_StorageRead) 0 0;
           mkOpcodeVariantData (LogOpcode_variant_index LogOpcode_StorageWrite) 0 0;
           mkOpcodeVariantData (LogOpcode_variant_index LogOpcode_ToL1Message) 1 0;
           mkOpcodeVariantData (LogOpcode_variant_index LogOpcode_Event) 1 0;
           mkOpcodeVariantData (LogOpcode_variant_index LogOpcode_PrecompileCall) 0 0 ]
  | _ => Panic
  end.

(** definitions/log.rs:143-145 *)
Definition LogOpcode_max_variant_idx (self : LogOpcode) (version : ISAVersion) : res N :=
  Ok (LogOpcode_variant_index LogOpcode_PrecompileCall).

(** definitions/log.rs:146-154 *)
Definition LogOpcode_input_operands (self : LogOpcode) (version : ISAVersion)
  : res (list Operand) :=
  match self with
  | LogOpcode_StorageWrite | LogOpcode_Event | LogOpcode_ToL1Message => Ok [RegOnly; RegOnly]
  | LogOpcode_StorageRead => Ok [RegOnly]
  | LogOpcode_PrecompileCall => Ok [RegOnly]
  end.

(** definitions/log.rs:155-161 *)
Definition LogOpcode_output_operands (self : LogOpcode) (version : ISAVersion)
  : res (list Operand) :=
  match self with
  | LogOpcode_StorageWrite | LogOpcode_Event | LogOpcode_ToL1Message => Ok []
  | LogOpcode_StorageRead => Ok [RegOnly]
  | LogOpcode_PrecompileCall => Ok [RegOnly]
  end.

(** definitions/log.rs:162-167 *)
Definition LogOpcode_requires_kernel_mode (self : LogOpcode) : bool :=
  match self with
  | LogOpcode_Event | LogOpcode_ToL1Message | LogOpcode_PrecompileCall => true
  | _ => false
  end.

(** definitions/log.rs:168-173 *)
Definition LogOpcode_can_be_used_in_static_context (self : LogOpcode) : bool :=
  match self with
  | LogOpcode_StorageWrite | LogOpcode_Event | LogOpcode_ToL1Message => false
  | _ => true
  end.

(** definitions/log.rs:100-174, [impl OpcodeProps for LogOpcode] *)
Definition LogOpcode_Props (self : LogOpcode) : OpcodeProps := {|
  name := LogOpcode_name self;
  variants_data := LogOpcode_variants_data self;
  max_variant_idx := LogOpcode_max_variant_idx self;
  input_operands := LogOpcode_input_operands self;
  output_operands := LogOpcode_output_operands self;
  requires_kernel_mode := LogOpcode_requires_kernel_mode self;
  can_be_used_in_static_context := LogOpcode_can_be_used_in_static_context self
|}.

(** ** src/definitions/far_call.rs *)

(** definitions/far_call.rs:17-21 *)
Inductive FarCallOpcode :=
| FarCallOpcode_Normal
| FarCallOpcode_Delegate
| FarCallOpcode_Mimic.
Scheme Equality for FarCallOpcode.

(** definitions/far_call.rs:27-33 *)
Definition FarCallOpcode_all_variants : list FarCallOpcode :=
  [ FarCallOpcode_Normal;
    FarCallOpcode_Delegate;
    FarCallOpcode_Mimic ].

(** [*self as u8] for the discriminants of definitions/far_call.rs:17-21 *)
Definition FarCallOpcode_discriminant (self : FarCallOpcode) : N :=
  match self with
  | FarCallOpcode_Normal => 0
  | FarCallOpcode_Delegate => 1
  | FarCallOpcode_Mimic => 2
  end.

(** definitions/far_call.rs:43-45 *)
Definition FarCallOpcode_variant_index (self : FarCallOpcode) : N := FarCallOpcode_discriminant self.

(** definitions/far_call.rs:35-37 *)
Definition FarCallOpcode_max_variant_idx_for_version (version : ISAVersion) : res N :=
  Ok (FarCallOpcode_variant_index FarCallOpcode_Mimic).

(** definitions/far_call.rs:39-41 *)
Definition FarCallOpcode_minimal_version (self : FarCallOpcode) : ISAVersion := ISA_VERSION_0.

(** definitions/far_call.rs:47-54 *)
Definition FarCallOpcode_from_variant_index_for_version (index : N) (_version : ISAVersion)
  : option FarCallOpcode :=
  if index =? FarCallOpcode_variant_index FarCallOpcode_Normal then Some FarCallOpcode_Normal else
  if index =? FarCallOpcode_variant_index FarCallOpcode_Delegate then Some FarCallOpcode_Delegate else
  if index =? FarCallOpcode_variant_index FarCallOpcode_Mimic then Some FarCallOpcode_Mimic else None.

(** definitions/far_call.rs:56-63 *)
Definition FarCallOpcode_ergs_price (self : FarCallOpcode) : N :=
  2 * VM_CYCLE_COST_IN_ERGS + RAM_PERMUTATION_COST_IN_ERGS + STORAGE_READ_IO_PRICE
  + CALL_LIKE_ERGS_COST + STORAGE_SORTER_COST_IN_ERGS + CODE_DECOMMITMENT_SORTER_COST_IN_ERGS.

(** definitions/far_call.rs:26-64, [impl OpcodeVariantProps for FarCallOpcode] *)
Definition FarCallOpcode_VariantProps : OpcodeVariantProps FarCallOpcode := {|
  all_variants := FarCallOpcode_all_variants;
  minimal_version := FarCallOpcode_minimal_version;
  max_variant_idx_for_version := FarCallOpcode_max_variant_idx_for_version;
  variant_index := FarCallOpcode_variant_index;
  from_variant_index_for_version := FarCallOpcode_from_variant_index_for_version;
  ergs_price := FarCallOpcode_ergs_price
|}.

(** definitions/far_call.rs:67-69 *)
Definition FarCallOpcode_name (self : FarCallOpcode) : string := "Far call opcode"%string.

(** definitions/far_call.rs:70-80 *)
Definition FarCallOpcode_variants_data (self : FarCallOpcode) (version : ISAVersion)
  : res (list OpcodeVariantData) :=
  match version with
  | 0 => let* m := FarCallOpcode_max_variant_idx_for_version version in
         Ok (full_variants_product 0 m 2 1)
  | 1 => let* m := FarCallOpcode_max_variant_idx_for_version version in
         Ok (full_variants_product 0 m 2 1)
  | _ => Panic
  end.

(** definitions/far_call.rs:81-83 *)
Definition FarCallOpcode_max_variant_idx (self : FarCallOpcode) (version : ISAVersion) : res N :=
  Ok (FarCallOpcode_variant_index FarCallOpcode_Mimic).

(** definitions/far_call.rs:84-86 *)
Definition FarCallOpcode_input_operands (self : FarCallOpcode) (version : ISAVersion)
  : res (list Operand) := Ok [RegOnly; RegOnly].

(** definitions/far_call.rs:87-89 *)
Definition FarCallOpcode_output_operands (self : FarCallOpcode) (version : ISAVersion)
  : res (list Operand) := Ok [].

(** definitions/far_call.rs:90-95 *)
Definition FarCallOpcode_requires_kernel_mode (self : FarCallOpcode) : bool :=
  match self with
  | FarCallOpcode_Mimic => true
  | _ => false
  end.

(** definitions/far_call.rs:96-98 *)
Definition FarCallOpcode_can_be_used_in_static_context (self : FarCallOpcode) : bool := true.

(** definitions/far_call.rs:66-99, [impl OpcodeProps for FarCallOpcode] *)
Definition FarCallOpcode_Props (self : FarCallOpcode) : OpcodeProps := {|
  name := FarCallOpcode_name self;
  variants_data := FarCallOpcode_variants_data self;
  max_variant_idx := FarCallOpcode_max_variant_idx self;
  input_operands := FarCallOpcode_input_operands self;
  output_operands := FarCallOpcode_output_operands self;
  requires_kernel_mode := FarCallOpcode_requires_kernel_mode self;
  can_be_used_in_static_context := FarCallOpcode_can_be_used_in_static_context self
|}.

(** ** src/definitions/ret.rs *)

(** definitions/ret.rs:12-16 *)
Inductive RetOpcode :=
| RetOpcode_Ok
| RetOpcode_Revert
| RetOpcode_Panic.
Scheme Equality for RetOpcode.

(** definitions/ret.rs:19-21 *)
Definition RetOpcode_all_variants : list RetOpcode :=
  [ RetOpcode_Ok;
    RetOpcode_Revert;
    RetOpcode_Panic ].

(** [*self as u8] for the discriminants of definitions/ret.rs:12-16 *)
Definition RetOpcode_discriminant (self : RetOpcode) : N :=
  match self with
  | RetOpcode_Ok => 0
  | RetOpcode_Revert => 1
  | RetOpcode_Panic => 2
  end.

(** definitions/ret.rs:31-33 *)
Definition RetOpcode_variant_index (self : RetOpcode) : N := RetOpcode_discriminant self.

(** definitions/ret.rs:23-25 *)
Definition RetOpcode_max_variant_idx_for_version (version : ISAVersion) : res N :=
  Ok (RetOpcode_variant_index RetOpcode_Panic).

(** definitions/ret.rs:27-29 *)
Definition RetOpcode_minimal_version (self : RetOpcode) : ISAVersion := ISA_VERSION_0.

(** definitions/ret.rs:35-42 *)
Definition RetOpcode_from_variant_index_for_version (index : N) (_version : ISAVersion)
  : option RetOpcode :=
  if index =? RetOpcode_variant_index RetOpcode_Ok then Some RetOpcode_Ok else
  if index =? RetOpcode_variant_index RetOpcode_Revert then Some RetOpcode_Revert else
  if index =? RetOpcode_variant_index RetOpcode_Panic then Some RetOpcode_Panic else None.

(** definitions/ret.rs:44-46 *)
Definition RetOpcode_ergs_price (self : RetOpcode) : N := AVERAGE_OPCODE_ERGS.

(** definitions/ret.rs:18-47, [impl OpcodeVariantProps for RetOpcode] *)
Definition RetOpcode_VariantProps : OpcodeVariantProps RetOpcode := {|
  all_variants := RetOpcode_all_variants;
  minimal_version := RetOpcode_minimal_version;
  max_variant_idx_for_version := RetOpcode_max_variant_idx_for_version;
  variant_index := RetOpcode_variant_index;
  from_variant_index_for_version := RetOpcode_from_variant_index_for_version;
  ergs_price := RetOpcode_ergs_price
|}.

(** definitions/ret.rs:50-52 *)
Definition RetOpcode_name (self : RetOpcode) : string := "Ret opcode"%string.

(** definitions/ret.rs:53-63 *)
Definition RetOpcode_variants_data (self : RetOpcode) (version : ISAVersion)
  : res (list OpcodeVariantData) :=
  match version with
  | 0 => let* m := RetOpcode_max_variant_idx_for_version version in
         Ok (full_variants_product 0 m 1 1)
  | 1 => let* m := RetOpcode_max_variant_idx_for_version version in
         Ok (full_variants_product 0 m 1 1)
  | _ => Panic
  end.

(** definitions/ret.rs:64-66 *)
Definition RetOpcode_max_variant_idx (self : RetOpcode) (version : ISAVersion) : res N :=
  Ok (RetOpcode_variant_index RetOpcode_Panic).

(** definitions/ret.rs:67-72 *)
Definition RetOpcode_input_operands (self : RetOpcode) (version : ISAVersion)
  : res (list Operand) :=
  match self with
  | RetOpcode_Ok | RetOpcode_Revert => Ok [RegOnly]
  | RetOpcode_Panic => Ok []
  end.

(** definitions/ret.rs:73-75 *)
Definition RetOpcode_output_operands (self : RetOpcode) (version : ISAVersion)
  : res (list Operand) := Ok [].

(** definitions/ret.rs:76-78 *)
Definition RetOpcode_requires_kernel_mode (self : RetOpcode) : bool := false.

(** definitions/ret.rs:79-81 *)
Definition RetOpcode_can_be_used_in_static_context (self : RetOpcode) : bool := true.

(** definitions/ret.rs:49-82, [impl OpcodeProps for RetOpcode] *)
Definition RetOpcode_Props (self : RetOpcode) : OpcodeProps := {|
  name := RetOpcode_name self;
  variants_data := RetOpcode_variants_data self;
  max_variant_idx := RetOpcode_max_variant_idx self;
  input_operands := RetOpcode_input_operands self;
  output_operands := RetOpcode_output_operands self;
  requires_kernel_mode := RetOpcode_requires_kernel_mode self;
  can_be_used_in_static_context := RetOpcode_can_be_used_in_static_context self
|}.

(** ** src/definitions/uma.rs *)

(** definitions/uma.rs:15-21 *)
Inductive UMAOpcode :=
| UMAOpcode_HeapRead
| UMAOpcode_HeapWrite
| UMAOpcode_AuxHeapRead
| UMAOpcode_AuxHeapWrite
| UMAOpcode_FatPointerRead.
Scheme Equality for UMAOpcode.

(** definitions/uma.rs:26-34 *)
Definition UMAOpcode_all_variants : list UMAOpcode :=
  [ UMAOpcode_HeapRead;
    UMAOpcode_HeapWrite;
    UMAOpcode_AuxHeapRead;
    UMAOpcode_AuxHeapWrite;
    UMAOpcode_FatPointerRead ].

(** [*self as u8] for the discriminants of definitions/uma.rs:15-21 *)
Definition UMAOpcode_discriminant (self : UMAOpcode) : N :=
  match self with
  | UMAOpcode_HeapRead => 0
  | UMAOpcode_HeapWrite => 1
  | UMAOpcode_AuxHeapRead => 2
  | UMAOpcode_AuxHeapWrite => 3
  | UMAOpcode_FatPointerRead => 4
  end.

(** definitions/uma.rs:50-52 *)
Definition UMAOpcode_variant_index (self : UMAOpcode) : N := UMAOpcode_discriminant self.

(** definitions/uma.rs:36-42 *)
Definition UMAOpcode_max_variant_idx_for_version (version : ISAVersion) : res N :=
  match version with
  | 0 => Ok (UMAOpcode_variant_index UMAOpcode_FatPointerRead)
  | 1 => Ok (UMAOpcode_variant_index UMAOpcode_FatPointerRead)
  | _ => Panic
  end.

(** definitions/uma.rs:44-48 *)
Definition UMAOpcode_minimal_version (self : UMAOpcode) : ISAVersion := ISA_VERSION_0.

(** definitions/uma.rs:54-63 *)
Definition UMAOpcode_from_variant_index_for_version (index : N) (_version : ISAVersion)
  : option UMAOpcode :=
  if index =? UMAOpcode_variant_index UMAOpcode_HeapRead then Some UMAOpcode_HeapRead else
  if index =? UMAOpcode_variant_index UMAOpcode_HeapWrite then Some UMAOpcode_HeapWrite else
  if index =? UMAOpcode_variant_index UMAOpcode_AuxHeapRead then Some UMAOpcode_AuxHeapRead else
  if index =? UMAOpcode_variant_index UMAOpcode_AuxHeapWrite then Some UMAOpcode_AuxHeapWrite else
  if index =? UMAOpcode_variant_index UMAOpcode_FatPointerRead then Some UMAOpcode_FatPointerRead else None.

(** definitions/uma.rs:65-79 *)
Definition UMAOpcode_ergs_price (self : UMAOpcode) : N :=
  match self with
  | UMAOpcode_AuxHeapWrite | UMAOpcode_HeapWrite =>
      2 * VM_CYCLE_COST_IN_ERGS + 5 * RAM_PERMUTATION_COST_IN_ERGS
  | UMAOpcode_HeapRead | UMAOpcode_AuxHeapRead | UMAOpcode_FatPointerRead =>
      VM_CYCLE_COST_IN_ERGS + 3 * RAM_PERMUTATION_COST_IN_ERGS
  end.

(** definitions/uma.rs:25-80, [impl OpcodeVariantProps for UMAOpcode] *)
Definition UMAOpcode_VariantProps : OpcodeVariantProps UMAOpcode := {|
  all_variants := UMAOpcode_all_variants;
  minimal_version := UMAOpcode_minimal_version;
  max_variant_idx_for_version := UMAOpcode_max_variant_idx_for_version;
  variant_index := UMAOpcode_variant_index;
  from_variant_index_for_version := UMAOpcode_from_variant_index_for_version;
  ergs_price := UMAOpcode_ergs_price
|}.

(** definitions/uma.rs:83-85 *)
Definition UMAOpcode_name (self : UMAOpcode) : string := "UMA opcode"%string.

(** definitions/uma.rs:86-96 *)
Definition UMAOpcode_variants_data (self : UMAOpcode) (version : ISAVersion)
  : res (list OpcodeVariantData) :=
  match version with
  | 0 => let* m := UMAOpcode_max_variant_idx_for_version version in
         Ok (full_variants_product 0 m 1 0)
  | 1 => let* m := UMAOpcode_max_variant_idx_for_version version in
         Ok (full_variants_product 0 m 1 0)
  | _ => Panic
  end.

(** definitions/uma.rs:97-103 *)
Definition UMAOpcode_max_variant_idx (self : UMAOpcode) (version : ISAVersion) : res N :=
  match version with
  | 0 => Ok (UMAOpcode_variant_index UMAOpcode_FatPointerRead)
  | 1 => Ok (UMAOpcode_variant_index UMAOpcode_FatPointerRead)
  | _ => Panic
  end.

(** definitions/uma.rs:104-129 *)
Definition UMAOpcode_input_operands (self : UMAOpcode) (version : ISAVersion)
  : res (list Operand) :=
  match version with
  | 0 =>
      match self with
      | UMAOpcode_HeapWrite | UMAOpcode_AuxHeapWrite => Ok [RegOnly; RegOnly]
      | _ => Ok [RegOnly]
      end
  | 1 =>
      match self with
      | UMAOpcode_HeapWrite | UMAOpcode_AuxHeapWrite => Ok [RegOrImm RI_UseRegOnly; RegOnly]
      | UMAOpcode_HeapRead | UMAOpcode_AuxHeapRead => Ok [RegOrImm RI_UseRegOnly]
      | UMAOpcode_FatPointerRead => Ok [RegOnly]
      end
  | _ => Panic
  end.

(** definitions/uma.rs:130-135 *)
Definition UMAOpcode_output_operands (self : UMAOpcode) (version : ISAVersion)
  : res (list Operand) :=
  match self with
  | UMAOpcode_HeapWrite | UMAOpcode_AuxHeapWrite => Ok [RegOnly]
  | _ => Ok [RegOnly; RegOnly]
  end.

(** definitions/uma.rs:136-138 *)
Definition UMAOpcode_requires_kernel_mode (self : UMAOpcode) : bool := false.

(** definitions/uma.rs:139-141 *)
Definition UMAOpcode_can_be_used_in_static_context (self : UMAOpcode) : bool := true.

(** definitions/uma.rs:82-142, [impl OpcodeProps for UMAOpcode] *)
Definition UMAOpcode_Props (self : UMAOpcode) : OpcodeProps := {|
  name := UMAOpcode_name self;
  variants_data := UMAOpcode_variants_data self;
  max_variant_idx := UMAOpcode_max_variant_idx self;
  input_operands := UMAOpcode_input_operands self;
  output_operands := UMAOpcode_output_operands self;
  requires_kernel_mode := UMAOpcode_requires_kernel_mode self;
  can_be_used_in_static_context := UMAOpcode_can_be_used_in_static_context self
|}.
