(** * Addressing modes and operands: src/imm_mem_modifiers.rs and
    definitions/opcode_trait.rs:3-17.  Definitions only. *)

From Verif Require Import Machine.

(** imm_mem_modifiers.rs:3-10 *)
Inductive ImmMemHandlerFlags :=
| UseRegOnly
| UseStackWithPushPop
| UseStackWithOffset
| UseAbsoluteOnStack
| UseImm16Only
| UseCodePage.
Scheme Equality for ImmMemHandlerFlags.

(** imm_mem_modifiers.rs:13 *)
Definition ImmMemHandlerFlags_NUM_VARIANTS : N := 6.

(** imm_mem_modifiers.rs:15-24 *)
Definition ImmMemHandlerFlags_all_variants : list ImmMemHandlerFlags :=
  [ UseRegOnly; UseStackWithPushPop; UseStackWithOffset; UseAbsoluteOnStack;
    UseImm16Only; UseCodePage ].

(** [*self as u8] for the discriminants of imm_mem_modifiers.rs:3-10 (first is 0, each
    next one more) *)
Definition ImmMemHandlerFlags_discriminant (self : ImmMemHandlerFlags) : N :=
  match self with
  | UseRegOnly => 0
  | UseStackWithPushPop => 1
  | UseStackWithOffset => 2
  | UseAbsoluteOnStack => 3
  | UseImm16Only => 4
  | UseCodePage => 5
  end.

(** imm_mem_modifiers.rs:26-28 *)
Definition ImmMemHandlerFlags_encoding_byte (self : ImmMemHandlerFlags) : N :=
  ImmMemHandlerFlags_discriminant self.

(** imm_mem_modifiers.rs:29-34 *)
Definition ImmMemHandlerFlags_is_memory_used (self : ImmMemHandlerFlags) : bool :=
  match self with
  | UseRegOnly | UseImm16Only => false
  | _ => true
  end.

(** imm_mem_modifiers.rs:35-37 *)
Definition ImmMemHandlerFlags_num_variants : N := ImmMemHandlerFlags_NUM_VARIANTS.
(** imm_mem_modifiers.rs:38-40 *)
Definition ImmMemHandlerFlags_num_src_variants : N := ImmMemHandlerFlags_NUM_VARIANTS.
(** imm_mem_modifiers.rs:41-43 *)
Definition ImmMemHandlerFlags_num_dst_variants : N := ImmMemHandlerFlags_NUM_VARIANTS - 2.

(** imm_mem_modifiers.rs:69-71 *)
Definition ImmMemHandlerFlags_variant_index (self : ImmMemHandlerFlags) : N :=
  ImmMemHandlerFlags_discriminant self.

(** imm_mem_modifiers.rs:72-77 *)
Definition ImmMemHandlerFlags_is_allowed_for_dst (self : ImmMemHandlerFlags) : bool :=
  match self with
  | UseImm16Only | UseCodePage => false
  | _ => true
  end.

(** imm_mem_modifiers.rs:82-85 *)
Inductive RegOrImmFlags :=
| RI_UseRegOnly
| RI_UseImm16Only.
Scheme Equality for RegOrImmFlags.

(** imm_mem_modifiers.rs:88 *)
Definition RegOrImmFlags_NUM_VARIANTS : N := 2.

(** imm_mem_modifiers.rs:90-92 *)
Definition RegOrImmFlags_all_variants : list RegOrImmFlags := [ RI_UseRegOnly; RI_UseImm16Only ].

(** [*self as u8] for the explicit discriminants of imm_mem_modifiers.rs:82-85 *)
Definition RegOrImmFlags_discriminant (self : RegOrImmFlags) : N :=
  match self with
  | RI_UseRegOnly => 0
  | RI_UseImm16Only => 4
  end.

(** imm_mem_modifiers.rs:94-96 *)
Definition RegOrImmFlags_encoding_byte (self : RegOrImmFlags) : N :=
  RegOrImmFlags_discriminant self.

(** imm_mem_modifiers.rs:97-99 *)
Definition RegOrImmFlags_is_memory_used (self : RegOrImmFlags) : bool := false.

(** imm_mem_modifiers.rs:100-102 *)
Definition RegOrImmFlags_num_variants : N := RegOrImmFlags_NUM_VARIANTS.
(** imm_mem_modifiers.rs:103-105 *)
Definition RegOrImmFlags_num_src_variants : N := RegOrImmFlags_NUM_VARIANTS.
(** imm_mem_modifiers.rs:106-108 *)
Definition RegOrImmFlags_num_dst_variants : N := RegOrImmFlags_NUM_VARIANTS - 1.

(** imm_mem_modifiers.rs:109-111 *)
Definition RegOrImmFlags_variant_index (self : RegOrImmFlags) : N :=
  RegOrImmFlags_discriminant self.

(** imm_mem_modifiers.rs:112-117 *)
Definition RegOrImmFlags_is_allowed_for_dst (self : RegOrImmFlags) : bool :=
  match self with
  | RI_UseImm16Only => false
  | _ => true
  end.

(** definitions/opcode_trait.rs:4-8 *)
Inductive Operand :=
| RegOnly
| RegOrImm (f : RegOrImmFlags)
| Full (f : ImmMemHandlerFlags).
Scheme Equality for Operand.

(** definitions/opcode_trait.rs:10-16 *)
Definition Operand_variant_idx (self : Operand) : N :=
  match self with
  | RegOnly => 0
  | RegOrImm v => RegOrImmFlags_variant_index v
  | Full v => ImmMemHandlerFlags_variant_index v
  end.
