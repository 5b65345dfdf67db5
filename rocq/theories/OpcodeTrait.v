(** * The opcode traits: definitions/opcode_trait.rs:19-133.  Definitions only.

    A trait is a record of its required methods; an [impl] is a value of the record; a
    provided (default) method is a function over the record (no [impl] in the crate
    overrides one). *)

From Verif Require Import Machine Operands.

(** definitions/opcode_trait.rs:20, [ISAVersion(pub u8)]; [PartialOrd] is that of [u8] *)
Definition ISAVersion := N.

(** definitions/opcode_trait.rs:23-25 *)
Definition ISAVersion_as_index (self : ISAVersion) : N := self.

(** definitions/opcode_trait.rs:39-40 *)
Definition NUM_ISA_VERSIONS : N := 2.
(** definitions/opcode_trait.rs:40 *)
Definition ALL_ISA_VERSIONS : list ISAVersion := [ 0; 1 ].

(** [ALL_ISA_VERSIONS[0]], in bounds by construction. Source:
    definitions/opcode_trait.rs:40. *)
Definition ISA_VERSION_0 : ISAVersion := hd 0 ALL_ISA_VERSIONS.

(** definitions/opcode_trait.rs:27-36 *)
Definition all_backward_compatible_versions (including : ISAVersion) : list ISAVersion :=
  fold_left (fun result v => if v <=? including then result ++ [v] else result)
            ALL_ISA_VERSIONS [].

(** definitions/opcode_trait.rs:43-47 *)
Record OpcodeVariantData := mkOpcodeVariantData {
  variant_idx : N;
  num_non_exclusive_flags : N;
  num_used_immediates : N
}.

(** definitions/opcode_trait.rs:50-59, required methods of [OpcodeProps] on a given [self] *)
Record OpcodeProps := mkOpcodeProps {
  name : string;
  variants_data : ISAVersion -> res (list OpcodeVariantData);
  max_variant_idx : ISAVersion -> res N;
  input_operands : ISAVersion -> res (list Operand);
  output_operands : ISAVersion -> res (list Operand);
  requires_kernel_mode : bool;
  can_be_used_in_static_context : bool
}.

(** definitions/opcode_trait.rs:60-72 *)
Definition can_have_src0_from_mem (self : OpcodeProps) (version : ISAVersion) : res bool :=
  let* possible_dests := input_operands self version in
  match possible_dests with
  | [] => Ok false
  | Full _ :: _ => Ok true
  | RegOnly :: _ => Ok false
  | RegOrImm _ :: _ => Ok false
  end.

(** definitions/opcode_trait.rs:73-85 *)
Definition can_write_dst0_into_memory (self : OpcodeProps) (version : ISAVersion) : res bool :=
  let* possible_dests := output_operands self version in
  match possible_dests with
  | [] => Ok false
  | Full _ :: _ => Ok true
  | RegOnly :: _ => Ok false
  | RegOrImm _ :: _ => Panic (* unreachable!() *)
  end.

(** definitions/opcode_trait.rs:88-91, 110-112, required methods of [OpcodeVariantProps] for a type *)
Record OpcodeVariantProps (T : Type) := mkOpcodeVariantProps {
  all_variants : list T;
  minimal_version : T -> ISAVersion;
  max_variant_idx_for_version : ISAVersion -> res N;
  variant_index : T -> N;
  from_variant_index_for_version : N -> ISAVersion -> option T;
  ergs_price : T -> N
}.
Arguments all_variants {T} _.
Arguments minimal_version {T} _ _.
Arguments max_variant_idx_for_version {T} _ _.
Arguments variant_index {T} _ _.
Arguments from_variant_index_for_version {T} _ _ _.
Arguments ergs_price {T} _ _.

(** definitions/opcode_trait.rs:92-94 *)
Definition is_available_for_version {T} (P : OpcodeVariantProps T) (self : T)
    (version : ISAVersion) : bool :=
  version <=? minimal_version P self.          (* self.minimal_version() >= version *)

(** definitions/opcode_trait.rs:95-97 *)
Definition is_added_in_version {T} (P : OpcodeVariantProps T) (self : T)
    (version : ISAVersion) : bool :=
  minimal_version P self =? version.

(** definitions/opcode_trait.rs:98-103 *)
Definition variants_for_version {T} (P : OpcodeVariantProps T) (version : ISAVersion) : list T :=
  filter (fun el => is_available_for_version P el version) (all_variants P).

(** definitions/opcode_trait.rs:104-109 *)
Definition variants_added_in_version {T} (P : OpcodeVariantProps T) (version : ISAVersion)
  : list T :=
  filter (fun el => is_added_in_version P el version) (all_variants P).

(** definitions/opcode_trait.rs:117-133 *)
Definition full_variants_product (lo hi : N) (num_flags num_immediates : N)
  : list OpcodeVariantData :=
  map (fun idx => mkOpcodeVariantData idx num_flags num_immediates) (range_inclusive lo hi).
