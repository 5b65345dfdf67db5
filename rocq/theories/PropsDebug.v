(** * The Debug texts of the public types (C79)

    Statements only: each proof is the lemma of the same name in [ProofsDebug]. *)

From Coq Require Import Arith NArith List Bool String Ascii.
From Verif Require Import Machine Operands OpcodeTrait Opcodes AllOpcodes Tables Decoding Abi
  VersionedHash PricingGen Display DebugText SpecIsa SpecCodec SpecFamilies SpecPricing SpecDisplay SpecDebug ProofsDebug.
Import ListNotations.
Open Scope N_scope.

Theorem C79_digits : forall n, decimal_text n (digits n).
Proof. exact pf_C79_digits. Qed.
Print Assumptions C79_digits.

(** Every value is written as its tree, on one line and over several. *)
Theorem C79_instructions :
  (forall o, writes (Opcode_fmt o) (opcode_tree o)) /\
  (forall o, writes (Operand_fmt o) (operand_tree o)) /\
  (forall x, writes (OpcodeVariant_fmt x) (variant_tree x)) /\
  (forall d, writes (DecodedOpcode_fmt d) (instruction_tree d)) /\
  (forall x, writes (VariantMonotonicNumber_fmt x) (index_tree x)) /\
  (forall x, writes (ISAVersion_fmt x) (version_tree x)) /\
  (forall x, writes (OpcodeVariantData_fmt x) (variant_data_tree x)).
Proof. exact pf_C79_instructions. Qed.
Print Assumptions C79_instructions.

Theorem C79_abis :
  (forall x, writes (FatPointer_fmt x) (pointer_tree x)) /\
  (forall x, writes (FarCallForwardPageType_fmt x) (far_page_tree x)) /\
  (forall x, writes (FarCallABI_fmt x) (far_call_tree x)) /\
  (forall x, writes (RetForwardPageType_fmt x) (ret_page_tree x)) /\
  (forall x, writes (RetABI_fmt x) (ret_tree x)) /\
  (forall x, writes (NearCallABI_fmt x) (near_call_tree x)) /\
  (forall x, writes (PrecompileCallABI_fmt x) (precompile_tree x)) /\
  (forall x, writes (PrecompileCallInnerABI_fmt x) (precompile_inner_tree x)) /\
  (forall x, writes (VmMetaParameters_fmt x) (meta_tree x)) /\
  (forall x, writes (ContractCodeSha256Storage_fmt x) (storage_tree x)) /\
  (forall x, writes (VersionedHash_fmt x) (hash_tree x)).
Proof. exact pf_C79_abis. Qed.
Print Assumptions C79_abis.

(** Either layout can be read back. *)
Theorem C79_readable : forall multi t t', proper t = true -> proper t' = true ->
  layout multi 0 t = layout multi 0 t' -> t = t'.
Proof. exact pf_C79_readable. Qed.
Print Assumptions C79_readable.

(** Values with the same text, in either form, are the same. *)
Theorem C79_telling :
  telling Opcode_fmt /\ telling Operand_fmt /\ telling OpcodeVariant_fmt /\
  telling DecodedOpcode_fmt /\ telling VariantMonotonicNumber_fmt /\ telling ISAVersion_fmt /\
  telling OpcodeVariantData_fmt /\ telling FatPointer_fmt /\ telling FarCallForwardPageType_fmt /\
  telling FarCallABI_fmt /\ telling RetForwardPageType_fmt /\ telling RetABI_fmt /\
  telling NearCallABI_fmt /\ telling PrecompileCallABI_fmt /\ telling PrecompileCallInnerABI_fmt /\
  telling VmMetaParameters_fmt /\ telling ContractCodeSha256Storage_fmt /\ telling VersionedHash_fmt.
Proof. exact pf_C79_telling. Qed.
Print Assumptions C79_telling.

Theorem C79_one_line :
  (forall d, one_line (DecodedOpcode_fmt d false)) /\ (forall x, one_line (OpcodeVariant_fmt x false)) /\
  (forall x, one_line (FatPointer_fmt x false)) /\ (forall x, one_line (FarCallABI_fmt x false)) /\
  (forall x, one_line (RetABI_fmt x false)) /\ (forall x, one_line (NearCallABI_fmt x false)) /\
  (forall x, one_line (PrecompileCallABI_fmt x false)) /\
  (forall x, one_line (PrecompileCallInnerABI_fmt x false)) /\
  (forall x, one_line (VmMetaParameters_fmt x false)) /\ (forall x, one_line (VersionedHash_fmt x false)).
Proof. exact pf_C79_one_line. Qed.
Print Assumptions C79_one_line.

(** The family-and-member text and the operand text inside a printed instruction (C58) are the
    one-line [Debug] texts. *)
Theorem C79_display :
  (forall o, Opcode_fmt o false = opcode_text o) /\ (forall s, Operand_fmt s false = operand_text s).
Proof. exact pf_C79_display. Qed.
Print Assumptions C79_display.

Example C79_example :
  let a := mkRetABI (mkFatPointer 4 1024 0 32) Ret_UseAuxHeap in
  RetABI_fmt a false =
    "RetABI { memory_quasi_fat_pointer: FatPointer { offset: 4, memory_page: 1024, start: 0, length: 32 }, page_forwarding_mode: UseAuxHeap }"%string
  /\ RetABI_fmt a true =
    ("RetABI {" ++ newline ++ "    memory_quasi_fat_pointer: FatPointer {" ++ newline
     ++ "        offset: 4," ++ newline ++ "        memory_page: 1024," ++ newline
     ++ "        start: 0," ++ newline ++ "        length: 32," ++ newline
     ++ "    }," ++ newline ++ "    page_forwarding_mode: UseAuxHeap," ++ newline ++ "}")%string
  /\ proper (ret_tree a) = true.
Proof. exact pf_C79_example. Qed.
