(** * What the derived Hash implementations feed (C80)

    Statements only: each proof is the lemma of the same name in [ProofsHash]. *)

From Coq Require Import Arith NArith List Bool String Ascii.
From Verif Require Import Machine Operands OpcodeTrait Opcodes AllOpcodes Tables Decoding Abi
  VersionedHash HashFeed SpecIsa SpecCodec SpecFamilies SpecAbi SpecHash ProofsHash.
Import ListNotations.
Open Scope N_scope.

Theorem C80_instructions : forall t,
  (forall o, Opcode_hash t o = stream t (opcode_fields t o)) /\
  (forall o, Operand_hash t o = stream t (operand_fields t o)) /\
  (forall x, OpcodeVariant_hash t x = stream t (variant_fields t x)) /\
  (forall c, Condition_hash t c = stream t (condition_fields t c)) /\
  (forall x, VariantMonotonicNumber_hash t x = stream t (index_fields t x)) /\
  (forall x, ISAVersion_hash t x = stream t (version_fields t x)) /\
  (forall x, OpcodeVariantData_hash t x = stream t (variant_data_fields t x)).
Proof. exact pf_C80_instructions. Qed.
Print Assumptions C80_instructions.

Theorem C80_abis : forall t,
  (forall x, FatPointer_hash t x = stream t (pointer_fields t x)) /\
  (forall x, FarCallForwardPageType_hash t x = stream t (far_page_fields t x)) /\
  (forall x, FarCallABI_hash t x = stream t (far_call_fields t x)) /\
  (forall x, RetForwardPageType_hash t x = stream t (ret_page_fields t x)) /\
  (forall x, RetABI_hash t x = stream t (ret_fields t x)) /\
  (forall x, NearCallABI_hash t x = stream t (near_call_fields t x)) /\
  (forall x, PrecompileCallABI_hash t x = stream t (precompile_fields t x)) /\
  (forall x, PrecompileCallInnerABI_hash t x = stream t (precompile_inner_fields t x)) /\
  (forall x, VmMetaParameters_hash t x = stream t (meta_fields t x)) /\
  (forall x, storage_ok x -> ContractCodeSha256Storage_hash t x = stream t (storage_fields t x)) /\
  (forall x, storage_ok (data x) -> VersionedHash_hash t x = stream t (storage_fields t (data x))).
Proof. exact pf_C80_abis. Qed.
Print Assumptions C80_abis.

Theorem C80_unmistakable : forall t, sensible t ->
  unmistakable anything (Opcode_hash t) /\ unmistakable anything (Operand_hash t) /\
  unmistakable anything (OpcodeVariant_hash t) /\ unmistakable anything (Condition_hash t) /\
  unmistakable (index_ok t) (VariantMonotonicNumber_hash t) /\
  unmistakable (fun v => v < 2 ^ 8) (ISAVersion_hash t) /\
  unmistakable (variant_data_ok t) (OpcodeVariantData_hash t) /\
  unmistakable fat_pointer_ok (FatPointer_hash t) /\
  unmistakable anything (FarCallForwardPageType_hash t) /\
  unmistakable far_call_ok (FarCallABI_hash t) /\
  unmistakable anything (RetForwardPageType_hash t) /\ unmistakable ret_ok (RetABI_hash t) /\
  unmistakable near_call_ok (NearCallABI_hash t) /\
  unmistakable precompile_ok (PrecompileCallABI_hash t) /\
  unmistakable inner_ok (PrecompileCallInnerABI_hash t) /\
  unmistakable meta_ok (VmMetaParameters_hash t) /\
  unmistakable storage_ok (ContractCodeSha256Storage_hash t) /\
  unmistakable (fun h => storage_ok (data h)) (VersionedHash_hash t).
Proof. exact pf_C80_unmistakable. Qed.
Print Assumptions C80_unmistakable.

(** A list of values fed one after the other, its length known, is determined by the feed. *)
Theorem C80_sequence : forall A (ok : A -> Prop) (feed : A -> list N), unmistakable ok feed ->
  forall xs ys, Forall ok xs -> Forall ok ys -> List.length xs = List.length ys ->
  flat_map feed xs = flat_map feed ys -> xs = ys.
Proof. exact pf_C80_sequence. Qed.
Print Assumptions C80_sequence.

Example C80_example :
  let t := mkHashTarget 8 8 1 false in
  sensible t /\
  OpcodeVariant_hash t
    (mkOpcodeVariant (Op_Ret RetOpcode_Panic) RegOnly (Full UseCodePage) (false, true))
  = [14; 0; 0; 0; 0; 0; 0; 0;  2;  0; 0; 0; 0; 0; 0; 0; 0;  2; 0; 0; 0; 0; 0; 0; 0;  5;
     2; 0; 0; 0; 0; 0; 0; 0;  0; 1] /\
  fat_pointer_ok (mkFatPointer 1 2 3 0x01020304) /\
  FatPointer_hash t (mkFatPointer 1 2 3 0x01020304)
  = [1; 0; 0; 0; 2; 0; 0; 0; 3; 0; 0; 0; 4; 3; 2; 1].
Proof. exact pf_C80_example. Qed.
