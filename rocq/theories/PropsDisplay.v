(** * The printed form of instructions

    Statements only: each proof is the lemma of the same name in [ProofsDisplay]. *)

From Coq Require Import Arith NArith List Bool String Ascii.
From Verif Require Import Machine Operands Opcodes AllOpcodes Tables Decoding PricingGen Display
  SpecIsa SpecCodec SpecFamilies
  SpecPricing SpecDisplay ProofsDisplay.
Import ListNotations.
Open Scope N_scope.
Local Open Scope string_scope.

(** The printed form of a variant. *)
Theorem C58_variant :
  forall x, OpcodeVariant_display x = variant_text x.
Proof. exact pf_C58_variant. Qed.
Print Assumptions C58_variant.

(** The printed form of an instruction, in both modes. *)
Theorem C58_instruction :
  forall d, printable d -> exists r0 r1 r2 r3 h0 h1,
    DecodedOpcode_display d = instruction_text d r0 r1 r2 r3 h0 h1 /\
    decimal_text (src0_reg_idx d) r0 /\ decimal_text (src1_reg_idx d) r1 /\
    decimal_text (dst0_reg_idx d) r2 /\ decimal_text (dst1_reg_idx d) r3 /\
    hex_text 6 (imm_0 d) h0 /\ hex_text 6 (imm_1 d) h1.
Proof. exact pf_C58_instruction. Qed.
Print Assumptions C58_instruction.

(** No two variants print alike, and no two instructions do. *)
Theorem C58_injective :
  (forall x x', OpcodeVariant_display x = OpcodeVariant_display x' -> x = x') /\
  (forall d d', printable d -> printable d' ->
     DecodedOpcode_display d = DecodedOpcode_display d' -> d = d').
Proof. exact pf_C58_injective. Qed.
Print Assumptions C58_injective.

Example C58_example :
  let d := mkDecodedOpcode
    (mkOpcodeVariant (Op_Ptr PtrOpcode_Add) (Full UseImm16Only) (Full UseRegOnly) (true, false))
    Ge_ 1 22 3 4 0x1f 0x12345678 in
  printable d /\
  DecodedOpcode_display d =
  ("Opcode and variant: Ptr(Add)" ++ nl ++ "Src0 operand type: Full(UseImm16Only)" ++ nl
   ++ "Dst0 operand type: Full(UseRegOnly)" ++ nl ++ "Non-exclusive flags: true|false" ++ nl
   ++ "Condition: Ge" ++ nl
   ++ "Register selections: src0 = r1, src1 = r22, dst0 = r3, dst1 = r4" ++ nl
   ++ "IMM0 constant: 0x00001f" ++ nl ++ "IMM1 constant: 0x12345678")%string.
Proof. exact pf_C58_example. Qed.
