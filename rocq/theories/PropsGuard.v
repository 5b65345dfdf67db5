(** * What a machine executes (C96)

    Statements only: each proof is the lemma of the same name in [ProofsGuard]. *)

From Coq Require Import Arith NArith List Bool String Ascii.
From Verif Require Import Machine Constants Operands Opcodes AllOpcodes Tables Decoding
  SpecIsa SpecFamilies SpecCodec SpecGuard ProofsGuard.
Import ListNotations.
Open Scope N_scope.

(** What is executed: a panic if the instruction is not permitted, a NOP if it is and its condition is
    not met, else the instruction itself; so never an instruction that the context forbids, and other
    than a panic nothing without the ergs. *)
Theorem C96_executed :
  forall c d,
    (permitted c (opcode (variant d)) ->
       machine_executes c d = if is_met c then d else mask_into_nop d) /\
    (~ permitted c (opcode (variant d)) -> machine_executes c d = mask_into_panic d) /\
    (let o := opcode (variant (machine_executes c d)) in
     spec_is_invalid o = false /\
     (in_kernel c = false -> spec_kernel o = false) /\
     (is_static c = true -> spec_not_static o = false) /\
     (o <> Op_Ret RetOpcode_Panic -> spec_price (opcode (variant d)) <= ergs_left c)).
Proof. exact pf_C96_executed. Qed.
Print Assumptions C96_executed.

(** A circuit that works with the tables sees the properties of just what the machine executes, for
    every word of code. *)
Theorem C96_circuit :
  forall m w c, exists d n first prices masks panic nop r,
    parse_preliminary_variant_and_absolute_number (mode_impl m) w
    = Ok (d, mkVariantMonotonicNumber n) /\
    total_description_bits_rounded_for_version DEFAULT_ISA_VERSION = Ok first /\
    OPCODES_PRICES = Ok prices /\ OPCODES_PROPS_INTEGER_BITMASKS = Ok masks /\
    PANIC_BITSPREAD_U64 = Ok panic /\ NOP_BITSPREAD_U64 = Ok nop /\
    circuit_properties c first prices masks panic nop n = Some r /\
    (forall bld, opcode_as_integer_bitmask bld (variant (machine_executes c d)) DEFAULT_ISA_VERSION
                 = Ok r).
Proof. exact pf_C96_circuit. Qed.
Print Assumptions C96_circuit.

(** A storage write with enough ergs: as it is in a call that may write, a panic in a static one, a NOP
    if its condition is not met; and a panic without the ergs. *)
Example C96_example :
  let x := mkOpcodeVariant (Op_Log LogOpcode_StorageWrite) RegOnly RegOnly (false, false) in
  let d := mkDecodedOpcode x Lt_ 1 2 0 0 0 0 in
  in_table x /\
  permitted (mkContext false false 3501 true) (opcode x) /\
  machine_executes (mkContext false false 3501 true) d = d /\
  machine_executes (mkContext false true 3501 true) d = mask_into_panic d /\
  machine_executes (mkContext false false 3501 false) d = mask_into_nop d /\
  machine_executes (mkContext true false 3500 true) d = mask_into_panic d.
Proof. exact pf_C96_example. Qed.
