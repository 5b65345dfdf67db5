(** * Specification of lazily computed statics: what a computation yields when it runs alone, and
    when initializers do not go round in circles.  Definitions only. *)

From Coq Require Import Arith NArith List Bool.
From Verif Require Import Machine Operands OpcodeTrait Opcodes AllOpcodes Constants Tables Decoding
  LazyStatics SpecCodec SpecLayout.
Import ListNotations.

(** The result of a computation that nobody interrupts, with every static computed anew for every
    use. *)
Inductive yields {L V : Type} (init : L -> prog L V) : prog L V -> res V -> Prop :=
| yields_return r : yields init (Return r) r
| yields_value c k v r :
    yields init (init c) (Ok v) -> yields init (k v) r -> yields init (Deref c k) r
| yields_panic c k : yields init (init c) Panic -> yields init (Deref c k) Panic.

(** Every static that a computation may use has the property, whatever the values are. *)
Fixpoint uses {L V : Type} (P : L -> Prop) (p : prog L V) : Prop :=
  match p with
  | Return _ => True
  | Deref c k => P c /\ forall v, uses P (k v)
  end.

(** Initializers only use statics of a lower rank. *)
Definition acyclic {L V : Type} (init : L -> prog L V) : Prop :=
  exists rank : L -> nat, forall c, uses (fun c' => (rank c' < rank c)%nat) (init c).

(** A thread that has a result. *)
Definition finished {L V : Type} (t : thread L V) (r : res V) : Prop :=
  t = mkThread (Return r) [].

(** Nobody can take a step. *)
Definition at_rest {L V : Type} (eqb : L -> L -> bool) (init : L -> prog L V) (p : process L V)
  : Prop := forall i, step eqb init p i = None.

(** Steps that were really taken, one after the other. *)
Inductive goes {L V : Type} (eqb : L -> L -> bool) (init : L -> prog L V)
  : process L V -> list nat -> process L V -> Prop :=
| goes_nowhere p : goes eqb init p [] p
| goes_on p i p' l q : step eqb init p i = Some p' -> goes eqb init p' l q ->
    goes eqb init p (i :: l) q.

(** The values of the statics when one thread computes them. *)
Definition static_value (c : static) : res value :=
  match c with
  | S_OPCODES_TABLE => let* t := OPCODES_TABLE in Ok (V_variants t)
  | S_OPCODES_PROPS_INTEGER_BITMASKS => let* t := OPCODES_PROPS_INTEGER_BITMASKS in Ok (V_numbers t)
  | S_OPCODE_TO_MONOTONIC_INDEX_NUMBER_MAP =>
      let* m := OPCODE_TO_MONOTONIC_INDEX_NUMBER_MAP in Ok (V_monotonic_map m)
  | S_OPCODE_TO_CANONICAL_INDEX_LOOKUP_MAP =>
      let* m := OPCODE_TO_CANONICAL_INDEX_LOOKUP_MAP in Ok (V_canonical_map m)
  | S_NOP_OPCODE_VARIANT => let* x := NOP_OPCODE_VARIANT in Ok (V_variant x)
  | S_NOP_BITSPREAD_U64 => let* n := NOP_BITSPREAD_U64 in Ok (V_number n)
  | S_PANIC_OPCODE_VARIANT => let* x := PANIC_OPCODE_VARIANT in Ok (V_variant x)
  | S_PANIC_BITSPREAD_U64 => let* n := PANIC_BITSPREAD_U64 in Ok (V_number n)
  | S_OPCODE_PROTOTYPES => let* l := OPCODE_PROTOTYPES in Ok (V_objects l)
  | S_NUM_LOGICAL_OPCODES => let* n := NUM_LOGICAL_OPCODES in Ok (V_number n)
  | S_NUM_INPUT_VARIANTS => Ok (V_number NUM_INPUT_VARIANTS)
  | S_NUM_OUTPUT_VARIANTS => Ok (V_number NUM_OUTPUT_VARIANTS)
  | S_OPCODES_PRICES => let* t := OPCODES_PRICES in Ok (V_numbers t)
  | S_BOOTLOADER_FORMAL_ADDRESS => Ok (V_address BOOTLOADER_FORMAL_ADDRESS)
  | S_DEPLOYER_SYSTEM_CONTRACT_ADDRESS => Ok (V_address DEPLOYER_SYSTEM_CONTRACT_ADDRESS)
  | S_NONCE_MANAGER_SYSTEM_CONTRACT_ADDRESS => Ok (V_address NONCE_MANAGER_SYSTEM_CONTRACT_ADDRESS)
  | S_KNOWN_CODE_FACTORY_SYSTEM_CONTRACT_ADDRESS =>
      Ok (V_address KNOWN_CODE_FACTORY_SYSTEM_CONTRACT_ADDRESS)
  | S_KECCAK256_ROUND_FUNCTION_PRECOMPILE_FORMAL_ADDRESS =>
      Ok (V_address KECCAK256_ROUND_FUNCTION_PRECOMPILE_FORMAL_ADDRESS)
  | S_SHA256_ROUND_FUNCTION_PRECOMPILE_FORMAL_ADDRESS =>
      Ok (V_address SHA256_ROUND_FUNCTION_PRECOMPILE_FORMAL_ADDRESS)
  | S_ECRECOVER_INNER_FUNCTION_PRECOMPILE_FORMAL_ADDRESS =>
      Ok (V_address ECRECOVER_INNER_FUNCTION_PRECOMPILE_FORMAL_ADDRESS)
  end.

(** What the functions that use the statics return to a thread that runs alone. *)
Inductive request :=
| Use (c : static)
| Parse (m : mode) (w : N)
| Encode (m : mode) (bld : build) (d : DecodedOpcode)
| NopEncoding (m : mode) (bld : build)
| PanicEncoding (m : mode) (bld : build).
Definition request_prog (q : request) : prog static value :=
  match q with
  | Use c => Deref c (fun v => Return (Ok v))
  | Parse ProductionMode w => lazy_prod_parse w
  | Parse TestingMode w => lazy_test_parse w
  | Encode ProductionMode bld d => lazy_prod_encode bld d
  | Encode TestingMode bld d => lazy_test_encode bld d
  | NopEncoding ProductionMode bld => lazy_prod_nop_encoding bld
  | NopEncoding TestingMode bld => lazy_test_nop_encoding bld
  | PanicEncoding ProductionMode bld => lazy_prod_exception_revert_encoding bld
  | PanicEncoding TestingMode bld => lazy_test_exception_revert_encoding bld
  end.
Definition request_result (q : request) : res value :=
  match q with
  | Use c => static_value c
  | Parse m w => let* d := parse_preliminary_variant_and_absolute_number (mode_impl m) w in
                 Ok (V_decoded d)
  | Encode m bld d => let* w := encode_as_integer (mode_impl m) bld d in Ok (V_number w)
  | NopEncoding m bld => let* w := nop_encoding (mode_impl m) bld in Ok (V_number w)
  | PanicEncoding m bld => let* w := exception_revert_encoding (mode_impl m) bld in Ok (V_number w)
  end.

(** Statics that need each other, and one that needs itself. *)
Definition mutual (c : bool) : prog bool N := Deref (negb c) (fun v => Return (Ok v)).
Definition selfish (c : unit) : prog unit N := Deref c (fun v => Return (Ok v)).
