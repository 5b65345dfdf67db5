(** * First use of the lazily computed statics from several threads: lib.rs:127-228,
    system_params.rs:108-123.  Definitions only.

    [lazy_static] is a dependency; a static is modelled as [std::sync::Once] makes it: the first
    thread that needs the value computes it, the others wait until it is done, and a panic poisons
    the static for good.  An initializer may itself need other statics.  The steps of the threads
    interleave in any order; what a thread does between two uses of a static touches nothing
    shared, so it is part of one step. *)

From Coq Require Import Arith.
From Verif Require Import Machine Operands OpcodeTrait Opcodes AllOpcodes Constants Tables Decoding.
Local Open Scope N_scope.

(** A computation with statics [L] that have values [V]: a result, or a use of a static and the
    rest for the value of the static. Source: lib.rs:127 *)
Inductive prog (L V : Type) : Type :=
| Return (r : res V)
| Deref (c : L) (k : V -> prog L V).
Arguments Return {L V} r.
Arguments Deref {L V} c k.

(** The states of a [Once]; lib.rs:127 *)
Inductive once (V : Type) : Type :=
| Incomplete
| Running (t : nat)
| Complete (v : V)
| Poisoned.
Arguments Incomplete {V}.
Arguments Running {V} t.
Arguments Complete {V} v.
Arguments Poisoned {V}.

(** A thread: what it computes now, and for every initializer it is inside of, innermost first,
    the static and what is to be done with its value. Source: lib.rs:127 *)
Record thread (L V : Type) := mkThread {
  current : prog L V;
  frames : list (L * (V -> prog L V))
}.
Arguments mkThread {L V} current frames.
Arguments current {L V} t.
Arguments frames {L V} t.

(** All statics and threads, and the initializers begun so far, the last one first; lib.rs:127 *)
Record process (L V : Type) := mkProcess {
  state_of : L -> once V;
  threads : list (thread L V);
  begun : list L
}.
Arguments mkProcess {L V} state_of threads begun.
Arguments state_of {L V} p.
Arguments threads {L V} p.
Arguments begun {L V} p.

(** One static changed; part of [Once::call_once], lib.rs:127. *)
Definition set_state {L V : Type} (eqb : L -> L -> bool) (f : L -> once V) (c : L) (x : once V)
  : L -> once V := fun c' => if eqb c' c then x else f c'.

(** One thread changed; lib.rs:127. *)
Fixpoint set_thread {A : Type} (l : list A) (i : nat) (x : A) : list A :=
  match l, i with
  | [], _ => []
  | _ :: r, O => x :: r
  | y :: r, S i' => y :: set_thread r i' x
  end.

(** One step of thread [i], [None] if it has finished or has to wait; the [deref] of a static,
    [Once::call_once] and the end of an initializer, lib.rs:127.  A thread that needs a static
    whose initializer it is inside of waits for itself. *)
Definition step {L V : Type} (eqb : L -> L -> bool) (init : L -> prog L V) (p : process L V) (i : nat)
  : option (process L V) :=
  match nth_error (threads p) i with
  | None => None
  | Some t =>
      match current t with
      | Deref c k =>
          match state_of p c with
          | Complete v =>
              Some (mkProcess (state_of p)
                      (set_thread (threads p) i (mkThread (k v) (frames t))) (begun p))
          | Incomplete =>
              Some (mkProcess (set_state eqb (state_of p) c (Running i))
                      (set_thread (threads p) i (mkThread (init c) ((c, k) :: frames t)))
                      (c :: begun p))
          | Poisoned =>
              Some (mkProcess (state_of p)
                      (set_thread (threads p) i (mkThread (Return Panic) (frames t))) (begun p))
          | Running _ => None
          end
      | Return r =>
          match frames t with
          | [] => None
          | (c, k) :: rest =>
              match r with
              | Ok v =>
                  Some (mkProcess (set_state eqb (state_of p) c (Complete v))
                          (set_thread (threads p) i (mkThread (k v) rest)) (begun p))
              | Panic =>
                  Some (mkProcess (set_state eqb (state_of p) c Poisoned)
                          (set_thread (threads p) i (mkThread (Return Panic) rest)) (begun p))
              end
          end
      end
  end.

(** A process in which nothing has been used yet, with one thread for every program; lib.rs:127. *)
Definition launch {L V : Type} (ps : list (prog L V)) : process L V :=
  mkProcess (fun _ => Incomplete) (map (fun p => mkThread p []) ps) [].

(** The threads take steps in the order of a schedule; one that cannot is passed over.
    Source: lib.rs:127 *)
Fixpoint run {L V : Type} (eqb : L -> L -> bool) (init : L -> prog L V) (p : process L V)
    (schedule : list nat) : process L V :=
  match schedule with
  | [] => p
  | i :: rest =>
      match step eqb init p i with
      | Some p' => run eqb init p' rest
      | None => run eqb init p rest
      end
  end.

(** ** The statics of the source *)

(** lib.rs:128-219; system_params.rs:109-121 *)
Inductive static :=
| S_OPCODES_TABLE
| S_OPCODES_PROPS_INTEGER_BITMASKS
| S_OPCODE_TO_MONOTONIC_INDEX_NUMBER_MAP
| S_OPCODE_TO_CANONICAL_INDEX_LOOKUP_MAP
| S_NOP_OPCODE_VARIANT
| S_NOP_BITSPREAD_U64
| S_PANIC_OPCODE_VARIANT
| S_PANIC_BITSPREAD_U64
| S_OPCODE_PROTOTYPES
| S_NUM_LOGICAL_OPCODES
| S_NUM_INPUT_VARIANTS
| S_NUM_OUTPUT_VARIANTS
| S_OPCODES_PRICES
| S_BOOTLOADER_FORMAL_ADDRESS
| S_DEPLOYER_SYSTEM_CONTRACT_ADDRESS
| S_NONCE_MANAGER_SYSTEM_CONTRACT_ADDRESS
| S_KNOWN_CODE_FACTORY_SYSTEM_CONTRACT_ADDRESS
| S_KECCAK256_ROUND_FUNCTION_PRECOMPILE_FORMAL_ADDRESS
| S_SHA256_ROUND_FUNCTION_PRECOMPILE_FORMAL_ADDRESS
| S_ECRECOVER_INNER_FUNCTION_PRECOMPILE_FORMAL_ADDRESS.

(** A place of its own for every static; lib.rs:127, system_params.rs:108. *)
Definition static_place (c : static) : nat :=
  match c with
  | S_OPCODES_TABLE => 0
  | S_OPCODES_PROPS_INTEGER_BITMASKS => 1
  | S_OPCODE_TO_MONOTONIC_INDEX_NUMBER_MAP => 2
  | S_OPCODE_TO_CANONICAL_INDEX_LOOKUP_MAP => 3
  | S_NOP_OPCODE_VARIANT => 4
  | S_NOP_BITSPREAD_U64 => 5
  | S_PANIC_OPCODE_VARIANT => 6
  | S_PANIC_BITSPREAD_U64 => 7
  | S_OPCODE_PROTOTYPES => 8
  | S_NUM_LOGICAL_OPCODES => 9
  | S_NUM_INPUT_VARIANTS => 10
  | S_NUM_OUTPUT_VARIANTS => 11
  | S_OPCODES_PRICES => 12
  | S_BOOTLOADER_FORMAL_ADDRESS => 13
  | S_DEPLOYER_SYSTEM_CONTRACT_ADDRESS => 14
  | S_NONCE_MANAGER_SYSTEM_CONTRACT_ADDRESS => 15
  | S_KNOWN_CODE_FACTORY_SYSTEM_CONTRACT_ADDRESS => 16
  | S_KECCAK256_ROUND_FUNCTION_PRECOMPILE_FORMAL_ADDRESS => 17
  | S_SHA256_ROUND_FUNCTION_PRECOMPILE_FORMAL_ADDRESS => 18
  | S_ECRECOVER_INNER_FUNCTION_PRECOMPILE_FORMAL_ADDRESS => 19
  end%nat.
(** lib.rs:127, system_params.rs:108 *)
Definition static_eqb (a b : static) : bool := Nat.eqb (static_place a) (static_place b).

(** The types of the statics and of the results of the codecs, in one; lib.rs:128-219,
    decoding/mod.rs:83-85. *)
Inductive value :=
| V_variants (l : list OpcodeVariant)
| V_numbers (l : list N)
| V_monotonic_map (m : list (OpcodeVariant * VariantMonotonicNumber))
| V_canonical_map (m : list (OpcodeVariant * N))
| V_variant (x : OpcodeVariant)
| V_number (n : N)
| V_objects (l : list OpcodeProps)
| V_address (bytes : list N)
| V_decoded (d : DecodedOpcode * VariantMonotonicNumber).

(** What follows a computation without statics, which may panic; lib.rs:128-219. *)
Definition attempt {L V A : Type} (r : res A) (k : A -> prog L V) : prog L V :=
  match r with Ok a => k a | Panic => Return Panic end.

(** The use of a static of a type; the other types do not occur, the source is typed.
    Source: lib.rs:133, 138, 152, 220 *)
Definition use_variants (c : static) (k : list OpcodeVariant -> prog static value)
  : prog static value :=
  Deref c (fun v => match v with V_variants l => k l | _ => Return Panic end).
(** lib.rs:177, 197 *)
Definition use_numbers (c : static) (k : list N -> prog static value) : prog static value :=
  Deref c (fun v => match v with V_numbers l => k l | _ => Return Panic end).
(** lib.rs:170, 176, 190, 196 *)
Definition use_map (c : static) (k : list (OpcodeVariant * N) -> prog static value)
  : prog static value :=
  Deref c (fun v => match v with V_canonical_map m => k m | _ => Return Panic end).
(** lib.rs:176, 196 *)
Definition use_variant (c : static) (k : OpcodeVariant -> prog static value) : prog static value :=
  Deref c (fun v => match v with V_variant x => k x | _ => Return Panic end).
(** definitions/mod.rs:785, 798, 801 *)
Definition use_number (c : static) (k : N -> prog static value) : prog static value :=
  Deref c (fun v => match v with V_number n => k n | _ => Return Panic end).
(** lib.rs:207 *)
Definition use_objects (c : static) (k : list OpcodeProps -> prog static value)
  : prog static value :=
  Deref c (fun v => match v with V_objects l => k l | _ => Return Panic end).

(** definitions/mod.rs:774-825, with the statics it uses *)
Definition lazy_bitmask (full_opcode_variant : OpcodeVariant) (version : ISAVersion)
    (k : N -> prog static value) : prog static value :=
  attempt (max_num_variants_for_version version) (fun max_variant_bits_in_version =>
  attempt (max_num_flags_for_version version) (fun max_num_flags_in_version =>
  let encoding := 0 in
  let global_shift := 0 in
  attempt (shl_one Debug 64 (global_shift + Opcode_variant_idx (opcode full_opcode_variant)))
    (fun b =>
  let encoding := N.lor encoding b in
  use_number S_NUM_LOGICAL_OPCODES (fun num_logical_opcodes =>
  let global_shift := global_shift + num_logical_opcodes in
  attempt (shl_one Debug 64
    (global_shift + Opcode_materialize_subvariant_idx (opcode full_opcode_variant))) (fun b =>
  let encoding := N.lor encoding b in
  let global_shift := global_shift + max_variant_bits_in_version in
  attempt
    (for_each (fun encoding '(i, flag) =>
       if (flag : bool) then
         let* b := shl_one Debug 64 (global_shift + i) in
         Ok (N.lor encoding b)
       else Ok encoding)
       (enumerate [fst (flags full_opcode_variant); snd (flags full_opcode_variant)])
       encoding) (fun encoding =>
  let global_shift := global_shift + max_num_flags_in_version in
  attempt (shl_one Debug 64
    (global_shift + Operand_variant_idx (src0_operand_type full_opcode_variant))) (fun b =>
  let encoding := N.lor encoding b in
  use_number S_NUM_INPUT_VARIANTS (fun num_input_variants =>
  let global_shift := global_shift + num_input_variants in
  attempt (shl_one Debug 64
    (global_shift + Operand_variant_idx (dst0_operand_type full_opcode_variant))) (fun b =>
  let encoding := N.lor encoding b in
  use_number S_NUM_OUTPUT_VARIANTS (fun num_output_variants =>
  let global_shift := global_shift + num_output_variants in
  attempt (total_description_bits_rounded_for_version version)
    (fun aligned_num_description_bits =>
  attempt (assert_ (global_shift <=? aligned_num_description_bits)) (fun _ =>
  let global_shift := aligned_num_description_bits in
  attempt
    (if Opcode_requires_kernel_mode (opcode full_opcode_variant)
     then let* b := shl_one Debug 64 global_shift in Ok (N.lor encoding b)
     else Ok encoding) (fun encoding =>
  let global_shift := global_shift + KERNEL_MODE_FLAG_BITS in
  attempt
    (if Opcode_can_be_used_in_static_context (opcode full_opcode_variant)
     then let* b := shl_one Debug 64 global_shift in Ok (N.lor encoding b)
     else Ok encoding) (fun encoding =>
  let global_shift := global_shift + CAN_BE_USED_IN_STATIC_CONTEXT_FLAG_BITS in
  attempt
    (if OpcodeVariant_is_explicit_panic full_opcode_variant
     then let* b := shl_one Debug 64 global_shift in Ok (N.lor encoding b)
     else Ok encoding) (fun encoding =>
  let global_shift := global_shift + EXPLICIT_PANIC_FLAG_BITS in
  attempt (assert_ (global_shift <=? 64)) (fun _ =>
  k encoding)))))))))))))))).

(** definitions/mod.rs:713-717, the loop *)
Fixpoint lazy_bitmasks (opcodes : list OpcodeVariant) (version : ISAVersion) (result : list N)
    (k : list N -> prog static value) : prog static value :=
  match opcodes with
  | [] => k result
  | x :: rest =>
      lazy_bitmask x version (fun encoding => lazy_bitmasks rest version (result ++ [encoding]) k)
  end.

(** definitions/mod.rs:701-720 *)
Definition lazy_bit_decomposition (opcodes : list OpcodeVariant) (version : ISAVersion)
    (k : list N -> prog static value) : prog static value :=
  attempt all_opcodes (fun objects =>
  attempt (assert_ (len objects =? OPCODE_TYPE_BITS)) (fun _ =>
  attempt (assert_ (ImmMemHandlerFlags_num_src_variants =? OPCODE_INPUT_VARIANT_FLAGS)) (fun _ =>
  attempt (assert_ (ImmMemHandlerFlags_num_dst_variants =? OPCODE_OUTPUT_VARIANT_FLAGS)) (fun _ =>
  lazy_bitmasks opcodes version [] k)))).

(** lib.rs:138-145, the loop, which uses the table again for a second occurrence *)
Fixpoint lazy_monotonic (l : list (N * OpcodeVariant))
    (result : list (OpcodeVariant * VariantMonotonicNumber)) : prog static value :=
  match l with
  | [] => Return (Ok (V_monotonic_map result))
  | (idx, el) :: rest =>
      match map_get result el with
      | Some existing =>
          let usize_index := VariantMonotonicNumber_into_usize existing in
          use_variants S_OPCODES_TABLE (fun table =>
          attempt (index table usize_index) (fun e =>
          attempt (assert_ (OpcodeVariant_eqb e INVALID_OPCODE_VARIANT)) (fun _ =>
          lazy_monotonic rest result)))
      | None => lazy_monotonic rest (map_insert result el (VariantMonotonicNumber_from_usize idx))
      end
  end.

(** lib.rs:152-158, the loop, which uses the table again for a second occurrence *)
Fixpoint lazy_canonical (l : list (N * OpcodeVariant)) (result : list (OpcodeVariant * N))
  : prog static value :=
  match l with
  | [] => Return (Ok (V_canonical_map result))
  | (idx, el) :: rest =>
      match map_get result el with
      | Some existing =>
          use_variants S_OPCODES_TABLE (fun table =>
          attempt (index table existing) (fun e =>
          attempt (assert_ (OpcodeVariant_eqb e INVALID_OPCODE_VARIANT)) (fun _ =>
          lazy_canonical rest result)))
      | None => lazy_canonical rest (map_insert result el idx)
      end
  end.

(** lib.rs:163-173 and 182-193, for the variant they name *)
Definition lazy_variant (x : OpcodeVariant) : prog static value :=
  use_map S_OPCODE_TO_CANONICAL_INDEX_LOOKUP_MAP (fun m =>
  attempt (assert_ (contains_key m x)) (fun _ =>
  Return (Ok (V_variant x)))).

(** lib.rs:175-180 and 195-200, for the static they name *)
Definition lazy_bitspread (c : static) : prog static value :=
  use_map S_OPCODE_TO_CANONICAL_INDEX_LOOKUP_MAP (fun m =>
  use_variant c (fun x =>
  attempt (unwrap (map_get m x)) (fun idx =>
  use_numbers S_OPCODES_PROPS_INTEGER_BITMASKS (fun masks =>
  attempt (index masks idx) (fun bits =>
  Return (Ok (V_number bits))))))).

(** The initializers; lib.rs:128-227, system_params.rs:109-122 *)
Definition initializer (c : static) : prog static value :=
  match c with
  | S_OPCODES_TABLE =>
      Return (let* t := synthesize_opcode_decoding_tables Debug OPCODES_TABLE_WIDTH
                          DEFAULT_ISA_VERSION in
              let* t := into_array (2 ^ OPCODES_TABLE_WIDTH) t in
              Ok (V_variants t))
  | S_OPCODES_PROPS_INTEGER_BITMASKS =>
      use_variants S_OPCODES_TABLE (fun table =>
      lazy_bit_decomposition table DEFAULT_ISA_VERSION (fun t =>
      attempt (into_array (2 ^ OPCODES_TABLE_WIDTH) t) (fun t =>
      Return (Ok (V_numbers t)))))
  | S_OPCODE_TO_MONOTONIC_INDEX_NUMBER_MAP =>
      use_variants S_OPCODES_TABLE (fun table => lazy_monotonic (enumerate table) [])
  | S_OPCODE_TO_CANONICAL_INDEX_LOOKUP_MAP =>
      use_variants S_OPCODES_TABLE (fun table => lazy_canonical (enumerate table) [])
  | S_NOP_OPCODE_VARIANT =>
      lazy_variant
        (mkOpcodeVariant (Op_Nop nopOpcode) (Full UseRegOnly) (Full UseRegOnly) (false, false))
  | S_NOP_BITSPREAD_U64 => lazy_bitspread S_NOP_OPCODE_VARIANT
  | S_PANIC_OPCODE_VARIANT =>
      lazy_variant (mkOpcodeVariant (Op_Ret RetOpcode_Panic) RegOnly RegOnly (false, false))
  | S_PANIC_BITSPREAD_U64 => lazy_bitspread S_PANIC_OPCODE_VARIANT
  | S_OPCODE_PROTOTYPES => Return (let* l := all_opcodes in Ok (V_objects l))
  | S_NUM_LOGICAL_OPCODES =>
      use_objects S_OPCODE_PROTOTYPES (fun l => Return (Ok (V_number (len l))))
  | S_NUM_INPUT_VARIANTS => Return (Ok (V_number ImmMemHandlerFlags_num_src_variants))
  | S_NUM_OUTPUT_VARIANTS => Return (Ok (V_number ImmMemHandlerFlags_num_dst_variants))
  | S_OPCODES_PRICES =>
      use_variants S_OPCODES_TABLE (fun table =>
      attempt (into_array (2 ^ OPCODES_TABLE_WIDTH)
                 (fold_left (fun result opcode => result ++ [OpcodeVariant_ergs_price opcode])
                    table [])) (fun t =>
      Return (Ok (V_numbers t))))
  | S_BOOTLOADER_FORMAL_ADDRESS => Return (Ok (V_address BOOTLOADER_FORMAL_ADDRESS))
  | S_DEPLOYER_SYSTEM_CONTRACT_ADDRESS => Return (Ok (V_address DEPLOYER_SYSTEM_CONTRACT_ADDRESS))
  | S_NONCE_MANAGER_SYSTEM_CONTRACT_ADDRESS =>
      Return (Ok (V_address NONCE_MANAGER_SYSTEM_CONTRACT_ADDRESS))
  | S_KNOWN_CODE_FACTORY_SYSTEM_CONTRACT_ADDRESS =>
      Return (Ok (V_address KNOWN_CODE_FACTORY_SYSTEM_CONTRACT_ADDRESS))
  | S_KECCAK256_ROUND_FUNCTION_PRECOMPILE_FORMAL_ADDRESS =>
      Return (Ok (V_address KECCAK256_ROUND_FUNCTION_PRECOMPILE_FORMAL_ADDRESS))
  | S_SHA256_ROUND_FUNCTION_PRECOMPILE_FORMAL_ADDRESS =>
      Return (Ok (V_address SHA256_ROUND_FUNCTION_PRECOMPILE_FORMAL_ADDRESS))
  | S_ECRECOVER_INNER_FUNCTION_PRECOMPILE_FORMAL_ADDRESS =>
      Return (Ok (V_address ECRECOVER_INNER_FUNCTION_PRECOMPILE_FORMAL_ADDRESS))
  end.

(** ** The functions that use them *)

(** decoding/encoding_mode_production.rs:78-107, 33 *)
Definition lazy_prod_parse (w : N) : prog static value :=
  use_variants S_OPCODES_TABLE (fun table =>
  Return (let* d := prod_parse_with (Ok table) w in Ok (V_decoded d))).
(** decoding/encoding_mode_testing.rs:79-108, 34 *)
Definition lazy_test_parse (w : N) : prog static value :=
  use_variants S_OPCODES_TABLE (fun table =>
  Return (let* d := test_parse_with (Ok table) w in Ok (V_decoded d))).
(** decoding/encoding_mode_production.rs:109-147, 120 *)
Definition lazy_prod_encode (bld : build) (d : DecodedOpcode) : prog static value :=
  use_map S_OPCODE_TO_CANONICAL_INDEX_LOOKUP_MAP (fun m =>
  Return (let* w := prod_encode_as_integer_with (Ok m) bld d in Ok (V_number w))).
(** decoding/encoding_mode_testing.rs:110-148, 121 *)
Definition lazy_test_encode (bld : build) (d : DecodedOpcode) : prog static value :=
  use_map S_OPCODE_TO_CANONICAL_INDEX_LOOKUP_MAP (fun m =>
  Return (let* w := test_encode_as_integer_with (Ok m) bld d in Ok (V_number w))).
(** decoding/encoding_mode_production.rs:45-59 *)
Definition lazy_prod_nop_encoding (bld : build) : prog static value :=
  use_variant S_NOP_OPCODE_VARIANT (fun variant =>
  lazy_prod_encode bld
    (mkDecodedOpcode variant Always 0 0 0 0
       (from_u64_clipped u16_PcOrImm 0) (from_u64_clipped u16_PcOrImm 0))).
(** decoding/encoding_mode_production.rs:61-76 *)
Definition lazy_prod_exception_revert_encoding (bld : build) : prog static value :=
  use_variant S_PANIC_OPCODE_VARIANT (fun variant =>
  lazy_prod_encode bld
    (mkDecodedOpcode variant Always 0 0 0 0
       (from_u64_clipped u16_PcOrImm 0) (from_u64_clipped u16_PcOrImm 0))).
(** decoding/encoding_mode_testing.rs:46-60 *)
Definition lazy_test_nop_encoding (bld : build) : prog static value :=
  use_variant S_NOP_OPCODE_VARIANT (fun variant =>
  lazy_test_encode bld
    (mkDecodedOpcode variant Always 0 0 0 0
       (from_u64_clipped u32_PcOrImm 0) (from_u64_clipped u32_PcOrImm 0))).
(** decoding/encoding_mode_testing.rs:62-77 *)
Definition lazy_test_exception_revert_encoding (bld : build) : prog static value :=
  use_variant S_PANIC_OPCODE_VARIANT (fun variant =>
  lazy_test_encode bld
    (mkDecodedOpcode variant Always 0 0 0 0
       (from_u64_clipped u32_PcOrImm 0) (from_u64_clipped u32_PcOrImm 0))).
