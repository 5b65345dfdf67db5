(** * Prices, limits and constants (C49-C56, C61)

    Statements only: each proof is the lemma of the same name in [ProofsPricing]. *)

From Coq Require Import Arith NArith List Bool String Ascii.
From Verif Require Import Machine Constants Opcodes AllOpcodes Abi PricingGen SpecFamilies SpecAbi
  SpecPricing ProofsPricing.
Import ListNotations.
Open Scope N_scope.

(** What the generator writes is the committed file, in both builds. *)
Theorem C49_text :
  forall bld, generator_main bld = Ok ("src/circuit_prices.rs"%string, committed_circuit_prices).
Proof. exact pf_C49_text. Qed.
Print Assumptions C49_text.

(** The capacities of the specification are the generator's, and its division yields the
    committed price of every metered circuit, in both builds. *)
Theorem C49_capacities :
  map fst metered_circuits =
    [CYCLES_PER_VM_SNAPSHOT; CYCLES_PER_RAM_PERMUTATION; 2 * CYCLES_PER_CODE_DECOMMITTER;
     CYCLES_PER_STORAGE_APPLICATION; CYCLES_FOR_CODE_DECOMMITTER_SORTER; CYCLES_FOR_LOG_DEMUXER;
     CYCLES_FOR_STORAGE_SORTER; CYCLES_FOR_EVENTS_OR_L1_MESSAGES_SORTER;
     LIMIT_FOR_INITIAL_WRITES_PUBDATA_HASHER; LIMIT_FOR_REPEATED_WRITES_PUBDATA_HASHER;
     CYCLES_FOR_CODE_DECOMMITTER_SORTER; CYCLES_PER_KECCAK256_CIRCUIT; CYCLES_PER_SHA256_CIRCUIT;
     CYCLES_PER_ECRECOVER_CIRCUIT] /\
  LIMIT_FOR_L1_MESSAGES_MERKLIZER = 512 /\ LIMIT_FOR_INITIAL_WRITES_PUBDATA_HASHER = 4600 /\
  LIMIT_FOR_REPEATED_WRITES_PUBDATA_HASHER = 7400 /\
  (forall bld c q, In (c, q) metered_circuits -> ceil_div bld ERGS_PER_CIRCUIT c = Ok q) /\
  (forall bld, ceil_div bld MAX_TX_ERGS_LIMIT LIMIT_FOR_L1_MESSAGES_MERKLIZER
               = Ok L1_MESSAGE_MIN_COST_IN_ERGS).
Proof. exact pf_C49_capacities. Qed.
Print Assumptions C49_capacities.

(** Every committed constant is the generator's formula over the capacities. *)
Theorem C49_formulas :
  (forall c q, In (c, q) metered_circuits -> ceiling_of ERGS_PER_CIRCUIT c q) /\
  ceiling_of MAX_TX_ERGS_LIMIT 512 L1_MESSAGE_MIN_COST_IN_ERGS /\
  (MAX_PUBDATA_PER_BLOCK <= 4600 * INITIAL_STORAGE_WRITE_PUBDATA_BYTES /\
   INITIAL_WRITES_PUBDATA_HASHER_MIN_COST_IN_ERGS = 0) /\
  (MAX_PUBDATA_PER_BLOCK <= 7400 * REPEATED_STORAGE_WRITE_PUBDATA_BYTES /\
   REPEATED_WRITES_PUBDATA_HASHER_MIN_COST_IN_ERGS = 0) /\
  STORAGE_WRITE_HASHER_MIN_COST_IN_ERGS =
    N.max INITIAL_WRITES_PUBDATA_HASHER_MIN_COST_IN_ERGS
          REPEATED_WRITES_PUBDATA_HASHER_MIN_COST_IN_ERGS.
Proof. exact pf_C49_formulas. Qed.
Print Assumptions C49_formulas.

Example C49_example :
  In (2050, 40) metered_circuits /\ ceil_div Debug ERGS_PER_CIRCUIT 2050 = Ok 40 /\
  ceiling_of ERGS_PER_CIRCUIT 2050 40 /\ ~ ceiling_of ERGS_PER_CIRCUIT 2050 41.
Proof. exact pf_C49_example. Qed.

(** Ceiling division of [u32] values, in both builds. *)
Theorem C50_ceil_div :
  forall a b, a < 2 ^ 32 -> b < 2 ^ 32 ->
    (b = 0 -> forall bld, ceil_div bld a b = Panic) /\
    (0 < b -> a + b < 2 ^ 32 -> forall bld,
       exists q, ceil_div bld a b = Ok q /\ ceiling_of a b q) /\
    (0 < b -> 2 ^ 32 <= a + b -> ceil_div Debug a b = Panic) /\
    (0 < b -> 2 ^ 32 <= a + b -> exists q,
       ceil_div Release a b = Ok q /\ q = ((a + b - 1) mod 2 ^ 32) / b /\
       forall q0, ceiling_of a b q0 ->
         (a + b = 2 ^ 32 -> q = q0) /\ (2 ^ 32 < a + b -> q < q0)).
Proof. exact pf_C50_ceil_div. Qed.
Print Assumptions C50_ceil_div.

Example C50_example :
  ceil_div Debug 80000 23000 = Ok 4 /\ ceil_div Release (2 ^ 32 - 1) 10 = Ok 0 /\
  ceil_div Debug (2 ^ 32 - 1) 10 = Panic /\ ceil_div Release 0 0 = Panic.
Proof. exact pf_C50_example. Qed.

(** A unit price pays for every completely filled circuit exactly when it is at least the
    committed one. *)
Theorem C51_circuits :
  forall c q, In (c, q) metered_circuits ->
    forall p, (forall n, ERGS_PER_CIRCUIT * (n / c) <= n * p) <-> q <= p.
Proof. exact pf_C51_circuits. Qed.
Print Assumptions C51_circuits.

(** The single-instance circuits cannot be exhausted: L1 messages by their price, the write
    hashers by the pubdata limit. *)
Theorem C51_limits :
  (forall n, n * Opcode_ergs_price (Op_Log LogOpcode_ToL1Message) <= MAX_TX_ERGS_LIMIT ->
     n <= LIMIT_FOR_L1_MESSAGES_MERKLIZER) /\
  ceiling_of MAX_TX_ERGS_LIMIT LIMIT_FOR_L1_MESSAGES_MERKLIZER
    (Opcode_ergs_price (Op_Log LogOpcode_ToL1Message)) /\
  (forall i r, i * INITIAL_STORAGE_WRITE_PUBDATA_BYTES + r * REPEATED_STORAGE_WRITE_PUBDATA_BYTES
               <= MAX_PUBDATA_PER_BLOCK ->
     i <= LIMIT_FOR_INITIAL_WRITES_PUBDATA_HASHER /\
     r <= LIMIT_FOR_REPEATED_WRITES_PUBDATA_HASHER).
Proof. exact pf_C51_limits. Qed.
Print Assumptions C51_limits.

Example C51_example :
  In (118, 678) metered_circuits /\ 80000 * (236 / 118) <= 236 * 678 /\
  ~ 80000 * (236 / 118) <= 236 * 677.
Proof. exact pf_C51_example. Qed.

(** No history paid from a stipend contains a storage write, with any nesting of calls. *)
Theorem C52_stipends :
  forall e l s, e <= 2300 \/ e <= MSG_VALUE_SIMULATOR_ADDITIVE_COST
                                  - MSG_VALUE_SIMULATOR_MIN_USED_ERGS ->
    vm_run (vm_start e) l s -> ~ In (Some (Op_Log LogOpcode_StorageWrite)) l.
Proof. exact pf_C52_stipends. Qed.
Print Assumptions C52_stipends.

(** The price is the least that does this. *)
Theorem C52_least :
  MSG_VALUE_SIMULATOR_MIN_USED_ERGS <= MSG_VALUE_SIMULATOR_ADDITIVE_COST /\
  Opcode_ergs_price (Op_Log LogOpcode_StorageWrite) = MIN_STORAGE_WRITE_COST /\
  (forall p, MIN_STORAGE_WRITE_PRICE_FOR_REENTRANCY_PROTECTION <= p <->
     forall e, e <= 2300 \/ e <= MSG_VALUE_SIMULATOR_ADDITIVE_COST
                                   - MSG_VALUE_SIMULATOR_MIN_USED_ERGS -> e < p) /\
  (forall p, MIN_STORAGE_WRITE_COST <= p <->
     MIN_STORAGE_WRITE_PRICE_FOR_REENTRANCY_PROTECTION <= p /\
     STORAGE_WRITE_HASHER_MIN_COST_IN_ERGS <= p).
Proof. exact pf_C52_least. Qed.
Print Assumptions C52_least.

Example C52_example :
  vm_run (vm_start 3501) [Some (Op_Log LogOpcode_StorageWrite)] (mkVm [0] 1 0 0) /\
  vm_run (vm_start 3500) [Some (Op_Log LogOpcode_StorageRead); Some (Op_FarCall FarCallOpcode_Normal)]
    (mkVm [3000; 160] 2 1 0).
Proof. exact pf_C52_example. Qed.

(** The callstack never outgrows its limit, with up to eighty unpaid internal calls; the
    limit fits a [u32]. *)
Theorem C53_depth :
  (forall e l s, e <= VM_INITIAL_FRAME_ERGS -> vm_run (vm_start e) l s -> unpaid s <= 80 ->
     len (frames s) <= VM_MAX_STACK_DEPTH) /\
  VM_MAX_STACK_DEPTH < 2 ^ 32.
Proof. exact pf_C53_depth. Qed.
Print Assumptions C53_depth.

(** The deepest callstack that [e] ergs and [u] unpaid calls can reach, and that it is
    reached; the exported limit leaves room above it. *)
Theorem C53_exact :
  (forall e u, let deepest := 1 + e / Opcode_ergs_price (Op_NearCall nearCallOpcode) + u in
     (forall l s, vm_run (vm_start e) l s -> unpaid s <= u -> len (frames s) <= deepest) /\
     (exists l s, vm_run (vm_start e) l s /\ unpaid s = u /\ len (frames s) = deepest)) /\
  1 + VM_INITIAL_FRAME_ERGS / Opcode_ergs_price (Op_NearCall nearCallOpcode) + 80
    < VM_MAX_STACK_DEPTH.
Proof. exact pf_C53_exact. Qed.
Print Assumptions C53_exact.

(** Frames of callers cannot be touched: whatever runs above a frame, the ergs below it are
    only changed by returning into it. *)
Theorem C53_callers :
  forall f r c k u o s', vm_step (mkVm (f :: r) c k u) o s' ->
    (exists f', frames s' = f' :: r) \/ (exists p f', frames s' = p :: f' :: r /\ p + f' <= f) \/
    (exists g r' g', r = g :: r' /\ frames s' = g' :: r' /\ g' <= g + f) \/ frames s' = r.
Proof. exact pf_C53_callers. Qed.
Print Assumptions C53_callers.

Example C53_example :
  vm_run (vm_start VM_INITIAL_FRAME_ERGS)
    [Some (Op_NearCall nearCallOpcode); Some (Op_NearCall nearCallOpcode); None]
    (mkVm [0; 100] 3 0 0) /\ VM_MAX_STACK_DEPTH = 214748444.
Proof. exact pf_C53_example. Qed.

(** Page groups of distinct far calls are disjoint, apart from the reserved pages, and fit
    [u32]. *)
Theorem C54_pages :
  forall e l s, e <= VM_INITIAL_FRAME_ERGS -> vm_run (vm_start e) l s ->
    forall k p, k < far_calls s -> In p (page_group (base_page k)) ->
      p < 2 ^ 32 /\ p <> UNMAPPED_PAGE /\ ~ In p bootloader_pages /\
      forall k', k' < far_calls s -> k' <> k -> ~ In p (page_group (base_page k')).
Proof. exact pf_C54_pages. Qed.
Print Assumptions C54_pages.

(** The bootloader's own pages are distinct, mapped and laid out like any other group, after
    one calldata page.  The unmapped page is the one the empty pointer names. *)
Theorem C54_bootloader :
  NoDup (UNMAPPED_PAGE :: bootloader_pages) /\
  bootloader_pages = (BOOTLOADER_BASE_PAGE - 1) :: page_group BOOTLOADER_BASE_PAGE /\
  fp_memory_page FatPointer_empty = UNMAPPED_PAGE.
Proof. exact pf_C54_bootloader. Qed.
Print Assumptions C54_bootloader.

(** Page groups are aligned: the last three bits of a page number tell which page of its group
    it is, the rest which group, for the bootloader and every far call alike. *)
Theorem C54_alignment :
  forall b, b = BOOTLOADER_BASE_PAGE \/ (exists k, b = base_page k) ->
  forall i p, nth_error (page_group b) i = Some p ->
    p mod NEW_MEMORY_PAGES_PER_FAR_CALL = N.of_nat i /\
    p / NEW_MEMORY_PAGES_PER_FAR_CALL = b / NEW_MEMORY_PAGES_PER_FAR_CALL.
Proof. exact pf_C54_alignment. Qed.
Print Assumptions C54_alignment.

(** Timestamps: all the instants of a cycle precede those of the next, and fit [u32]. *)
Theorem C54_timestamps :
  forall e l s, e <= VM_INITIAL_FRAME_ERGS -> vm_run (vm_start e) l s -> unpaid s <= 80 ->
    timestamp (cycles s) + 3 < 2 ^ 32 /\
    (forall c c', c < c' -> timestamp c + 3 < timestamp c') /\
    cycles s = N.of_nat (List.length l).
Proof. exact pf_C54_timestamps. Qed.
Print Assumptions C54_timestamps.

(** The most far calls and the most cycles that [e] ergs (and [u] unpaid calls) allow, and
    that both are reached. *)
Theorem C54_exact :
  (forall e i, let most := e / Opcode_ergs_price (Op_FarCall i) in
     (forall l s, vm_run (vm_start e) l s -> far_calls s <= most) /\
     (exists l s, vm_run (vm_start e) l s /\ far_calls s = most)) /\
  (forall e u, let most := e / Opcode_ergs_price (Op_Context ContextOpcode_This) + 1 + 2 * u in
     (forall l s, vm_run (vm_start e) l s -> unpaid s <= u -> cycles s <= most) /\
     (exists l s, vm_run (vm_start e) l s /\ unpaid s = u /\ cycles s = most)).
Proof. exact pf_C54_exact. Qed.
Print Assumptions C54_exact.

Example C54_example :
  page_group (base_page 1) = [2056; 2057; 2058; 2059] /\ timestamp 2 = 1032 /\
  vm_run (vm_start 400) [Some (Op_FarCall FarCallOpcode_Delegate); Some (Op_Ret RetOpcode_Ok)]
    (mkVm [207] 2 1 0).
Proof. exact pf_C54_example. Qed.

(** Embedding a [u64] as an address. *)
Theorem C55_embedding :
  (forall x, x < 2 ^ 64 -> address_of x (Address_from_low_u64_be x) /\
     firstn 12 (Address_from_low_u64_be x) = repeat 0 12) /\
  (forall x y, x < 2 ^ 64 -> y < 2 ^ 64 ->
     Address_from_low_u64_be x = Address_from_low_u64_be y -> x = y).
Proof. exact pf_C55_embedding. Qed.
Print Assumptions C55_embedding.

(** The system contract constants are distinct and below the unrestricted space. *)
Theorem C55_distinct :
  NoDup system_addresses /\ Forall (fun a => 0 < a /\ a < ADDRESS_UNRESTRICTED_SPACE) system_addresses /\
  ADDRESS_UNRESTRICTED_SPACE = 2 ^ 16.
Proof. exact pf_C55_distinct. Qed.
Print Assumptions C55_distinct.

(** The precompiles Ethereum has keep their Ethereum numbers; the system contracts are
    numbered without gaps from the start of kernel space, Keccak apart. *)
Theorem C55_ranges :
  (forall k a, nth_error system_addresses k = Some a ->
     a = if (k <? 4)%nat then N.of_nat k + 1
         else if (k <? 17)%nat then 2 ^ 15 + N.of_nat k - 3
         else 2 ^ 15 + 16) /\
  List.length system_addresses = 18%nat /\
  (forall a, In a system_addresses -> (a <= 2 ^ 15 <-> a <= 9)).
Proof. exact pf_C55_ranges. Qed.
Print Assumptions C55_ranges.

(** The exported formal addresses. *)
Theorem C55_formal :
  address_of ADDRESS_BOOTLOADER BOOTLOADER_FORMAL_ADDRESS /\
  address_of ADDRESS_NONCE_HOLDER NONCE_MANAGER_SYSTEM_CONTRACT_ADDRESS /\
  address_of ADDRESS_KNOWN_CODES_STORAGE KNOWN_CODE_FACTORY_SYSTEM_CONTRACT_ADDRESS /\
  address_of ADDRESS_KECCAK256 KECCAK256_ROUND_FUNCTION_PRECOMPILE_FORMAL_ADDRESS /\
  address_of ADDRESS_SHA256 SHA256_ROUND_FUNCTION_PRECOMPILE_FORMAL_ADDRESS /\
  address_of ADDRESS_ECRECOVER ECRECOVER_INNER_FUNCTION_PRECOMPILE_FORMAL_ADDRESS /\
  address_of ADDRESS_ACCOUNT_CODE_STORAGE DEPLOYER_SYSTEM_CONTRACT_ADDRESS /\
  KECCAK256_ROUND_FUNCTION_PRECOMPILE_ADDRESS = ADDRESS_KECCAK256 /\
  SHA256_ROUND_FUNCTION_PRECOMPILE_ADDRESS = ADDRESS_SHA256 /\
  ECRECOVER_INNER_FUNCTION_PRECOMPILE_ADDRESS = ADDRESS_ECRECOVER /\
  BOOTLOADER_FORMAL_ADDRESS_LOW = ADDRESS_BOOTLOADER.
Proof. exact pf_C55_formal. Qed.
Print Assumptions C55_formal.

(** Expected: the deployer's address is the contract deployer's.  False: it is that of the
    account code storage. *)
Theorem C55_refuted :
  ~ address_of ADDRESS_CONTRACT_DEPLOYER DEPLOYER_SYSTEM_CONTRACT_ADDRESS /\
  DEPLOYER_SYSTEM_CONTRACT_ADDRESS_LOW = ADDRESS_ACCOUNT_CODE_STORAGE /\
  DEPLOYER_SYSTEM_CONTRACT_ADDRESS_LOW <> ADDRESS_CONTRACT_DEPLOYER.
Proof. exact pf_C55_refuted. Qed.
Print Assumptions C55_refuted.

Example C55_example :
  Address_from_low_u64_be 0x8001
  = [0; 0; 0; 0; 0; 0; 0; 0; 0; 0; 0; 0; 0; 0; 0; 0; 0; 0; 128; 1].
Proof. exact pf_C55_example. Qed.

(** The largest offset at which a word can be read or written. *)
Theorem C56_deref :
  (forall x, x < 2 ^ 32 -> (x <= MAX_OFFSET_TO_DEREF_LOW_U32 <-> x + 32 <= 2 ^ 32 - 1)) /\
  u256_value MAX_OFFSET_TO_DEREF = 2 ^ 32 - 33 /\ u256_ok MAX_OFFSET_TO_DEREF /\
  u256_value MAX_OFFSET_FOR_ADD_SUB = 2 ^ 32 /\ u256_ok MAX_OFFSET_FOR_ADD_SUB /\
  (forall v, u256_ok v -> (u256_value v < u256_value MAX_OFFSET_FOR_ADD_SUB <->
     limb0 v < 2 ^ 32 /\ limb1 v = 0 /\ limb2 v = 0 /\ limb3 v = 0)).
Proof. exact pf_C56_deref. Qed.
Print Assumptions C56_deref.

Example C56_example :
  MAX_OFFSET_TO_DEREF_LOW_U32 = 4294967263 /\ 4294967263 + 32 = 2 ^ 32 - 1.
Proof. exact pf_C56_example. Qed.

(** At a far call every register has exactly one role. *)
Theorem C61_call_registers :
  forall r, r < REGISTERS_COUNT ->
    (if r =? CALL_IMPLICIT_CALLDATA_FAT_PTR_REGISTER then 1 else 0) +
    (if r =? CALL_IMPLICIT_CONSTRUCTOR_MARKER_REGISTER then 1 else 0) +
    (if (fst CALL_SYSTEM_ABI_REGISTERS <=? r) && (r <? snd CALL_SYSTEM_ABI_REGISTERS)
     then 1 else 0) +
    (if (fst CALL_RESERVED_RANGE <=? r) && (r <? snd CALL_RESERVED_RANGE) then 1 else 0) +
    (if r =? CALL_IMPLICIT_PARAMETER_REG_IDX then 1 else 0) = 1.
Proof. exact pf_C61_call_registers. Qed.
Print Assumptions C61_call_registers.

(** A return writes the first four registers, the data pointer where a call has it. *)
Theorem C61_distinct :
  NoDup [RET_IMPLICIT_RETURNDATA_PARAMS_REGISTER; RET_RESERVED_REGISTER_0;
         RET_RESERVED_REGISTER_1; RET_RESERVED_REGISTER_2] /\
  (forall r, In r [RET_IMPLICIT_RETURNDATA_PARAMS_REGISTER; RET_RESERVED_REGISTER_0;
                   RET_RESERVED_REGISTER_1; RET_RESERVED_REGISTER_2] <-> r < 4) /\
  RET_RESERVED_REGISTER_0 < RET_RESERVED_REGISTER_1 < RET_RESERVED_REGISTER_2 /\
  4 <= REGISTERS_COUNT /\
  RET_IMPLICIT_RETURNDATA_PARAMS_REGISTER = CALL_IMPLICIT_CALLDATA_FAT_PTR_REGISTER.
Proof. exact pf_C61_distinct. Qed.
Print Assumptions C61_distinct.

(** The query kinds of the log queue are numbered 0 to 3 in the order storage, event,
    L1 message, precompile. *)
Theorem C61_kinds :
  (forall b, In b [STORAGE_AUX_BYTE; EVENT_AUX_BYTE; L1_MESSAGE_AUX_BYTE; PRECOMPILE_AUX_BYTE]
             <-> b < 4) /\
  STORAGE_AUX_BYTE < EVENT_AUX_BYTE /\ EVENT_AUX_BYTE < L1_MESSAGE_AUX_BYTE /\
  L1_MESSAGE_AUX_BYTE < PRECOMPILE_AUX_BYTE.
Proof. exact pf_C61_kinds. Qed.
Print Assumptions C61_kinds.

Example C61_example : CALL_SYSTEM_ABI_REGISTERS = (2, 12) /\ 13 < REGISTERS_COUNT.
Proof. exact pf_C61_example. Qed.
