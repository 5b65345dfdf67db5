(** * Layout, reachability and budgets (C62-C67)

    Statements only: each proof is the lemma of the same name in [ProofsLayout]. *)

From Coq Require Import Arith NArith List Bool String Ascii.
From Verif Require Import Machine Constants Operands OpcodeTrait Opcodes AllOpcodes Tables
  Decoding VersionedHash SpecIsa SpecFamilies SpecCodec SpecAbi SpecLayout ProofsLayout.
Import ListNotations.
Open Scope N_scope.

(** The price of an instruction covers its worst-case work unless both operands are in
    memory, when it is one memory query short. *)
Theorem C62_instruction :
  forall x, in_table x -> spec_is_invalid (opcode x) = false ->
    (both_in_memory x = false -> worst_work x <= OpcodeVariant_ergs_price x) /\
    (both_in_memory x = true ->
       worst_work x = OpcodeVariant_ergs_price x + RAM_PERMUTATION_COST_IN_ERGS).
Proof. exact pf_C62_instruction. Qed.
Print Assumptions C62_instruction.

(** The work of any sequence of instructions is at most 1.2 times what was paid for it, and
    no factor below 7/6 would do. *)
Theorem C62_trace :
  (forall l, Forall (fun x => in_table x /\ spec_is_invalid (opcode x) = false) l ->
     5 * total worst_work l <= 6 * total OpcodeVariant_ergs_price l) /\
  (forall p q,
     (forall l, Forall (fun x => in_table x /\ spec_is_invalid (opcode x) = false) l ->
        q * total worst_work l <= p * total OpcodeVariant_ergs_price l) <-> 7 * q <= 6 * p).
Proof. exact pf_C62_trace. Qed.
Print Assumptions C62_trace.

(** No instruction is charged for more cycles than one plus the pending ones allowed. *)
Theorem C62_cycles :
  (forall o, cycles_of o <= 1 + MAX_PENDING_CYCLES) /\
  (exists x, in_table x /\ cycles_of (opcode x) = 1 + MAX_PENDING_CYCLES).
Proof. exact pf_C62_cycles. Qed.
Print Assumptions C62_cycles.

(** A memory-to-memory addition and a heap write. *)
Example C62_example :
  let add := mkOpcodeVariant (Op_Add AddOpcode_Add) (Full UseCodePage)
               (Full UseStackWithOffset) (true, false) in
  let write := mkOpcodeVariant (Op_UMA UMAOpcode_HeapWrite) (RegOrImm RI_UseRegOnly) RegOnly
                 (true, false) in
  in_table add /\ in_table write /\
  worst_work add = 7 /\ OpcodeVariant_ergs_price add = 6 /\
  worst_work write = 13 /\ OpcodeVariant_ergs_price write = 13.
Proof. exact pf_C62_example. Qed.

(** The number returned with a decoded instruction indexes every per-opcode table at the
    decoded variant. *)
Theorem C63_tables :
  forall m w, exists d n t p b mm,
    parse_preliminary_variant_and_absolute_number (mode_impl m) w
    = Ok (d, mkVariantMonotonicNumber n) /\
    OPCODES_TABLE = Ok t /\ OPCODES_PRICES = Ok p /\ OPCODES_PROPS_INTEGER_BITMASKS = Ok b /\
    OPCODE_TO_MONOTONIC_INDEX_NUMBER_MAP = Ok mm /\
    n = w mod 2048 /\
    nth_error t (N.to_nat n) = Some (variant d) /\
    nth_error p (N.to_nat n) = Some (OpcodeVariant_ergs_price (variant d)) /\
    (exists mask, nth_error b (N.to_nat n) = Some mask /\
       forall i, N.testbit mask i = spec_mask_bit (variant d) i) /\
    map_get mm (variant d)
    = Some (mkVariantMonotonicNumber
              (if spec_is_invalid (opcode (variant d)) then 0 else n)).
Proof. exact pf_C63_tables. Qed.
Print Assumptions C63_tables.

Example C63_example : 0x0001FFFF07F3A06C mod 2048 = 108 /\ 0xFFFF mod 2048 = 2047.
Proof. exact pf_C63_example. Qed.

(** A program counter reaches exactly the first 2^14 words of a code page in production and
    the first 2^31 in testing, and every instruction there at exactly one value. *)
Theorem C64_reach :
  forall m,
    let bound := match m with ProductionMode => 2 ^ 14 | TestingMode => 2 ^ 31 end in
    let max := pc_max (PcOrImm (mode_impl m)) in
    (forall pc, pc <= max ->
       fst (split_pc (mode_impl m) pc) < bound /\
       snd (split_pc (mode_impl m) pc) < mode_per_word m) /\
    (forall word sub, word < bound -> sub < mode_per_word m ->
       exists pc, pc <= max /\ split_pc (mode_impl m) pc = (word, sub) /\
         forall pc', split_pc (mode_impl m) pc' = (word, sub) -> pc' = pc).
Proof. exact pf_C64_reach. Qed.
Print Assumptions C64_reach.

(** Expected: every instruction of a bytecode that can be deployed can be reached.  False:
    hashing accepts bytecodes of 16385 to 65535 words. *)
Theorem C64_refuted :
  ~ (forall sha256 ws b, digest_function sha256 -> Forall (byte_array 32) ws ->
       bytecode_to_code_hash sha256 ws = Ok (Some b) ->
       forall k, k < len ws ->
         exists pc, pc < 2 ^ 16 /\ fst (split_pc EncodingModeProduction pc) = k).
Proof. exact pf_C64_refuted. Qed.
Print Assumptions C64_refuted.

(** What holds instead: the instructions of a bytecode are all reachable exactly when it has
    at most 16384 words; its constants always are, by a 16-bit word index.  The exit address
    of the first frame is an instruction of every hashable bytecode, its error handler one of
    exactly those with at least 16384 words. *)
Theorem C64_actual :
  forall sha256 ws b, digest_function sha256 -> len ws < 2 ^ 64 ->
    bytecode_to_code_hash sha256 ws = Ok (Some b) ->
    ((forall k, k < len ws ->
        exists pc, pc < 2 ^ 16 /\ fst (split_pc EncodingModeProduction pc) = k)
     <-> len ws <= 16384) /\
    len ws < 2 ^ 16 /\
    fst (split_pc EncodingModeProduction INITIAL_FRAME_SUCCESSFUL_EXIT_PC) = 0 /\ 0 < len ws /\
    (fst (split_pc EncodingModeProduction INITIAL_FRAME_FORMAL_EH_LOCATION) < len ws
     <-> 16384 <= len ws) /\
    INITIAL_FRAME_FORMAL_EH_LOCATION = pc_max (PcOrImm EncodingModeProduction).
Proof. exact pf_C64_actual. Qed.
Print Assumptions C64_actual.

Example C64_example :
  split_pc EncodingModeProduction 65535 = (16383, 3) /\
  split_pc EncodingModeTesting (2 ^ 32 - 1) = (2 ^ 31 - 1, 1) /\
  bytecode_to_code_hash (fun _ => repeat 7 32) [repeat 0 32]
  = Ok (Some ([1; 0; 0; 1] ++ repeat 7 28)).
Proof. exact pf_C64_example. Qed.

(** Charges proportional to sizes stay within [u32], and can always be paid from the first
    frame's ergs. *)
Theorem C65_charges :
  (forall bytes, bytes < 2 ^ 32 ->
     bytes * MEMORY_GROWTH_ERGS_PER_BYTE < 2 ^ 32 /\
     bytes * MEMORY_GROWTH_ERGS_PER_BYTE <= VM_INITIAL_FRAME_ERGS /\
     (bytes * MEMORY_GROWTH_ERGS_PER_BYTE = 0 <-> bytes = 0)) /\
  (forall sha256 ws b h, digest_function sha256 -> len ws < 2 ^ 64 ->
     bytecode_to_code_hash sha256 ws = Ok (Some b) ->
     VersionedHash_try_create_from_raw ContractCodeSha256 b = Ok (Some h) ->
     code_length_in_words (VersionedHash_layout_ref h) * ERGS_PER_CODE_WORD_DECOMMITTMENT
     <= 262140 <= MAX_TX_ERGS_LIMIT) /\
  0 < CODE_DECOMMITTER_SORTER_COST_IN_ERGS < 2 ^ 16.
Proof. exact pf_C65_charges. Qed.
Print Assumptions C65_charges.

(** The fixed decommitment overhead of value transfers covers exactly the codes of at most
    16000 words, so not every code that can be deployed. *)
Theorem C65_overhead :
  (forall n, n * ERGS_PER_CODE_WORD_DECOMMITTMENT <= DECOMMITMENT_MSG_VALUE_SIMULATOR_OVERHEAD
             <-> n <= 16000) /\
  ~ (forall sha256 ws b, digest_function sha256 -> len ws < 2 ^ 64 ->
       bytecode_to_code_hash sha256 ws = Ok (Some b) ->
       len ws * ERGS_PER_CODE_WORD_DECOMMITTMENT <= DECOMMITMENT_MSG_VALUE_SIMULATOR_OVERHEAD).
Proof. exact pf_C65_overhead. Qed.
Print Assumptions C65_overhead.

(** Memory of the first frame never runs out, and the free memory of a new one is a whole
    number of words. *)
Theorem C65_memory :
  (forall x, x <= MAX_OFFSET_TO_DEREF_LOW_U32 -> x + 32 <= BOOTLOADER_MAX_MEMORY) /\
  (forall x, x + 32 <= BOOTLOADER_MAX_MEMORY -> x <= MAX_OFFSET_TO_DEREF_LOW_U32) /\
  NEW_FRAME_MEMORY_STIPEND mod 32 = 0 /\ NEW_FRAME_MEMORY_STIPEND = 1024.
Proof. exact pf_C65_memory. Qed.
Print Assumptions C65_memory.

(** Expected from its name: heap offsets a transaction can pay for stay below
    [2^LOG2_NUM_ADDRESSABLE_HEAP_BYTES].  False: larger ones pass the dereference check and
    can be paid for. *)
Theorem C65_heap_refuted :
  ~ (forall x, x <= MAX_OFFSET_TO_DEREF_LOW_U32 ->
       (x + 32) * MEMORY_GROWTH_ERGS_PER_BYTE <= MAX_TX_ERGS_LIMIT ->
       x < 2 ^ LOG2_NUM_ADDRESSABLE_HEAP_BYTES) /\
  (forall x, x < 2 ^ LOG2_NUM_ADDRESSABLE_HEAP_BYTES ->
     x <= MAX_OFFSET_TO_DEREF_LOW_U32 /\
     (x + 32) * MEMORY_GROWTH_ERGS_PER_BYTE <= MAX_TX_ERGS_LIMIT).
Proof. exact pf_C65_heap_refuted. Qed.
Print Assumptions C65_heap_refuted.

(** Pubdata: how many L1 messages, new slots and updates of slots a block holds, and the
    amount a value transfer prepays is that of two storage writes. *)
Theorem C65_pubdata :
  (forall n, n * L1_MESSAGE_PUBDATA_BYTES <= MAX_PUBDATA_PER_BLOCK <-> n <= 1250) /\
  (forall n, n * L1_MESSAGE_PUBDATA_BYTES = MAX_PUBDATA_PER_BLOCK <-> n = 1250) /\
  (forall n, n * INITIAL_STORAGE_WRITE_PUBDATA_BYTES <= MAX_PUBDATA_PER_BLOCK <-> n <= 1718) /\
  (forall n, n * REPEATED_STORAGE_WRITE_PUBDATA_BYTES <= MAX_PUBDATA_PER_BLOCK <-> n <= 2750) /\
  (forall n, n * REPEATED_STORAGE_WRITE_PUBDATA_BYTES = MAX_PUBDATA_PER_BLOCK <-> n = 2750) /\
  (forall i r, i + r <= 2 ->
     i * INITIAL_STORAGE_WRITE_PUBDATA_BYTES + r * REPEATED_STORAGE_WRITE_PUBDATA_BYTES
     <= MSG_VALUE_SIMULATOR_PUBDATA_BYTES_TO_PREPAY) /\
  (forall p, (forall i r, i + r <= 2 ->
     i * INITIAL_STORAGE_WRITE_PUBDATA_BYTES + r * REPEATED_STORAGE_WRITE_PUBDATA_BYTES <= p) ->
     MSG_VALUE_SIMULATOR_PUBDATA_BYTES_TO_PREPAY <= p).
Proof. exact pf_C65_pubdata. Qed.
Print Assumptions C65_pubdata.

Example C65_example :
  bytecode_to_code_hash (fun _ => repeat 7 32) [repeat 0 32; repeat 1 32; repeat 2 32]
  = Ok (Some ([1; 0; 0; 3] ++ repeat 7 28)) /\
  3 * ERGS_PER_CODE_WORD_DECOMMITTMENT = 12.
Proof. exact pf_C65_example. Qed.

(** The exported shifts and widths locate the fields of every encoded instruction. *)
Theorem C66_fields :
  forall m bld d w,
    typed (mode_imm_bits m) d -> regs_in_range d ->
    encode_as_integer (mode_impl m) bld d = Ok w ->
    let R := REGISTER_INDEX_ENCODING_BITS in
    (exists n, spec_number (variant d) = Some n /\ w mod 2 ^ OPCODES_TABLE_WIDTH = n /\
       w mod 2 ^ VARIANT_AND_CONDITION_ENCODING_BITS
       = n + 2 ^ CONDITIONAL_BITS_SHIFT * spec_cond_number (condition d)) /\
    bits w CONDITIONAL_BITS_SHIFT CONDITIONAL_BITS_WIDTH = spec_cond_number (condition d) /\
    bits w SRC_REGS_SHIFT R = src0_reg_idx d /\
    bits w (SRC_REGS_SHIFT + R) R = src1_reg_idx d /\
    bits w DST_REGS_SHIFT R = dst0_reg_idx d /\
    bits w (DST_REGS_SHIFT + R) R = dst1_reg_idx d /\
    CONDITIONAL_BITS_SHIFT + CONDITIONAL_BITS_WIDTH = VARIANT_AND_CONDITION_ENCODING_BITS /\
    OPCODES_TABLE_WIDTH <= CONDITIONAL_BITS_SHIFT /\
    VARIANT_AND_CONDITION_ENCODING_BITS = SRC_REGS_SHIFT /\
    SRC_REGS_SHIFT + 2 * R = DST_REGS_SHIFT /\
    bits w (DST_REGS_SHIFT + 2 * R) (mode_imm_bits m) = imm_0 d /\
    bits w (DST_REGS_SHIFT + 2 * R + mode_imm_bits m) (mode_imm_bits m) = imm_1 d.
Proof. exact pf_C66_fields. Qed.
Print Assumptions C66_fields.

(** The register numbers an instruction can name are the registers and the constant zero;
    the conditions fill their field. *)
Theorem C66_ranges :
  REGISTERS_COUNT + 1 = 2 ^ REGISTER_INDEX_ENCODING_BITS /\
  (forall k, k < 2 ^ CONDITIONAL_BITS_WIDTH <-> exists c, spec_cond_number c = k).
Proof. exact pf_C66_ranges. Qed.
Print Assumptions C66_ranges.

Example C66_example :
  let d := mkDecodedOpcode
    (mkOpcodeVariant (Op_Sub SubOpcode_Sub) (Full UseStackWithOffset) (Full UseRegOnly)
       (true, true)) Le_ 3 15 7 0 65535 1 in
  typed 16 d /\ regs_in_range d /\ in_table (variant d) /\
  bits 0x0001FFFF07F3A06C (SRC_REGS_SHIFT + REGISTER_INDEX_ENCODING_BITS) 4 = 15.
Proof. exact pf_C66_example. Qed.

(** The exported flag indices name the flags of each opcode: different roles of one opcode
    have different indices, and the flags that occur set in the table are exactly those with
    a role. *)
Theorem C67_flags :
  forall o,
    NoDup (flag_roles o) /\
    (forall i, In i (flag_roles o) -> i < NUM_NON_EXCLUSIVE_FLAGS) /\
    (forall i, In i (flag_roles o) <->
       exists x, in_table x /\ opcode x = o /\ flag_at x i = true).
Proof. exact pf_C67_flags. Qed.
Print Assumptions C67_flags.

(** Where the circuits find the flags and the exception bits in the bitmask of a variant. *)
Theorem C67_bitmask :
  forall bld x v mask r variants,
    opcode_as_integer_bitmask bld x v = Ok mask ->
    total_description_bits_rounded_for_version v = Ok r ->
    max_num_variants_for_version v = Ok variants ->
    (forall i, i < NUM_NON_EXCLUSIVE_FLAGS ->
       N.testbit mask (OPCODE_TYPE_BITS + variants + i) = flag_at x i) /\
    N.testbit mask (r + KERNER_MODE_FLAG_IDX) = spec_kernel (opcode x) /\
    N.testbit mask (r + CAN_BE_USED_IN_STATIC_CONTEXT_FLAG_IDX)
      = negb (spec_not_static (opcode x)) /\
    N.testbit mask (r + EXPLICIT_PANIC_FLAG_IDX) = spec_is_invalid (opcode x) /\
    mask < 2 ^ (r + TOTAL_AUX_BITS).
Proof. exact pf_C67_bitmask. Qed.
Print Assumptions C67_bitmask.

Example C67_example :
  flag_roles (Op_Sub SubOpcode_Sub) = [0; 1] /\ flag_roles (Op_Jump jumpOpcode) = [] /\
  exists mask, opcode_as_integer_bitmask Debug spec_invalid 1 = Ok mask /\
    total_description_bits_rounded_for_version 1 = Ok 48 /\ max_num_variants_for_version 1 = Ok 10.
Proof. exact pf_C67_example. Qed.
