(** * Constants: src/lib.rs, src/circuit_prices.rs, src/system_params.rs, and the
    constants of src/definitions/{condition,uma,ptr,far_call,ret,log}.rs.
    Definitions only. *)

From Verif Require Import Machine.

(** ** circuit_prices.rs:4-27 *)
Definition VM_CYCLE_COST_IN_ERGS : N := 4.                               (* circuit_prices.rs:4 *)
Definition RAM_PERMUTATION_COST_IN_ERGS : N := 1.                        (* circuit_prices.rs:5 *)
Definition CODE_DECOMMITMENT_COST_PER_WORD_IN_ERGS : N := 4.             (* circuit_prices.rs:6 *)
Definition STORAGE_APPLICATION_COST_IN_ERGS : N := 678.                  (* circuit_prices.rs:7 *)
Definition CODE_DECOMMITTER_SORTER_COST_IN_ERGS : N := 1.                (* circuit_prices.rs:8 *)
Definition LOG_DEMUXER_COST_IN_ERGS : N := 1.                            (* circuit_prices.rs:9 *)
Definition STORAGE_SORTER_COST_IN_ERGS : N := 2.                         (* circuit_prices.rs:10 *)
Definition EVENTS_OR_L1_MESSAGES_SORTER_COST_IN_ERGS : N := 1.           (* circuit_prices.rs:11 *)
Definition INITIAL_WRITES_PUBDATA_HASHER_COST_IN_ERGS : N := 18.         (* circuit_prices.rs:12 *)
Definition REPEATED_WRITES_PUBDATA_HASHER_COST_IN_ERGS : N := 11.        (* circuit_prices.rs:13 *)
Definition CODE_DECOMMITMENT_SORTER_COST_IN_ERGS : N := 1.               (* circuit_prices.rs:14 *)
Definition L1_MESSAGE_MIN_COST_IN_ERGS : N := 156250.                    (* circuit_prices.rs:17 *)
Definition INITIAL_WRITES_PUBDATA_HASHER_MIN_COST_IN_ERGS : N := 0.      (* circuit_prices.rs:18 *)
Definition REPEATED_WRITES_PUBDATA_HASHER_MIN_COST_IN_ERGS : N := 0.     (* circuit_prices.rs:19 *)
Definition STORAGE_WRITE_HASHER_MIN_COST_IN_ERGS : N := 0.               (* circuit_prices.rs:22 *)
Definition KECCAK256_CIRCUIT_COST_IN_ERGS : N := 40.                     (* circuit_prices.rs:25 *)
Definition SHA256_CIRCUIT_COST_IN_ERGS : N := 7.                         (* circuit_prices.rs:26 *)
Definition ECRECOVER_CIRCUIT_COST_IN_ERGS : N := 1112.                   (* circuit_prices.rs:27 *)

(** ** src/lib.rs *)
Definition REGISTERS_COUNT : N := 15.                                    (* lib.rs:1 *)
Definition OPCODES_TABLE_WIDTH : N := 11.                                (* lib.rs:43 *)
Definition CONDITIONAL_BITS_SHIFT : N := 13.                             (* lib.rs:44 *)
Definition MEMORY_GROWTH_ERGS_PER_BYTE : N := 1.                         (* lib.rs:45 *)
Definition VARIANT_AND_CONDITION_ENCODING_BITS : N := 16.                (* lib.rs:51 *)
Definition REGISTER_INDEX_ENCODING_BITS : N := 4.                        (* lib.rs:53 *)
Definition SRC_REGS_SHIFT : N := 16.                                     (* lib.rs:55 *)
Definition DST_REGS_SHIFT : N := 24.                                     (* lib.rs:56 *)
Definition NUM_OPCODES : N := 16.                                        (* definitions/mod.rs:57 *)
Definition OPCODE_TYPE_BITS : N := NUM_OPCODES.                          (* lib.rs:59 *)
Definition OPCODE_INPUT_VARIANT_FLAGS : N := 6.                          (* lib.rs:61 *)
Definition OPCODE_OUTPUT_VARIANT_FLAGS : N := 4.                         (* lib.rs:62 *)
Definition KERNEL_MODE_FLAG_BITS : N := 1.                               (* lib.rs:65 *)
Definition CAN_BE_USED_IN_STATIC_CONTEXT_FLAG_BITS : N := 1.             (* lib.rs:66 *)
Definition EXPLICIT_PANIC_FLAG_BITS : N := 1.                            (* lib.rs:67 *)
Definition KERNER_MODE_FLAG_IDX : N := 0.                                (* lib.rs:69 *)
Definition CAN_BE_USED_IN_STATIC_CONTEXT_FLAG_IDX : N := 1.              (* lib.rs:70 *)
Definition EXPLICIT_PANIC_FLAG_IDX : N := 2.                             (* lib.rs:71 *)
Definition WIDTH_MULTIPLE : N := 16.                                     (* lib.rs:73 *)
Definition INITIAL_SP_ON_FAR_CALL : N := 0.                              (* lib.rs:75 *)
Definition UNMAPPED_PAGE : N := 0.                                       (* lib.rs:76 *)
Definition BOOTLOADER_BASE_PAGE : N := 8.                                (* lib.rs:78 *)
Definition BOOTLOADER_CODE_PAGE : N := BOOTLOADER_BASE_PAGE.             (* lib.rs:79 *)
Definition BOOTLOADER_CALLDATA_PAGE : N := BOOTLOADER_BASE_PAGE - 1.     (* lib.rs:80 *)
Definition BOOTLOADER_STACK_PAGE : N := BOOTLOADER_BASE_PAGE + 1.        (* lib.rs:81 *)
Definition BOOTLOADER_HEAP_PAGE : N := BOOTLOADER_BASE_PAGE + 2.         (* lib.rs:82 *)
Definition BOOTLOADER_AUX_HEAP_PAGE : N := BOOTLOADER_BASE_PAGE + 3.     (* lib.rs:83 *)
Definition NEW_MEMORY_PAGES_PER_FAR_CALL : N := 8.                       (* lib.rs:85 *)
Definition STARTING_TIMESTAMP : N := 1024.                               (* lib.rs:86 *)
Definition STARTING_BASE_PAGE : N := 2048.                               (* lib.rs:87 *)
Definition TIME_DELTA_PER_CYCLE : N := 4.                                (* lib.rs:88 *)
Definition MAX_PENDING_CYCLES : N := 1.                                  (* lib.rs:89 *)
Definition LOG2_NUM_ADDRESSABLE_HEAP_BYTES : N := 24.                    (* lib.rs:91 *)
Definition NUM_NON_EXCLUSIVE_FLAGS : N := 2.                             (* lib.rs:93 *)
(** lib.rs:118-119 *)
Definition TOTAL_AUX_BITS : N :=
  KERNEL_MODE_FLAG_BITS + CAN_BE_USED_IN_STATIC_CONTEXT_FLAG_BITS + EXPLICIT_PANIC_FLAG_BITS.
Definition INVALID_OPCODE_ERGS : N := 2 ^ 32 - 1.                        (* lib.rs:230, u32::MAX *)
(** lib.rs:239-240 *)
Definition RICH_ADDRESSING_OPCODE_ERGS : N :=
  VM_CYCLE_COST_IN_ERGS + 2 * RAM_PERMUTATION_COST_IN_ERGS.
(** lib.rs:241 *)
Definition AVERAGE_OPCODE_ERGS : N := VM_CYCLE_COST_IN_ERGS + RAM_PERMUTATION_COST_IN_ERGS.
Definition STORAGE_READ_IO_PRICE : N := 150.                             (* lib.rs:245 *)
Definition STORAGE_WRITE_IO_PRICE : N := 250.                            (* lib.rs:246 *)
Definition EVENT_IO_PRICE : N := 25.                                     (* lib.rs:247 *)
Definition L1_MESSAGE_IO_PRICE : N := 100.                               (* lib.rs:248 *)
Definition CALL_LIKE_ERGS_COST : N := 20.                                (* lib.rs:251 *)
(** lib.rs:253 *)
Definition ERGS_PER_CODE_WORD_DECOMMITTMENT : N := CODE_DECOMMITMENT_COST_PER_WORD_IN_ERGS.

(** ** src/definitions *)
Definition CONDITIONAL_BITS_WIDTH : N := 3.                              (* definitions/condition.rs:14 *)
Definition SET_FLAGS_FLAG_IDX : N := 0.                                  (* definitions/mod.rs:127 *)
Definition SWAP_OPERANDS_FLAG_IDX_FOR_ARITH_OPCODES : N := 1.            (* definitions/mod.rs:128 *)
Definition SWAP_OPERANDS_FLAG_IDX_FOR_PTR_OPCODE : N := 0.               (* definitions/mod.rs:129 *)
(** definitions/uma.rs:6, [((1u64 << 32) - 33) as u32] *)
Definition MAX_OFFSET_TO_DEREF_LOW_U32 : N := as_u32 (shl 64 1 32 - 33).
(** definitions/uma.rs:11 *)
Definition MAX_OFFSET_TO_DEREF : U256 := mkU256 MAX_OFFSET_TO_DEREF_LOW_U32 0 0 0.
Definition UMA_INCREMENT_FLAG_IDX : N := 0.                              (* definitions/uma.rs:23 *)
(** definitions/ptr.rs:13 *)
Definition MAX_OFFSET_FOR_ADD_SUB : U256 := mkU256 (shl 64 1 32) 0 0 0.
Definition CALL_IMPLICIT_CALLDATA_FAT_PTR_REGISTER : N := 0.             (* definitions/far_call.rs:9 *)
Definition CALL_IMPLICIT_CONSTRUCTOR_MARKER_REGISTER : N := 1.           (* definitions/far_call.rs:10 *)
(** definitions/far_call.rs:11, half-open range 2..12 *)
Definition CALL_SYSTEM_ABI_REGISTERS : N * N := (2, 12).
(** definitions/far_call.rs:12, half-open range 12..14 *)
Definition CALL_RESERVED_RANGE : N * N := (12, 14).
Definition CALL_IMPLICIT_PARAMETER_REG_IDX : N := 14.                    (* definitions/far_call.rs:13 *)
Definition FAR_CALL_STATIC_FLAG_IDX : N := 0.                            (* definitions/far_call.rs:23 *)
Definition FAR_CALL_SHARD_FLAG_IDX : N := 1.                             (* definitions/far_call.rs:24 *)
Definition RET_IMPLICIT_RETURNDATA_PARAMS_REGISTER : N := 0.             (* definitions/ret.rs:3 *)
Definition RET_RESERVED_REGISTER_0 : N := 1.                             (* definitions/ret.rs:4 *)
Definition RET_RESERVED_REGISTER_1 : N := 2.                             (* definitions/ret.rs:5 *)
Definition RET_RESERVED_REGISTER_2 : N := 3.                             (* definitions/ret.rs:6 *)
Definition RET_TO_LABEL_BIT_IDX : N := 0.                                (* definitions/ret.rs:8 *)
Definition FIRST_MESSAGE_FLAG_IDX : N := 0.                              (* definitions/log.rs:12 *)

(** ** src/system_params.rs *)
Definition MAX_TX_ERGS_LIMIT : N := 80000000.                            (* system_params.rs:4 *)
Definition VM_INITIAL_FRAME_ERGS : N := 2 ^ 32 - 1.                      (* system_params.rs:6, u32::MAX *)
Definition ERGS_PER_CIRCUIT : N := 80000.                                (* system_params.rs:9 *)
(** system_params.rs:15 *)
Definition VM_MAX_STACK_DEPTH : N := VM_INITIAL_FRAME_ERGS / CALL_LIKE_ERGS_COST + 80.
Definition INITIAL_FRAME_SUCCESSFUL_EXIT_PC : N := 0.                    (* system_params.rs:17 *)
Definition INITIAL_FRAME_FORMAL_EH_LOCATION : N := 2 ^ 16 - 1.           (* system_params.rs:18, u16::MAX *)
Definition SYSTEM_CONTRACTS_OFFSET_ADDRESS : N := shl 16 1 15.           (* system_params.rs:20, 1 << 15 *)
Definition KECCAK256_ROUND_FUNCTION_PRECOMPILE_ADDRESS : N :=
  SYSTEM_CONTRACTS_OFFSET_ADDRESS + 0x10.                                (* system_params.rs:22 *)
Definition SHA256_ROUND_FUNCTION_PRECOMPILE_ADDRESS : N := 0x02.         (* system_params.rs:23 *)
Definition ECRECOVER_INNER_FUNCTION_PRECOMPILE_ADDRESS : N := 0x01.      (* system_params.rs:24 *)
Definition INITIAL_STORAGE_WRITE_PUBDATA_BYTES : N := 64.                (* system_params.rs:26 *)
Definition REPEATED_STORAGE_WRITE_PUBDATA_BYTES : N := 40.               (* system_params.rs:27 *)
Definition L1_MESSAGE_PUBDATA_BYTES : N := 1 + 1 + 2 + 20 + 32 + 32.     (* system_params.rs:28 *)
Definition MAX_PUBDATA_PER_BLOCK : N := 110000.                          (* system_params.rs:33 *)
Definition STORAGE_AUX_BYTE : N := 0.                                    (* system_params.rs:35 *)
Definition EVENT_AUX_BYTE : N := 1.                                      (* system_params.rs:36 *)
Definition L1_MESSAGE_AUX_BYTE : N := 2.                                 (* system_params.rs:37 *)
Definition PRECOMPILE_AUX_BYTE : N := 3.                                 (* system_params.rs:38 *)
Definition NUM_SPONGES : N := 4.                                         (* system_params.rs:40 *)
Definition BOOTLOADER_FORMAL_ADDRESS_LOW : N := SYSTEM_CONTRACTS_OFFSET_ADDRESS + 0x01. (* system_params.rs:44 *)
Definition DEPLOYER_SYSTEM_CONTRACT_ADDRESS_LOW : N :=
  SYSTEM_CONTRACTS_OFFSET_ADDRESS + 0x02.                                (* system_params.rs:45 *)
Definition ADDRESS_UNRESTRICTED_SPACE : N := shl 64 1 16.                (* system_params.rs:48 *)
Definition ADDRESS_ECRECOVER : N := 0x0001.                              (* system_params.rs:50 *)
Definition ADDRESS_SHA256 : N := 0x0002.                                 (* system_params.rs:51 *)
Definition ADDRESS_RIPEMD160 : N := 0x0003.                              (* system_params.rs:52 *)
Definition ADDRESS_IDENTITY : N := 0x0004.                               (* system_params.rs:53 *)
Definition ADDRESS_BOOTLOADER : N := 0x8001.                             (* system_params.rs:55 *)
Definition ADDRESS_ACCOUNT_CODE_STORAGE : N := 0x8002.                   (* system_params.rs:56 *)
Definition ADDRESS_NONCE_HOLDER : N := 0x8003.                           (* system_params.rs:57 *)
Definition ADDRESS_KNOWN_CODES_STORAGE : N := 0x8004.                    (* system_params.rs:58 *)
Definition ADDRESS_IMMUTABLE_SIMULATOR : N := 0x8005.                    (* system_params.rs:59 *)
Definition ADDRESS_CONTRACT_DEPLOYER : N := 0x8006.                      (* system_params.rs:60 *)
Definition ADDRESS_FORCE_DEPLOYER : N := 0x8007.                         (* system_params.rs:61 *)
Definition ADDRESS_L1_MESSENGER : N := 0x8008.                           (* system_params.rs:62 *)
Definition ADDRESS_MSG_VALUE : N := 0x8009.                              (* system_params.rs:63 *)
Definition ADDRESS_ETH_TOKEN : N := 0x800A.                              (* system_params.rs:64 *)
Definition ADDRESS_SYSTEM_CONTEXT : N := 0x800B.                         (* system_params.rs:65 *)
Definition ADDRESS_BOOTLOADER_UTILITIES : N := 0x800C.                   (* system_params.rs:66 *)
Definition ADDRESS_EVENT_WRITER : N := 0x800D.                           (* system_params.rs:67 *)
Definition ADDRESS_KECCAK256 : N := 0x8010.                              (* system_params.rs:68 *)
Definition BOOTLOADER_MAX_MEMORY : N := 2 ^ 32 - 1.                      (* system_params.rs:70, u32::MAX *)
Definition NEW_FRAME_MEMORY_STIPEND : N := shl 32 1 10.                  (* system_params.rs:71 *)
Definition MSG_VALUE_SIMULATOR_PUBDATA_BYTES_TO_PREPAY : N := 32 + 32 + 32 + 32. (* system_params.rs:73 *)
Definition DECOMMITMENT_MSG_VALUE_SIMULATOR_OVERHEAD : N := 64000.       (* system_params.rs:77 *)
(** system_params.rs:78-79 *)
Definition MSG_VALUE_SIMULATOR_ADDITIVE_COST : N :=
  11500 + DECOMMITMENT_MSG_VALUE_SIMULATOR_OVERHEAD.
(** system_params.rs:83 *)
Definition MSG_VALUE_SIMULATOR_MIN_USED_ERGS : N :=
  8000 + DECOMMITMENT_MSG_VALUE_SIMULATOR_OVERHEAD.
(** system_params.rs:86-92, the private [const fn max] *)
Definition max_u32 (a b : N) : N := if b <? a then a else b.
(** system_params.rs:97-100.  The subtraction is a compile-time constant; a negative value would not
    compile ([N] subtraction truncates at zero instead, which is not reached). *)
Definition MIN_STORAGE_WRITE_PRICE_FOR_REENTRANCY_PROTECTION : N :=
  max_u32 (MSG_VALUE_SIMULATOR_ADDITIVE_COST - MSG_VALUE_SIMULATOR_MIN_USED_ERGS + 1)
          (2300 + 1).
(** system_params.rs:103-106 *)
Definition MIN_STORAGE_WRITE_COST : N :=
  max_u32 MIN_STORAGE_WRITE_PRICE_FOR_REENTRANCY_PROTECTION
          STORAGE_WRITE_HASHER_MIN_COST_IN_ERGS.

(** [ethereum_types::Address::from_low_u64_be]: a 20-byte array, 12 zero bytes then the
    big-endian bytes of the argument (external crate; modelled by its documentation).
    Source: system_params.rs:108-123. *)
Definition Address_from_low_u64_be (v : N) : list N := repeat 0 12 ++ to_be_bytes 8 v.

(** system_params.rs:108-123, the [lazy_static] addresses *)
Definition BOOTLOADER_FORMAL_ADDRESS : list N :=
  Address_from_low_u64_be BOOTLOADER_FORMAL_ADDRESS_LOW.                 (* system_params.rs:109-110 *)
Definition DEPLOYER_SYSTEM_CONTRACT_ADDRESS : list N :=
  Address_from_low_u64_be DEPLOYER_SYSTEM_CONTRACT_ADDRESS_LOW.          (* system_params.rs:111-112 *)
Definition NONCE_MANAGER_SYSTEM_CONTRACT_ADDRESS : list N :=
  Address_from_low_u64_be (SYSTEM_CONTRACTS_OFFSET_ADDRESS + 0x03).      (* system_params.rs:113-114 *)
Definition KNOWN_CODE_FACTORY_SYSTEM_CONTRACT_ADDRESS : list N :=
  Address_from_low_u64_be (SYSTEM_CONTRACTS_OFFSET_ADDRESS + 0x04).      (* system_params.rs:115-116 *)
Definition KECCAK256_ROUND_FUNCTION_PRECOMPILE_FORMAL_ADDRESS : list N :=
  Address_from_low_u64_be KECCAK256_ROUND_FUNCTION_PRECOMPILE_ADDRESS.   (* system_params.rs:117-118 *)
Definition SHA256_ROUND_FUNCTION_PRECOMPILE_FORMAL_ADDRESS : list N :=
  Address_from_low_u64_be SHA256_ROUND_FUNCTION_PRECOMPILE_ADDRESS.      (* system_params.rs:119-120 *)
Definition ECRECOVER_INNER_FUNCTION_PRECOMPILE_FORMAL_ADDRESS : list N :=
  Address_from_low_u64_be ECRECOVER_INNER_FUNCTION_PRECOMPILE_ADDRESS.   (* system_params.rs:121-122 *)
