(** * Opcode prices for other price constants.  Definitions only.

    Opcodes.v has the prices for the constants the crate ships, as sums of natural numbers.
    Here the constants are an argument and the sums are done on a [u32].  Inside a [const] an
    overflow does not compile in either build, which is [Panic]; at run time it panics when
    overflow checks are on and wraps around when they are off.  Simplified: the compiler's
    lint [arithmetic_overflow] may reject an overflowing sum of constants before that. *)

From Verif Require Import Machine Constants Operands OpcodeTrait Opcodes AllOpcodes Tables.

(** The constants that enter opcode prices: circuit_prices.rs:4-5, 9-11, 14, 17, 22;
    lib.rs:245-248, 251; system_params.rs:78-79, 83.  Simplified: only those, as a record. *)
Record price_constants := mkPriceConstants {
  vm_cycle : N;
  ram_permutation : N;
  log_demuxer : N;
  storage_sorter : N;
  events_sorter : N;
  decommitment_sorter : N;
  l1_message_min : N;
  storage_write_hasher_min : N;
  storage_read_io : N;
  storage_write_io : N;
  event_io : N;
  l1_message_io : N;
  call_like : N;
  simulator_additive : N;
  simulator_min_used : N
}.

(** The shipped constants: circuit_prices.rs:4-5, 9-11, 14, 17, 22; lib.rs:245-248, 251;
    system_params.rs:78-79, 83 *)
Definition current_constants : price_constants := {|
  vm_cycle := VM_CYCLE_COST_IN_ERGS;
  ram_permutation := RAM_PERMUTATION_COST_IN_ERGS;
  log_demuxer := LOG_DEMUXER_COST_IN_ERGS;
  storage_sorter := STORAGE_SORTER_COST_IN_ERGS;
  events_sorter := EVENTS_OR_L1_MESSAGES_SORTER_COST_IN_ERGS;
  decommitment_sorter := CODE_DECOMMITMENT_SORTER_COST_IN_ERGS;
  l1_message_min := L1_MESSAGE_MIN_COST_IN_ERGS;
  storage_write_hasher_min := STORAGE_WRITE_HASHER_MIN_COST_IN_ERGS;
  storage_read_io := STORAGE_READ_IO_PRICE;
  storage_write_io := STORAGE_WRITE_IO_PRICE;
  event_io := EVENT_IO_PRICE;
  l1_message_io := L1_MESSAGE_IO_PRICE;
  call_like := CALL_LIKE_ERGS_COST;
  simulator_additive := MSG_VALUE_SIMULATOR_ADDITIVE_COST;
  simulator_min_used := MSG_VALUE_SIMULATOR_MIN_USED_ERGS
|}.

(** [a + b] and [k * a] on [u32], operands first.  Source: definitions/log.rs:61-95;
    definitions/far_call.rs:57-62; definitions/near_call.rs:31; definitions/uma.rs:71, 76. *)
Definition plus_u32 (bld : build) (a b : res N) : res N :=
  let* x := a in let* y := b in add_w bld 32 x y.
Definition times_u32 (bld : build) (k : N) (a : res N) : res N :=
  let* x := a in mul_w bld 32 k x.

(** lib.rs:239-240, a [const]: always checked *)
Definition RICH_ADDRESSING_OPCODE_ERGS_at (P : price_constants) : res N :=
  plus_u32 Debug (Ok (vm_cycle P)) (times_u32 Debug 2 (Ok (ram_permutation P))).

(** lib.rs:241, a [const]: always checked *)
Definition AVERAGE_OPCODE_ERGS_at (P : price_constants) : res N :=
  plus_u32 Debug (Ok (vm_cycle P)) (Ok (ram_permutation P)).

(** system_params.rs:15, a [const]: always checked *)
Definition VM_MAX_STACK_DEPTH_at (P : price_constants) : res N :=
  let* q := div_w VM_INITIAL_FRAME_ERGS (call_like P) in add_w Debug 32 q 80.

(** system_params.rs:97-100, a [const]: always checked *)
Definition MIN_STORAGE_WRITE_PRICE_FOR_REENTRANCY_PROTECTION_at (P : price_constants) : res N :=
  let* d := sub_w Debug 32 (simulator_additive P) (simulator_min_used P) in
  let* a := add_w Debug 32 d 1 in
  let* b := add_w Debug 32 2300 1 in
  Ok (max_u32 a b).

(** system_params.rs:103-106, a [const]: always checked *)
Definition MIN_STORAGE_WRITE_COST_at (P : price_constants) : res N :=
  let* a := MIN_STORAGE_WRITE_PRICE_FOR_REENTRANCY_PROTECTION_at P in
  Ok (max_u32 a (storage_write_hasher_min P)).

(** definitions/near_call.rs:30-32 *)
Definition NearCallOpcode_ergs_price_at (P : price_constants) (bld : build)
    (self : NearCallOpcode) : res N :=
  plus_u32 bld (AVERAGE_OPCODE_ERGS_at P) (Ok (call_like P)).

(** definitions/log.rs:58-97; [std::cmp::max] returns its second argument when equal *)
Definition LogOpcode_ergs_price_at (P : price_constants) (bld : build) (self : LogOpcode)
  : res N :=
  let plus := plus_u32 bld in
  let times := times_u32 bld in
  match self with
  | LogOpcode_StorageRead =>
      plus (plus (plus (plus (Ok (storage_read_io P)) (Ok (vm_cycle P)))
        (Ok (ram_permutation P))) (Ok (log_demuxer P))) (Ok (storage_sorter P))
  | LogOpcode_StorageWrite =>
      let* intrinsic :=
        plus (plus (plus (plus (Ok (storage_write_io P)) (times 2 (Ok (vm_cycle P))))
          (Ok (ram_permutation P))) (times 2 (Ok (log_demuxer P))))
          (times 2 (Ok (storage_sorter P))) in
      let* floor := MIN_STORAGE_WRITE_COST_at P in
      Ok (N.max intrinsic floor)
  | LogOpcode_ToL1Message =>
      let* intrinsic_cost :=
        plus (plus (plus (plus (Ok (l1_message_io P)) (times 2 (Ok (vm_cycle P))))
          (Ok (ram_permutation P))) (times 2 (Ok (log_demuxer P))))
          (times 2 (Ok (events_sorter P))) in
      Ok (N.max intrinsic_cost (l1_message_min P))
  | LogOpcode_Event =>
      plus (plus (plus (plus (Ok (event_io P)) (times 2 (Ok (vm_cycle P))))
        (Ok (ram_permutation P))) (times 2 (Ok (log_demuxer P))))
        (times 2 (Ok (events_sorter P)))
  | LogOpcode_PrecompileCall =>
      plus (plus (Ok (vm_cycle P)) (Ok (ram_permutation P))) (Ok (log_demuxer P))
  end.

(** definitions/far_call.rs:56-63 *)
Definition FarCallOpcode_ergs_price_at (P : price_constants) (bld : build)
    (self : FarCallOpcode) : res N :=
  let plus := plus_u32 bld in
  plus (plus (plus (plus (plus (times_u32 bld 2 (Ok (vm_cycle P))) (Ok (ram_permutation P)))
    (Ok (storage_read_io P))) (Ok (call_like P))) (Ok (storage_sorter P)))
    (Ok (decommitment_sorter P)).

(** definitions/uma.rs:65-79 *)
Definition UMAOpcode_ergs_price_at (P : price_constants) (bld : build) (self : UMAOpcode)
  : res N :=
  match self with
  | UMAOpcode_AuxHeapWrite | UMAOpcode_HeapWrite =>
      plus_u32 bld (times_u32 bld 2 (Ok (vm_cycle P))) (times_u32 bld 5 (Ok (ram_permutation P)))
  | UMAOpcode_HeapRead | UMAOpcode_AuxHeapRead | UMAOpcode_FatPointerRead =>
      plus_u32 bld (Ok (vm_cycle P)) (times_u32 bld 3 (Ok (ram_permutation P)))
  end.

(** definitions/all.rs:24-43, with the methods of the other families inlined:
    definitions/invalid_opcode.rs:30-32, noop.rs:30-32, add.rs:33-35, sub.rs:33-35,
    mul.rs:30-32, div.rs:30-32, jump.rs:30-32, context.rs:72-74, shift.rs:44-46,
    binop.rs:37-39, ptr.rs:47-49, ret.rs:44-46 *)
Definition Opcode_ergs_price_at (P : price_constants) (bld : build) (self : Opcode) : res N :=
  match self with
  | Op_Invalid _ => Ok INVALID_OPCODE_ERGS
  | Op_Nop _ => RICH_ADDRESSING_OPCODE_ERGS_at P
  | Op_Add _ => RICH_ADDRESSING_OPCODE_ERGS_at P
  | Op_Sub _ => RICH_ADDRESSING_OPCODE_ERGS_at P
  | Op_Mul _ => RICH_ADDRESSING_OPCODE_ERGS_at P
  | Op_Div _ => RICH_ADDRESSING_OPCODE_ERGS_at P
  | Op_Jump _ => RICH_ADDRESSING_OPCODE_ERGS_at P
  | Op_Context _ => AVERAGE_OPCODE_ERGS_at P
  | Op_Shift _ => RICH_ADDRESSING_OPCODE_ERGS_at P
  | Op_Binop _ => RICH_ADDRESSING_OPCODE_ERGS_at P
  | Op_Ptr _ => RICH_ADDRESSING_OPCODE_ERGS_at P
  | Op_NearCall inner => NearCallOpcode_ergs_price_at P bld inner
  | Op_Log inner => LogOpcode_ergs_price_at P bld inner
  | Op_FarCall inner => FarCallOpcode_ergs_price_at P bld inner
  | Op_Ret _ => AVERAGE_OPCODE_ERGS_at P
  | Op_UMA inner => UMAOpcode_ergs_price_at P bld inner
  end.

(** lib.rs:219-227, with definitions/mod.rs:132-134 *)
Definition OPCODES_PRICES_at (P : price_constants) (bld : build) : res (list N) :=
  let* table := OPCODES_TABLE in
  let* result :=
    for_each (fun result opcode_variant =>
      let* price := Opcode_ergs_price_at P bld (opcode opcode_variant) in
      Ok (result ++ [price])) table [] in
  into_array (2 ^ OPCODES_TABLE_WIDTH) result.
