(** * The price generator: src/circuit_pricing_generator/main.rs.  Definitions only. *)

From Coq Require Import DecimalString.
From Verif Require Import Machine Constants.

(** circuit_pricing_generator/main.rs:13-23 *)
Definition CYCLES_PER_VM_SNAPSHOT : N := 23000.
(** circuit_pricing_generator/main.rs:14 *)
Definition CYCLES_PER_RAM_PERMUTATION : N := 260000.
(** circuit_pricing_generator/main.rs:15 *)
Definition CYCLES_PER_CODE_DECOMMITTER : N := 12100.
(** circuit_pricing_generator/main.rs:16 *)
Definition CYCLES_PER_STORAGE_APPLICATION : N := 118.
(** circuit_pricing_generator/main.rs:17 *)
Definition CYCLES_PER_KECCAK256_CIRCUIT : N := 2050.
(** circuit_pricing_generator/main.rs:18 *)
Definition CYCLES_PER_SHA256_CIRCUIT : N := 11500.
(** circuit_pricing_generator/main.rs:19 *)
Definition CYCLES_PER_ECRECOVER_CIRCUIT : N := 72.
(** circuit_pricing_generator/main.rs:20 *)
Definition CYCLES_FOR_CODE_DECOMMITTER_SORTER : N := 192500.
(** circuit_pricing_generator/main.rs:21 *)
Definition CYCLES_FOR_LOG_DEMUXER : N := 101500.
(** circuit_pricing_generator/main.rs:22 *)
Definition CYCLES_FOR_STORAGE_SORTER : N := 79000.
(** circuit_pricing_generator/main.rs:23 *)
Definition CYCLES_FOR_EVENTS_OR_L1_MESSAGES_SORTER : N := 88000.

(** circuit_pricing_generator/main.rs:26-28 *)
Definition LIMIT_FOR_L1_MESSAGES_MERKLIZER : N := 512.
(** circuit_pricing_generator/main.rs:27 *)
Definition LIMIT_FOR_INITIAL_WRITES_PUBDATA_HASHER : N := 4600.
(** circuit_pricing_generator/main.rs:28 *)
Definition LIMIT_FOR_REPEATED_WRITES_PUBDATA_HASHER : N := 7400.

(** circuit_pricing_generator/main.rs:31-33, on [u32] *)
Definition ceil_div (bld : build) (a b : N) : res N :=
  let* s := add_w bld 32 a b in
  let* d := sub_w bld 32 s 1 in
  div_w d b.

(** [format!("{}", x)] of a [u32] (core library): decimal digits, no leading zeros.
    Source: circuit_pricing_generator/main.rs:36. *)
Definition fmt_u32 (x : N) : string := NilZero.string_of_uint (N.to_uint x).

(** The newline character of a Rust ["\n"]. Source:
    circuit_pricing_generator/main.rs:36, 40. *)
Definition nl : string := String (ascii_of_N 10) EmptyString.

(** circuit_pricing_generator/main.rs:35-37 *)
Definition ergs_constant (name : string) (value : N) : string :=
  ("pub const " ++ name ++ ": u32 = " ++ fmt_u32 value ++ ";" ++ nl)%string.

(** circuit_pricing_generator/main.rs:39-41 *)
Definition comment (c : string) : string := (nl ++ "// " ++ c ++ nl)%string.

(** [vec![..].concat()]. Source: circuit_pricing_generator/main.rs:43-49. *)
Definition concat_strings (l : list string) : string := String.concat EmptyString l.

(** circuit_pricing_generator/main.rs:43-53.  The effect, one file write, is the pair (path, contents); I/O errors
    are modelled in GeneratorIO.v. *)
Definition save_circiut_prices (prices filepath : string) : string * string :=
  (filepath,
   concat_strings
     [ ("// This file is auto-generated, do not edit it manually" ++ nl)%string;
       ("// Any changes to this file require system upgrade!" ++ nl ++ nl)%string;
       prices ]).

(** The constants [main] computes with.  Simplification: in the source they are global
    constants; here they are an argument, so that regenerating the file after a change of
    capacities is covered too.  [CYCLES_*] and [LIMIT_*]: circuit_pricing_generator/main.rs:13-28;
    the others are imported, main.rs:4-7.  The compiler may already reject an edit whose
    products overflow; the model has the run-time panic instead. *)
Record circuit_parameters := mkCircuitParameters {
  cycles_per_vm_snapshot : N;
  cycles_per_ram_permutation : N;
  cycles_per_code_decommitter : N;
  cycles_per_storage_application : N;
  cycles_per_keccak256_circuit : N;
  cycles_per_sha256_circuit : N;
  cycles_per_ecrecover_circuit : N;
  cycles_for_code_decommitter_sorter : N;
  cycles_for_log_demuxer : N;
  cycles_for_storage_sorter : N;
  cycles_for_events_or_l1_messages_sorter : N;
  limit_for_l1_messages_merklizer : N;
  limit_for_initial_writes_pubdata_hasher : N;
  limit_for_repeated_writes_pubdata_hasher : N;
  ergs_per_circuit : N;
  initial_storage_write_pubdata_bytes : N;
  max_pubdata_per_block : N;
  max_tx_ergs_limit : N;
  repeated_storage_write_pubdata_bytes : N }.

(** The constants of the source: circuit_pricing_generator/main.rs:4-7, 13-28. *)
Definition current_parameters : circuit_parameters := {|
  cycles_per_vm_snapshot := CYCLES_PER_VM_SNAPSHOT;
  cycles_per_ram_permutation := CYCLES_PER_RAM_PERMUTATION;
  cycles_per_code_decommitter := CYCLES_PER_CODE_DECOMMITTER;
  cycles_per_storage_application := CYCLES_PER_STORAGE_APPLICATION;
  cycles_per_keccak256_circuit := CYCLES_PER_KECCAK256_CIRCUIT;
  cycles_per_sha256_circuit := CYCLES_PER_SHA256_CIRCUIT;
  cycles_per_ecrecover_circuit := CYCLES_PER_ECRECOVER_CIRCUIT;
  cycles_for_code_decommitter_sorter := CYCLES_FOR_CODE_DECOMMITTER_SORTER;
  cycles_for_log_demuxer := CYCLES_FOR_LOG_DEMUXER;
  cycles_for_storage_sorter := CYCLES_FOR_STORAGE_SORTER;
  cycles_for_events_or_l1_messages_sorter := CYCLES_FOR_EVENTS_OR_L1_MESSAGES_SORTER;
  limit_for_l1_messages_merklizer := LIMIT_FOR_L1_MESSAGES_MERKLIZER;
  limit_for_initial_writes_pubdata_hasher := LIMIT_FOR_INITIAL_WRITES_PUBDATA_HASHER;
  limit_for_repeated_writes_pubdata_hasher := LIMIT_FOR_REPEATED_WRITES_PUBDATA_HASHER;
  ergs_per_circuit := ERGS_PER_CIRCUIT;
  initial_storage_write_pubdata_bytes := INITIAL_STORAGE_WRITE_PUBDATA_BYTES;
  max_pubdata_per_block := MAX_PUBDATA_PER_BLOCK;
  max_tx_ergs_limit := MAX_TX_ERGS_LIMIT;
  repeated_storage_write_pubdata_bytes := REPEATED_STORAGE_WRITE_PUBDATA_BYTES |}.

(** circuit_pricing_generator/main.rs:55-160 *)
Definition generator_main_at (P : circuit_parameters) (bld : build) : res (string * string) :=
  let* max_possible_initial_bytes_circuit_wise :=
    mul_w bld 32 (limit_for_initial_writes_pubdata_hasher P)
      (as_u32 (initial_storage_write_pubdata_bytes P)) in
  let* min_price_for_initial_pubdata_write :=
    (if (max_pubdata_per_block P) <=? max_possible_initial_bytes_circuit_wise then Ok 0
     else ceil_div bld (max_tx_ergs_limit P) (limit_for_initial_writes_pubdata_hasher P)) in
  let* max_possible_repeated_bytes_circuit_wise :=
    mul_w bld 32 (limit_for_repeated_writes_pubdata_hasher P)
      (as_u32 (repeated_storage_write_pubdata_bytes P)) in
  let* min_price_for_repeated_pubdata_write :=
    (if (max_pubdata_per_block P) <=? max_possible_repeated_bytes_circuit_wise then Ok 0
     else ceil_div bld (max_tx_ergs_limit P) (limit_for_repeated_writes_pubdata_hasher P)) in
  let* vm_cycle := ceil_div bld (ergs_per_circuit P) (cycles_per_vm_snapshot P) in
  let* ram := ceil_div bld (ergs_per_circuit P) (cycles_per_ram_permutation P) in
  let* two_decommitter := mul_w bld 32 2 (cycles_per_code_decommitter P) in
  let* decommitment := ceil_div bld (ergs_per_circuit P) two_decommitter in
  let* storage_application := ceil_div bld (ergs_per_circuit P) (cycles_per_storage_application P) in
  let* decommitter_sorter := ceil_div bld (ergs_per_circuit P) (cycles_for_code_decommitter_sorter P) in
  let* demuxer := ceil_div bld (ergs_per_circuit P) (cycles_for_log_demuxer P) in
  let* storage_sorter := ceil_div bld (ergs_per_circuit P) (cycles_for_storage_sorter P) in
  let* events_sorter := ceil_div bld (ergs_per_circuit P) (cycles_for_events_or_l1_messages_sorter P) in
  let* initial_hasher := ceil_div bld (ergs_per_circuit P) (limit_for_initial_writes_pubdata_hasher P) in
  let* repeated_hasher :=
    ceil_div bld (ergs_per_circuit P) (limit_for_repeated_writes_pubdata_hasher P) in
  let* decommitment_sorter :=
    ceil_div bld (ergs_per_circuit P) (cycles_for_code_decommitter_sorter P) in
  let* l1_message := ceil_div bld (max_tx_ergs_limit P) (limit_for_l1_messages_merklizer P) in
  let* keccak := ceil_div bld (ergs_per_circuit P) (cycles_per_keccak256_circuit P) in
  let* sha := ceil_div bld (ergs_per_circuit P) (cycles_per_sha256_circuit P) in
  let* ecrecover := ceil_div bld (ergs_per_circuit P) (cycles_per_ecrecover_circuit P) in
  let circuit_prices :=
    concat_strings
      [ ergs_constant "VM_CYCLE_COST_IN_ERGS" vm_cycle;
        ergs_constant "RAM_PERMUTATION_COST_IN_ERGS" ram;
        ergs_constant "CODE_DECOMMITMENT_COST_PER_WORD_IN_ERGS" decommitment;
        ergs_constant "STORAGE_APPLICATION_COST_IN_ERGS" storage_application;
        ergs_constant "CODE_DECOMMITTER_SORTER_COST_IN_ERGS" decommitter_sorter;
        ergs_constant "LOG_DEMUXER_COST_IN_ERGS" demuxer;
        ergs_constant "STORAGE_SORTER_COST_IN_ERGS" storage_sorter;
        ergs_constant "EVENTS_OR_L1_MESSAGES_SORTER_COST_IN_ERGS" events_sorter;
        ergs_constant "INITIAL_WRITES_PUBDATA_HASHER_COST_IN_ERGS" initial_hasher;
        ergs_constant "REPEATED_WRITES_PUBDATA_HASHER_COST_IN_ERGS" repeated_hasher;
        ergs_constant "CODE_DECOMMITMENT_SORTER_COST_IN_ERGS" decommitment_sorter;
        comment "The following circuits are single-instance and so the provided prices are just minimal prices to preserve DDoS safety";
        ergs_constant "L1_MESSAGE_MIN_COST_IN_ERGS" l1_message;
        ergs_constant "INITIAL_WRITES_PUBDATA_HASHER_MIN_COST_IN_ERGS"
          min_price_for_initial_pubdata_write;
        ergs_constant "REPEATED_WRITES_PUBDATA_HASHER_MIN_COST_IN_ERGS"
          min_price_for_repeated_pubdata_write;
        comment "Equals to max(INITIAL_WRITES_PUBDATA_HASHER_MIN_COST_IN_ERGS, REPEATED_WRITES_PUBDATA_HASHER_MIN_COST_IN_ERGS)";
        ergs_constant "STORAGE_WRITE_HASHER_MIN_COST_IN_ERGS"
          (N.max min_price_for_initial_pubdata_write min_price_for_repeated_pubdata_write);
        comment "The following constants should not be used in the VM directly, but only in Solidity wrappers";
        ergs_constant "KECCAK256_CIRCUIT_COST_IN_ERGS" keccak;
        ergs_constant "SHA256_CIRCUIT_COST_IN_ERGS" sha;
        ergs_constant "ECRECOVER_CIRCUIT_COST_IN_ERGS" ecrecover ] in
  Ok (save_circiut_prices circuit_prices "src/circuit_prices.rs").

(** circuit_pricing_generator/main.rs:55-160, with the constants of the source *)
Definition generator_main (bld : build) : res (string * string) :=
  generator_main_at current_parameters bld.
