(** * Specification of the price file for arbitrary circuit capacities.  Definitions only. *)

From Coq Require Import NArith List Bool String Ascii.
From Verif Require Import Machine PricingGen SpecPricing SpecDisplay.
Import ListNotations.
Open Scope N_scope.

(** The metered circuits: the name of the unit price and the units one instance holds. *)
Definition metered (P : circuit_parameters) : list (string * N) :=
  [ ("VM_CYCLE_COST_IN_ERGS", cycles_per_vm_snapshot P);
    ("RAM_PERMUTATION_COST_IN_ERGS", cycles_per_ram_permutation P);
    ("CODE_DECOMMITMENT_COST_PER_WORD_IN_ERGS", 2 * cycles_per_code_decommitter P);
    ("STORAGE_APPLICATION_COST_IN_ERGS", cycles_per_storage_application P);
    ("CODE_DECOMMITTER_SORTER_COST_IN_ERGS", cycles_for_code_decommitter_sorter P);
    ("LOG_DEMUXER_COST_IN_ERGS", cycles_for_log_demuxer P);
    ("STORAGE_SORTER_COST_IN_ERGS", cycles_for_storage_sorter P);
    ("EVENTS_OR_L1_MESSAGES_SORTER_COST_IN_ERGS", cycles_for_events_or_l1_messages_sorter P);
    ("INITIAL_WRITES_PUBDATA_HASHER_COST_IN_ERGS", limit_for_initial_writes_pubdata_hasher P);
    ("REPEATED_WRITES_PUBDATA_HASHER_COST_IN_ERGS", limit_for_repeated_writes_pubdata_hasher P);
    ("CODE_DECOMMITMENT_SORTER_COST_IN_ERGS", cycles_for_code_decommitter_sorter P);
    ("KECCAK256_CIRCUIT_COST_IN_ERGS", cycles_per_keccak256_circuit P);
    ("SHA256_CIRCUIT_COST_IN_ERGS", cycles_per_sha256_circuit P);
    ("ECRECOVER_CIRCUIT_COST_IN_ERGS", cycles_per_ecrecover_circuit P) ]%string.

(** The single-instance circuits whose use the pubdata limit may bound already: the name of
    the floor price, the units the circuit holds, the pubdata bytes of a unit. *)
Definition pubdata_hashers (P : circuit_parameters) : list (string * (N * N)) :=
  [ ("INITIAL_WRITES_PUBDATA_HASHER_MIN_COST_IN_ERGS",
     (limit_for_initial_writes_pubdata_hasher P, initial_storage_write_pubdata_bytes P));
    ("REPEATED_WRITES_PUBDATA_HASHER_MIN_COST_IN_ERGS",
     (limit_for_repeated_writes_pubdata_hasher P, repeated_storage_write_pubdata_bytes P)) ]%string.

Definition L1_floor : string := "L1_MESSAGE_MIN_COST_IN_ERGS".
Definition write_floor : string := "STORAGE_WRITE_HASHER_MIN_COST_IN_ERGS".

(** All names in the file. *)
Definition price_names (P : circuit_parameters) : list string :=
  (map fst (metered P) ++ map fst (pubdata_hashers P) ++ [L1_floor; write_floor])%list.

(** Prices that follow from the parameters. *)
Definition prices (P : circuit_parameters) (v : string -> N) : Prop :=
  (forall n c, In (n, c) (metered P) -> ceiling_of (ergs_per_circuit P) c (v n)) /\
  ceiling_of (max_tx_ergs_limit P) (limit_for_l1_messages_merklizer P) (v L1_floor) /\
  (forall n l b, In (n, (l, b)) (pubdata_hashers P) ->
     (max_pubdata_per_block P <= l * b /\ v n = 0) \/
     (l * b < max_pubdata_per_block P /\ ceiling_of (max_tx_ergs_limit P) l (v n))) /\
  (exists n p, In (n, p) (pubdata_hashers P) /\ v write_floor = v n) /\
  (forall n p, In (n, p) (pubdata_hashers P) -> v n <= v write_floor).

(** Parameters of the source's types. *)
Definition typed_parameters (P : circuit_parameters) : Prop :=
  Forall (fun x => x < 2 ^ 32)
    [ cycles_per_vm_snapshot P; cycles_per_ram_permutation P; cycles_per_code_decommitter P;
      cycles_per_storage_application P; cycles_per_keccak256_circuit P;
      cycles_per_sha256_circuit P; cycles_per_ecrecover_circuit P;
      cycles_for_code_decommitter_sorter P; cycles_for_log_demuxer P;
      cycles_for_storage_sorter P; cycles_for_events_or_l1_messages_sorter P;
      limit_for_l1_messages_merklizer P; limit_for_initial_writes_pubdata_hasher P;
      limit_for_repeated_writes_pubdata_hasher P; ergs_per_circuit P; max_pubdata_per_block P;
      max_tx_ergs_limit P ] /\
  initial_storage_write_pubdata_bytes P < 2 ^ 64 /\
  repeated_storage_write_pubdata_bytes P < 2 ^ 64.

(** The pubdata sizes narrowed to 32 bits. *)
Definition narrowed (P : circuit_parameters) : circuit_parameters :=
  mkCircuitParameters (cycles_per_vm_snapshot P) (cycles_per_ram_permutation P)
    (cycles_per_code_decommitter P) (cycles_per_storage_application P)
    (cycles_per_keccak256_circuit P) (cycles_per_sha256_circuit P)
    (cycles_per_ecrecover_circuit P) (cycles_for_code_decommitter_sorter P)
    (cycles_for_log_demuxer P) (cycles_for_storage_sorter P)
    (cycles_for_events_or_l1_messages_sorter P) (limit_for_l1_messages_merklizer P)
    (limit_for_initial_writes_pubdata_hasher P) (limit_for_repeated_writes_pubdata_hasher P)
    (ergs_per_circuit P) (initial_storage_write_pubdata_bytes P mod 2 ^ 32)
    (max_pubdata_per_block P) (max_tx_ergs_limit P)
    (repeated_storage_write_pubdata_bytes P mod 2 ^ 32).

(** No capacity is zero and no intermediate result leaves [u32]. *)
Definition computable (P : circuit_parameters) : Prop :=
  (forall n c, In (n, c) (metered P) -> 0 < c /\ ergs_per_circuit P + c < 2 ^ 32) /\
  (0 < limit_for_l1_messages_merklizer P /\
   max_tx_ergs_limit P + limit_for_l1_messages_merklizer P < 2 ^ 32) /\
  (forall n l b, In (n, (l, b)) (pubdata_hashers P) ->
     l * b < 2 ^ 32 /\ (l * b < max_pubdata_per_block P -> max_tx_ergs_limit P + l < 2 ^ 32)).

(** The file, with the numeral [t n] for the constant named [n]. *)
Definition price_file (t : string -> string) : string :=
  let const n := line ("pub const " ++ n ++ ": u32 = " ++ t n ++ ";")%string in
  (line "// This file is auto-generated, do not edit it manually"
    ++ line "// Any changes to this file require system upgrade!"
    ++ line ""
    ++ const "VM_CYCLE_COST_IN_ERGS"
    ++ const "RAM_PERMUTATION_COST_IN_ERGS"
    ++ const "CODE_DECOMMITMENT_COST_PER_WORD_IN_ERGS"
    ++ const "STORAGE_APPLICATION_COST_IN_ERGS"
    ++ const "CODE_DECOMMITTER_SORTER_COST_IN_ERGS"
    ++ const "LOG_DEMUXER_COST_IN_ERGS"
    ++ const "STORAGE_SORTER_COST_IN_ERGS"
    ++ const "EVENTS_OR_L1_MESSAGES_SORTER_COST_IN_ERGS"
    ++ const "INITIAL_WRITES_PUBDATA_HASHER_COST_IN_ERGS"
    ++ const "REPEATED_WRITES_PUBDATA_HASHER_COST_IN_ERGS"
    ++ const "CODE_DECOMMITMENT_SORTER_COST_IN_ERGS"
    ++ line ""
    ++ line "// The following circuits are single-instance and so the provided prices are just minimal prices to preserve DDoS safety"
    ++ const "L1_MESSAGE_MIN_COST_IN_ERGS"
    ++ const "INITIAL_WRITES_PUBDATA_HASHER_MIN_COST_IN_ERGS"
    ++ const "REPEATED_WRITES_PUBDATA_HASHER_MIN_COST_IN_ERGS"
    ++ line ""
    ++ line "// Equals to max(INITIAL_WRITES_PUBDATA_HASHER_MIN_COST_IN_ERGS, REPEATED_WRITES_PUBDATA_HASHER_MIN_COST_IN_ERGS)"
    ++ const "STORAGE_WRITE_HASHER_MIN_COST_IN_ERGS"
    ++ line ""
    ++ line "// The following constants should not be used in the VM directly, but only in Solidity wrappers"
    ++ const "KECCAK256_CIRCUIT_COST_IN_ERGS"
    ++ const "SHA256_CIRCUIT_COST_IN_ERGS"
    ++ const "ECRECOVER_CIRCUIT_COST_IN_ERGS")%string.
