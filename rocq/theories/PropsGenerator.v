(** * The price generator for arbitrary capacities (C74)

    Statements only: each proof is the lemma of the same name in [ProofsGenerator]. *)

From Coq Require Import Arith NArith List Bool String Ascii.
From Verif Require Import Machine Constants PricingGen SpecPricing SpecDisplay SpecGenerator ProofsGenerator.
Import ListNotations.
Open Scope N_scope.

(** The file for any parameters whose prices can be computed, in both builds. *)
Theorem C74_text :
  forall P, typed_parameters P -> computable (narrowed P) ->
    exists (v : string -> N) (t : string -> string),
      prices (narrowed P) v /\
      (forall n, In n (price_names P) -> v n < 2 ^ 32 /\ decimal_text (v n) (t n)) /\
      (forall bld, generator_main_at P bld = Ok ("src/circuit_prices.rs"%string, price_file t)).
Proof. exact pf_C74_text. Qed.
Print Assumptions C74_text.

(** When the run panics: in a checked build exactly when the prices cannot be computed, in an
    unchecked one exactly when a capacity is zero as a [u32]. *)
Theorem C74_panics :
  forall P, typed_parameters P ->
    (generator_main_at P Debug = Panic <-> ~ computable (narrowed P)) /\
    (generator_main_at P Release = Panic <->
       limit_for_l1_messages_merklizer P = 0 \/
       exists n c, In (n, c) (metered P) /\ c mod 2 ^ 32 = 0).
Proof. exact pf_C74_panics. Qed.
Print Assumptions C74_panics.

(** The parameters determine the prices. *)
Theorem C74_unique :
  forall P v w, prices P v -> prices P w -> forall n, In n (price_names P) -> v n = w n.
Proof. exact pf_C74_unique. Qed.
Print Assumptions C74_unique.

(** What the prices guarantee, if every circuit holds at least its stated capacity. *)
Theorem C74_safety :
  forall P v, prices P v -> 0 < max_tx_ergs_limit P ->
    (forall n c, In (n, c) (metered P) ->
       forall p, (forall actual k, c <= actual -> ergs_per_circuit P * (k / actual) <= k * p)
                 <-> v n <= p) /\
    (forall k, k * v L1_floor <= max_tx_ergs_limit P -> k <= limit_for_l1_messages_merklizer P) /\
    (forall n l b, In (n, (l, b)) (pubdata_hashers P) -> 0 < b ->
       forall k, k * b <= max_pubdata_per_block P -> k * v write_floor <= max_tx_ergs_limit P ->
         k <= l).
Proof. exact pf_C74_safety. Qed.
Print Assumptions C74_safety.

(** The current capacities qualify, and the prices they determine are the committed ones. *)
Theorem C74_current :
  typed_parameters current_parameters /\ narrowed current_parameters = current_parameters /\
  computable current_parameters /\
  forall v, prices current_parameters v ->
    map v (price_names current_parameters)
    = [ VM_CYCLE_COST_IN_ERGS; RAM_PERMUTATION_COST_IN_ERGS;
        CODE_DECOMMITMENT_COST_PER_WORD_IN_ERGS; STORAGE_APPLICATION_COST_IN_ERGS;
        CODE_DECOMMITTER_SORTER_COST_IN_ERGS; LOG_DEMUXER_COST_IN_ERGS;
        STORAGE_SORTER_COST_IN_ERGS; EVENTS_OR_L1_MESSAGES_SORTER_COST_IN_ERGS;
        INITIAL_WRITES_PUBDATA_HASHER_COST_IN_ERGS; REPEATED_WRITES_PUBDATA_HASHER_COST_IN_ERGS;
        CODE_DECOMMITMENT_SORTER_COST_IN_ERGS; KECCAK256_CIRCUIT_COST_IN_ERGS;
        SHA256_CIRCUIT_COST_IN_ERGS; ECRECOVER_CIRCUIT_COST_IN_ERGS;
        INITIAL_WRITES_PUBDATA_HASHER_MIN_COST_IN_ERGS;
        REPEATED_WRITES_PUBDATA_HASHER_MIN_COST_IN_ERGS; L1_MESSAGE_MIN_COST_IN_ERGS;
        STORAGE_WRITE_HASHER_MIN_COST_IN_ERGS ].
Proof. exact pf_C74_current. Qed.
Print Assumptions C74_current.

(** Capacities under which the pubdata limit does not protect one of the write hashers. *)
Example C74_example :
  let P := mkCircuitParameters 20000 200000 10000 100 2000 10000 70 190000 100000 70000 80000 500
             2000 3000 80000 64 130000 80000000 40 in
  typed_parameters P /\ computable (narrowed P) /\
  (forall n, In n ["INITIAL_WRITES_PUBDATA_HASHER_MIN_COST_IN_ERGS"; write_floor]%string ->
     forall v, prices P v -> v n = 40000) /\
  generator_main_at
    (mkCircuitParameters 1 1 1 1 1 1 0 1 1 1 1 1 1 1 1 1 1 1 1) Release = Panic /\
  generator_main_at
    (mkCircuitParameters 1 1 1 1 1 1 1 1 1 1 1 1 1 1 (2 ^ 32 - 1) 1 1 1 1) Debug = Panic.
Proof. exact pf_C74_example. Qed.
