(** * Decommitment rounds and collisions of code hashes

    Statements only: each proof is the lemma of the same name in [ProofsRounds]. *)

From Coq Require Import Arith NArith List Bool String Ascii.
From Verif Require Import Machine Operands OpcodeTrait Opcodes AllOpcodes Tables Decoding Abi
  VersionedHash Constants PricingGen SpecIsa SpecCodec SpecAbi SpecPricing SpecGenerator Sha256
  SpecSha SpecRounds ProofsRounds.
Import ListNotations.
Open Scope N_scope.

(** The blocks of a bytecode.  For an odd number of words all blocks hold code: two words each,
    and the last word with all of the padding.  For an even number the last block would hold no
    code. *)
Theorem C88_blocks :
  forall ws blocks, Forall (byte_array 32) ws -> len ws < 2 ^ 56 ->
    spec_blocks (List.concat ws) blocks ->
    (forall j, (2 * j + 1 < List.length ws)%nat -> code_block ws blocks j) /\
    (N.odd (len ws) = true ->
       2 * len blocks = len ws + 1 /\ last_block blocks (last ws []) 23 (len ws)) /\
    (N.even (len ws) = true ->
       2 * len blocks = len ws + 2 /\ last_block blocks [] 55 (len ws)).
Proof. exact pf_C88_blocks. Qed.
Print Assumptions C88_blocks.

(** What the charges pay for, with prices derived from any capacities: all rounds but half a
    round of each bytecode, and all rounds if no bytecode is too short. *)
Theorem C88_paid :
  forall P v, prices P v -> forall codes blocks, Forall2 rounds codes blocks ->
    let p := v "CODE_DECOMMITMENT_COST_PER_WORD_IN_ERGS"%string in
    let paid := cycles_per_code_decommitter P * (p * total codes) in
    2 * (ergs_per_circuit P * total blocks) <= 2 * paid + ergs_per_circuit P * len codes /\
    ((forall ws, In ws codes ->
        ergs_per_circuit P * (len ws + 1) <= 2 * cycles_per_code_decommitter P * (p * len ws)) ->
     ergs_per_circuit P * total blocks <= paid).
Proof. exact pf_C88_paid. Qed.
Print Assumptions C88_paid.

(** With the shipped constants exactly the bytecodes of at least five words pay for their rounds,
    and executions that decommit only such bytecodes for all circuits they fill. *)
Theorem C88_current :
  (forall ws blocks, rounds ws blocks ->
     (ERGS_PER_CIRCUIT * len blocks
      <= CYCLES_PER_CODE_DECOMMITTER * (ERGS_PER_CODE_WORD_DECOMMITTMENT * len ws)
      <-> 5 <= len ws)) /\
  (forall codes blocks, Forall2 rounds codes blocks -> (forall ws, In ws codes -> 5 <= len ws) ->
     ERGS_PER_CIRCUIT * (total blocks / CYCLES_PER_CODE_DECOMMITTER)
     <= ERGS_PER_CODE_WORD_DECOMMITTMENT * total codes).
Proof. exact pf_C88_current. Qed.
Print Assumptions C88_current.

(** Expected: every execution pays for the decommitter circuits it fills.  12100 bytecodes of one
    word fill one that costs 80000 ergs, and are charged 48400. *)
Theorem C88_unpaid_refuted :
  ~ (forall codes blocks, NoDup codes -> Forall2 rounds codes blocks ->
       ERGS_PER_CIRCUIT * (total blocks / CYCLES_PER_CODE_DECOMMITTER)
       <= ERGS_PER_CODE_WORD_DECOMMITTMENT * total codes).
Proof. exact pf_C88_unpaid_refuted. Qed.
Print Assumptions C88_unpaid_refuted.

(** Accepted bytecodes of one and of five words. *)
Example C88_example :
  (exists blocks, rounds [to_be_bytes 32 7] blocks /\ len blocks = 1) /\
  (exists blocks, rounds (repeat (to_be_bytes 32 7) 5) blocks /\ len blocks = 3 /\
     code_block (repeat (to_be_bytes 32 7) 5) blocks 1).
Proof. exact pf_C88_example. Qed.

(** Two accepted bytecodes with the same code hash have the same length, and are the same or show
    a collision in one compression step. *)
Theorem C89_collision :
  forall ws ws' blocks blocks' h, rounds ws blocks -> rounds ws' blocks' ->
    code_hash_for_mode EncodingModeProduction ws = Ok (Some h) ->
    code_hash_for_mode EncodingModeProduction ws' = Ok (Some h) ->
    len ws = len ws' /\ (ws = ws' \/ exists i, collides_at i blocks blocks').
Proof. exact pf_C89_collision. Qed.
Print Assumptions C89_collision.

(** Conversely the code hash of a bytecode depends on its words only through the chain: two
    accepted bytecodes of the same length with the same state after some block and the same blocks
    after it have the same code hash. *)
Theorem C89_converse :
  forall ws ws' blocks blocks' s0 s i, rounds ws blocks -> rounds ws' blocks' ->
    len ws = len ws' -> spec_initial s0 ->
    chained s0 (firstn i blocks) s -> chained s0 (firstn i blocks') s ->
    skipn i blocks = skipn i blocks' ->
    code_hash_for_mode EncodingModeProduction ws = code_hash_for_mode EncodingModeProduction ws'.
Proof. exact pf_C89_converse. Qed.
Print Assumptions C89_converse.

(** Two bytecodes with different hashes. *)
Example C89_example :
  accepted [to_be_bytes 32 7] /\ accepted [to_be_bytes 32 8] /\
  exists h h', code_hash_for_mode EncodingModeProduction [to_be_bytes 32 7] = Ok (Some h) /\
    code_hash_for_mode EncodingModeProduction [to_be_bytes 32 8] = Ok (Some h') /\ h <> h'.
Proof. exact pf_C89_example. Qed.
