(** * What an amount of ergs buys (C94)

    Statements only: each proof is the lemma of the same name in [ProofsBudget]. *)

From Coq Require Import Arith NArith List Bool String Ascii.
From Verif Require Import Machine Constants Opcodes AllOpcodes Repricing SpecPricing SpecRepricing SpecBudget ProofsBudget.
Import ListNotations.
Open Scope N_scope.

(** Whatever the prices: a sequence of cycles can be paid from [e] ergs, with at most [u] calls on the
    system's account, exactly if it is well nested and the sum of its prices is at most [e] and the
    price of the near calls that need not be paid.  How ergs are passed along does not matter. *)
Theorem C94_prices :
  forall price e u l,
    (exists s, paying_run price (vm_start e) l s /\ unpaid s <= u) <->
    nested 1 l /\
    total_at price l <= e + price (Op_NearCall nearCallOpcode) * N.min u (near_calls l).
Proof. exact pf_C94_prices. Qed.
Print Assumptions C94_prices.

(** With the prices of the crate. *)
Theorem C94_exact :
  forall e u l,
    (exists s, vm_run (vm_start e) l s /\ unpaid s <= u) <->
    nested 1 l /\
    total_price l <= e + Opcode_ergs_price (Op_NearCall nearCallOpcode) * N.min u (near_calls l).
Proof. exact pf_C94_exact. Qed.
Print Assumptions C94_exact.

(** How often an amount of ergs buys an instruction other than a return. *)
Theorem C94_times :
  forall o, (forall i, o <> Op_Ret i) -> (forall i, o <> Op_Invalid i) ->
  forall e,
    (forall l s, vm_run (vm_start e) l s -> unpaid s = 0 -> times o l <= e / Opcode_ergs_price o) /\
    (exists l s, vm_run (vm_start e) l s /\ unpaid s = 0 /\ times o l = e / Opcode_ergs_price o).
Proof. exact pf_C94_times. Qed.
Print Assumptions C94_times.

(** Returns need calls before them, except for the last. *)
Theorem C94_returns :
  forall i e,
    let most := (e + Opcode_ergs_price (Op_NearCall nearCallOpcode))
                / (Opcode_ergs_price (Op_Ret i) + Opcode_ergs_price (Op_NearCall nearCallOpcode)) in
    (forall l s, vm_run (vm_start e) l s -> unpaid s = 0 -> times (Op_Ret i) l <= most) /\
    (exists l s, vm_run (vm_start e) l s /\ unpaid s = 0 /\ times (Op_Ret i) l = most).
Proof. exact pf_C94_returns. Qed.
Print Assumptions C94_returns.

(** The instructions of a transaction: at most as many L1 messages as the circuit takes and the
    pubdata of a block holds, and that many can be sent. *)
Theorem C94_messages :
  (forall l s, vm_run (vm_start MAX_TX_ERGS_LIMIT) l s -> unpaid s = 0 ->
     times (Op_Log LogOpcode_ToL1Message) l <= 512 /\
     times (Op_Log LogOpcode_ToL1Message) l * L1_MESSAGE_PUBDATA_BYTES <= MAX_PUBDATA_PER_BLOCK) /\
  (exists l s, vm_run (vm_start MAX_TX_ERGS_LIMIT) l s /\ unpaid s = 0 /\
     times (Op_Log LogOpcode_ToL1Message) l = 512).
Proof. exact pf_C94_messages. Qed.
Print Assumptions C94_messages.

(** Expected: the storage writes of a transaction fit the pubdata of a block.  False: prices of
    instructions do not bound it, even for writes of existing slots. *)
Theorem C94_writes_refuted :
  ~ (forall l s, vm_run (vm_start MAX_TX_ERGS_LIMIT) l s -> unpaid s = 0 ->
       times (Op_Log LogOpcode_StorageWrite) l * REPEATED_STORAGE_WRITE_PUBDATA_BYTES
       <= MAX_PUBDATA_PER_BLOCK) /\
  exists l s, vm_run (vm_start MAX_TX_ERGS_LIMIT) l s /\ unpaid s = 0 /\
    times (Op_Log LogOpcode_StorageWrite) l = 22850.
Proof. exact pf_C94_writes_refuted. Qed.
Print Assumptions C94_writes_refuted.

(** A far call that panics, a near call and a return: 193 ergs pay for it if the near call is on the
    system's account, and 218 if not; at 10 ergs for every instruction it
    is 30. *)
Example C94_example :
  let l := [Some (Op_FarCall FarCallOpcode_Normal); None; Some (Op_NearCall nearCallOpcode);
            Some (Op_Ret RetOpcode_Ok); Some (Op_Add AddOpcode_Add)] in
  nested 1 l /\ ~ nested 1 [None; Some (Op_Add AddOpcode_Add)] /\
  (forall e, (exists s, vm_run (vm_start e) l s /\ unpaid s = 0) <-> 218 <= e) /\
  (forall e, (exists s, vm_run (vm_start e) l s /\ unpaid s <= 1) <-> 193 <= e) /\
  (forall e, (exists s, paying_run (fun _ => 10) (vm_start e) l s /\ unpaid s <= 1) <-> 30 <= e).
Proof. exact pf_C94_example. Qed.
