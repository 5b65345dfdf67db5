(** * The circuits a run fills (C95)

    Statements only: each proof is the lemma of the same name in [ProofsCircuits]. *)

From Coq Require Import Arith NArith List Bool String Ascii.
From Verif Require Import Machine Constants Operands OpcodeTrait Opcodes AllOpcodes Tables PricingGen
  SpecIsa SpecFamilies SpecCodec SpecLayout SpecPricing SpecBudget SpecCircuits ProofsCircuits.
Import ListNotations.
Open Scope N_scope.

(** The instances that the cycles of a run fill, of all the circuits together, cost at least 104937
    ergs each, up to a last panic that is free; and not more can be said. *)
Theorem C95_filled :
  forall p,
    (forall e u l s, vm_run (vm_start e) (opcodes l) s -> unpaid s <= u -> Forall from_table l ->
       p * filled l <= e + Opcode_ergs_price (Op_NearCall nearCallOpcode) * u + 5)
    <-> p <= 104937.
Proof. exact pf_C95_filled. Qed.
Print Assumptions C95_filled.

(** A transaction fills at most 762 instances, fewer than its ergs limit is worth, and can fill that
    many. *)
Theorem C95_transaction :
  (forall l s, vm_run (vm_start MAX_TX_ERGS_LIMIT) (opcodes l) s -> unpaid s = 0 ->
     Forall from_table l -> filled l <= 762) /\
  (exists l s, vm_run (vm_start MAX_TX_ERGS_LIMIT) (opcodes l) s /\ unpaid s = 0 /\
     Forall from_table l /\ filled l = 762) /\
  762 * ERGS_PER_CIRCUIT < MAX_TX_ERGS_LIMIT.
Proof. exact pf_C95_transaction. Qed.
Print Assumptions C95_transaction.

(** Together with units of any circuit bought in addition, instances cost at least 80004 ergs each,
    which is more than a circuit is worth; and not more can be said.  With the limit of a transaction
    that is at most 999 of them, and so many can be filled. *)
Theorem C95_extra :
  (forall p,
     (forall e u l s xs, vm_run (vm_start e) (opcodes l) s -> unpaid s <= u -> Forall from_table l ->
        Forall (fun x => In (fst x) metered_circuits) xs ->
        p * (filled l + filled_extra xs)
        <= e + cost_extra xs + Opcode_ergs_price (Op_NearCall nearCallOpcode) * u + 5)
     <-> p <= 80004) /\
  ERGS_PER_CIRCUIT <= 80004 /\
  (forall e l s xs, vm_run (vm_start e) (opcodes l) s -> unpaid s = 0 -> Forall from_table l ->
     Forall (fun x => In (fst x) metered_circuits) xs -> e + cost_extra xs <= MAX_TX_ERGS_LIMIT ->
     filled l + filled_extra xs <= 999) /\
  (exists e l s xs, vm_run (vm_start e) (opcodes l) s /\ unpaid s = 0 /\ Forall from_table l /\
     Forall (fun x => In (fst x) metered_circuits) xs /\ e + cost_extra xs <= MAX_TX_ERGS_LIMIT /\
     filled l + filled_extra xs = 999).
Proof. exact pf_C95_extra. Qed.
Print Assumptions C95_extra.

(** Expected: so do the reads of storage with the circuits that look up slots.  False: the price of a
    read is less than that of a look-up, and reads of different slots fill 4290 instances. *)
Theorem C95_storage_refuted :
  In (CYCLES_PER_STORAGE_APPLICATION, STORAGE_APPLICATION_COST_IN_ERGS) metered_circuits /\
  Opcode_ergs_price (Op_Log LogOpcode_StorageRead) < STORAGE_APPLICATION_COST_IN_ERGS /\
  ~ (forall l s, vm_run (vm_start MAX_TX_ERGS_LIMIT) (opcodes l) s -> unpaid s = 0 ->
       Forall from_table l ->
       units slots_read l / CYCLES_PER_STORAGE_APPLICATION * ERGS_PER_CIRCUIT <= MAX_TX_ERGS_LIMIT) /\
  exists l s, vm_run (vm_start MAX_TX_ERGS_LIMIT) (opcodes l) s /\ unpaid s = 0 /\
    Forall from_table l /\ units slots_read l / CYCLES_PER_STORAGE_APPLICATION = 4290.
Proof. exact pf_C95_storage_refuted. Qed.
Print Assumptions C95_storage_refuted.

(** The capacities are those the prices are made from; and what some cycles take of them. *)
Example C95_example :
  Forall (fun c => exists q, In (fst c, q) metered_circuits) circuits /\
  (let add := mkOpcodeVariant (Op_Add AddOpcode_Add) (Full UseCodePage) (Full UseStackWithOffset)
                (false, false) in
   in_table add /\ map (fun c => snd c (Some add)) circuits = [1; 3; 0; 0; 0; 0]) /\
  (let call := mkOpcodeVariant (Op_FarCall FarCallOpcode_Normal) RegOnly RegOnly (false, false) in
   in_table call /\ map (fun c => snd c (Some call)) circuits = [2; 1; 1; 1; 0; 1]) /\
  map (fun c => snd c None) circuits = [1; 1; 0; 0; 0; 0].
Proof. exact pf_C95_example. Qed.
