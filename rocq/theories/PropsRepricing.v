(** * Opcode prices for other price constants (C83)

    Statements only: each proof is the lemma of the same name in [ProofsRepricing]. *)

From Coq Require Import Arith NArith List Bool String Ascii.
From Verif Require Import Machine Constants Operands OpcodeTrait Opcodes AllOpcodes Tables PricingGen
  Repricing SpecIsa SpecFamilies SpecCodec SpecPricing SpecGenerator SpecLayout SpecRepricing ProofsRepricing.
Import ListNotations.
Open Scope N_scope.

(** The price of every instruction for every choice of the constants, in both builds. *)
Theorem C83_price :
  forall P o, typed_constants P -> compiles P ->
    (charged P o < 2 ^ 32 ->
       forall bld, Opcode_ergs_price_at P bld o = Ok (N.max (charged P o) (floor_price P o))) /\
    (2 ^ 32 <= charged P o ->
       Opcode_ergs_price_at P Debug o = Panic /\
       Opcode_ergs_price_at P Release o
       = Ok (N.max (charged P o mod 2 ^ 32) (floor_price P o))).
Proof. exact pf_C83_price. Qed.
Print Assumptions C83_price.

(** Which choices of the constants compile, and what the derived constants are. *)
Theorem C83_compiles :
  forall P, typed_constants P ->
    (compiles P <->
       exists rich average floor depth,
         RICH_ADDRESSING_OPCODE_ERGS_at P = Ok rich /\ AVERAGE_OPCODE_ERGS_at P = Ok average /\
         MIN_STORAGE_WRITE_COST_at P = Ok floor /\ VM_MAX_STACK_DEPTH_at P = Ok depth) /\
    (compiles P ->
       RICH_ADDRESSING_OPCODE_ERGS_at P = Ok (vm_cycle P + 2 * ram_permutation P) /\
       AVERAGE_OPCODE_ERGS_at P = Ok (vm_cycle P + ram_permutation P) /\
       MIN_STORAGE_WRITE_COST_at P = Ok (floor_price P (Op_Log LogOpcode_StorageWrite)) /\
       VM_MAX_STACK_DEPTH_at P = Ok ((2 ^ 32 - 1) / call_like P + 80)) /\
    (forall x, AVERAGE_OPCODE_ERGS_at P = Ok x <->
       x = vm_cycle P + ram_permutation P /\ x < 2 ^ 32).
Proof. exact pf_C83_compiles. Qed.
Print Assumptions C83_compiles.

(** The price table, for every choice of the constants: with overflow checks it exists exactly
    if all sums fit, and then each entry is the price of the instruction there; without, it
    always exists. *)
Theorem C83_table :
  forall P bld, typed_constants P -> compiles P ->
    ((exists p, OPCODES_PRICES_at P bld = Ok p) <->
       bld = Release \/ forall o, charged P o < 2 ^ 32) /\
    (forall p, OPCODES_PRICES_at P bld = Ok p ->
       exists t, OPCODES_TABLE = Ok t /\ List.length p = List.length t /\
         forall i x, nth_error t i = Some x ->
           nth_error p i
           = Some (N.max (charged P (opcode x) mod 2 ^ 32) (floor_price P (opcode x)))).
Proof. exact pf_C83_table. Qed.
Print Assumptions C83_table.

(** Raising unit prices and floors, with the stipends as they are, never makes an instruction
    cheaper, as long as no sum overflows; and if no sum overflows for the higher unit prices,
    none does for the lower ones. *)
Theorem C83_monotone :
  (forall P P' price price', typed_constants P -> compiles P -> typed_constants P' -> compiles P' ->
     priced_by P Debug price -> priced_by P' Debug price' ->
     Forall2 N.le (unit_prices P) (unit_prices P') -> l1_message_min P <= l1_message_min P' ->
     storage_write_hasher_min P <= storage_write_hasher_min P' ->
     simulator_additive P - simulator_min_used P <= simulator_additive P' - simulator_min_used P' ->
     forall o, price o <= price' o) /\
  (forall P P', typed_constants P -> compiles P -> typed_constants P' -> compiles P' ->
     (exists price', priced_by P' Debug price') ->
     Forall2 N.le (unit_prices P) (unit_prices P') -> exists price, priced_by P Debug price).
Proof. exact pf_C83_monotone. Qed.
Print Assumptions C83_monotone.

(** Without overflow checks raising the price of a storage access can make a storage read
    free. *)
Theorem C83_wrap_refuted :
  exists P P', typed_constants P /\ compiles P /\ typed_constants P' /\ compiles P' /\
    Forall2 N.le (unit_prices P) (unit_prices P') /\
    Opcode_ergs_price_at P Release (Op_Log LogOpcode_StorageRead) = Ok 158 /\
    Opcode_ergs_price_at P' Release (Op_Log LogOpcode_StorageRead) = Ok 0 /\
    Opcode_ergs_price_at P' Debug (Op_Log LogOpcode_StorageRead) = Panic.
Proof. exact pf_C83_wrap_refuted. Qed.
Print Assumptions C83_wrap_refuted.

(** Whatever the constants, in both builds and even when the sums wrap around, a storage write
    is dearer than either stipend, so no history paid from one contains a storage write. *)
Theorem C83_stipends :
  forall P bld price, typed_constants P -> compiles P -> priced_by P bld price ->
    (2300 < price (Op_Log LogOpcode_StorageWrite) /\
     simulator_additive P - simulator_min_used P < price (Op_Log LogOpcode_StorageWrite)) /\
    (forall e l s, e <= 2300 \/ e <= simulator_additive P - simulator_min_used P ->
       paying_run price (vm_start e) l s -> ~ In (Some (Op_Log LogOpcode_StorageWrite)) l).
Proof. exact pf_C83_stipends. Qed.
Print Assumptions C83_stipends.

(** How deep the callstack gets for other constants, when the exported limit bounds it, and
    that it does whenever instructions are not free and a callstack item costs less than
    [2^16]. *)
Theorem C83_depth :
  forall P price limit, typed_constants P -> compiles P -> priced_by P Debug price ->
    VM_MAX_STACK_DEPTH_at P = Ok limit ->
    let call := price (Op_NearCall nearCallOpcode) in
    (forall e u,
       (forall l s, paying_run price (vm_start e) l s -> unpaid s <= u ->
          len (frames s) <= 1 + e / call + u) /\
       (exists l s, paying_run price (vm_start e) l s /\ unpaid s = u /\
          len (frames s) = 1 + e / call + u)) /\
    ((forall e l s, e <= 2 ^ 32 - 1 -> paying_run price (vm_start e) l s -> unpaid s <= 80 ->
        len (frames s) <= limit) <->
     1 + (2 ^ 32 - 1) / call <= (2 ^ 32 - 1) / call_like P) /\
    (0 < vm_cycle P + ram_permutation P -> call_like P < 2 ^ 16 ->
     forall e l s, e <= 2 ^ 32 - 1 -> paying_run price (vm_start e) l s -> unpaid s <= 80 ->
       len (frames s) <= limit).
Proof. exact pf_C83_depth. Qed.
Print Assumptions C83_depth.

(** A callstack item priced at [2^16] outgrows the exported limit. *)
Theorem C83_depth_refuted :
  exists P price limit, typed_constants P /\ compiles P /\ priced_by P Debug price /\
    VM_MAX_STACK_DEPTH_at P = Ok limit /\ 0 < vm_cycle P + ram_permutation P /\
    call_like P = 2 ^ 16 /\
    ~ (forall e l s, e <= 2 ^ 32 - 1 -> paying_run price (vm_start e) l s -> unpaid s <= 80 ->
         len (frames s) <= limit).
Proof. exact pf_C83_depth_refuted. Qed.
Print Assumptions C83_depth_refuted.

(** With the unit prices that the generator writes for any capacities, the instructions of any
    program pay for all circuit instances that their charges fill, of all six circuits
    together. *)
Theorem C83_circuits :
  forall Q v P price l, prices Q v -> typed_constants P -> compiles P -> priced_by P Debug price ->
    map (fun '(_, n) => v n) (charged_circuits Q) = firstn 6 (unit_prices P) ->
    ergs_per_circuit Q * filled_circuits Q l <= sum_over price l.
Proof. exact pf_C83_circuits. Qed.
Print Assumptions C83_circuits.

(** Hence a frame with [e] ergs cannot make the machine fill more circuit instances than those
    ergs, and the near calls it was not charged for, pay for. *)
Theorem C83_budget :
  forall Q v P price e l s, prices Q v -> typed_constants P -> compiles P ->
    priced_by P Debug price ->
    map (fun '(_, n) => v n) (charged_circuits Q) = firstn 6 (unit_prices P) ->
    paying_run price (vm_start e) l s ->
    ergs_per_circuit Q * filled_circuits Q (executed l)
    <= e + price (Op_NearCall nearCallOpcode) * unpaid s.
Proof. exact pf_C83_budget. Qed.
Print Assumptions C83_budget.

(** For any constants, the price covers the worst-case work of an instruction, but for one
    memory query when both operands are in memory; and the factor by which the work of a
    program can exceed what was paid is exactly that of such an instruction. *)
Theorem C83_work :
  forall P price, typed_constants P -> compiles P -> priced_by P Debug price ->
    (forall x, in_table x -> spec_is_invalid (opcode x) = false ->
       (both_in_memory x = false -> worst_work_at P x <= price (opcode x)) /\
       (both_in_memory x = true -> worst_work_at P x = price (opcode x) + ram_permutation P)) /\
    (forall p q,
       (forall l, Forall (fun x => in_table x /\ spec_is_invalid (opcode x) = false) l ->
          q * sum_over (worst_work_at P) l <= p * sum_over (fun x => price (opcode x)) l) <->
       q * (vm_cycle P + 3 * ram_permutation P) <= p * (vm_cycle P + 2 * ram_permutation P)).
Proof. exact pf_C83_work. Qed.
Print Assumptions C83_work.

(** The shipped constants give the prices of Opcodes.v in both builds; the prices of the units
    they consist of are these. *)
Theorem C83_current :
  typed_constants current_constants /\ compiles current_constants /\
  (forall bld, priced_by current_constants bld Opcode_ergs_price) /\
  (forall bld, OPCODES_PRICES_at current_constants bld = OPCODES_PRICES) /\
  VM_MAX_STACK_DEPTH_at current_constants = Ok VM_MAX_STACK_DEPTH /\
  unit_prices current_constants = [4; 1; 1; 2; 1; 1; 150; 250; 25; 100; 20] /\
  (forall s o s', paying_step Opcode_ergs_price s o s' <-> vm_step s o s').
Proof. exact pf_C83_current. Qed.
Print Assumptions C83_current.

(** The constants for the I/O of a storage write and of a message to L1 have no effect up to
    3486 and 156237; the shipped ones are 250 and 100. *)
Theorem C83_slack :
  forall w m bld, w < 2 ^ 32 - 15 -> m < 2 ^ 32 - 13 ->
    let P := mkPriceConstants VM_CYCLE_COST_IN_ERGS RAM_PERMUTATION_COST_IN_ERGS
               LOG_DEMUXER_COST_IN_ERGS STORAGE_SORTER_COST_IN_ERGS
               EVENTS_OR_L1_MESSAGES_SORTER_COST_IN_ERGS CODE_DECOMMITMENT_SORTER_COST_IN_ERGS
               L1_MESSAGE_MIN_COST_IN_ERGS STORAGE_WRITE_HASHER_MIN_COST_IN_ERGS
               STORAGE_READ_IO_PRICE w EVENT_IO_PRICE m CALL_LIKE_ERGS_COST
               MSG_VALUE_SIMULATOR_ADDITIVE_COST MSG_VALUE_SIMULATOR_MIN_USED_ERGS in
    Opcode_ergs_price_at P bld (Op_Log LogOpcode_StorageWrite) = Ok (N.max (w + 15) 3501) /\
    Opcode_ergs_price_at P bld (Op_Log LogOpcode_ToL1Message) = Ok (N.max (m + 13) 156250) /\
    (priced_by P bld Opcode_ergs_price <-> w <= 3486 /\ m <= 156237).
Proof. exact pf_C83_slack. Qed.
Print Assumptions C83_slack.

(** Doubled unit prices: they compile, every instruction has a price, and a program that reads
    storage, calls and adds pays for the circuits it fills. *)
Example C83_example :
  let P := mkPriceConstants 8 2 2 4 2 2 312500 0 300 500 50 200 40 75500 72000 in
  let l := repeat (Op_FarCall FarCallOpcode_Normal) 40 ++ repeat (Op_Add AddOpcode_Add) 60 in
  typed_constants P /\ compiles P /\
  priced_by P Debug (fun o => N.max (charged P o) (floor_price P o)) /\
  Opcode_ergs_price_at P Debug (Op_FarCall FarCallOpcode_Normal) = Ok 364 /\
  Opcode_ergs_price_at P Debug (Op_Log LogOpcode_StorageWrite) = Ok 3501 /\
  charged P (Op_Log LogOpcode_StorageWrite) = 530 /\
  Forall2 N.le (unit_prices current_constants) (unit_prices P) /\
  VM_MAX_STACK_DEPTH_at P = Ok 107374262 /\
  charged_units 0 l = 140 /\ charged_units 1 l = 160 /\ charged_units 5 l = 40 /\
  (exists v, prices current_parameters v /\
     map (fun '(_, n) => v n) (charged_circuits current_parameters)
     = firstn 6 (unit_prices current_constants)) /\
  let l' := repeat (Op_FarCall FarCallOpcode_Normal) 5 in
  paying_run Opcode_ergs_price (vm_start 910) (map Some l') (mkVm [0; 0; 0; 0; 0; 0] 5 5 0).
Proof. exact pf_C83_example. Qed.
