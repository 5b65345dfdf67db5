(** * Specification of the opcode prices for arbitrary price constants.  Definitions only. *)

From Coq Require Import NArith List Bool String.
From Verif Require Import Machine Constants Operands Opcodes AllOpcodes Tables PricingGen Repricing
  SpecPricing SpecGenerator SpecLayout.
Import ListNotations.
Open Scope N_scope.

(** What an instruction is charged for, and how often: cycles, memory queries, log entries to
    route, storage entries to sort, events to sort, decommitments to sort; a storage access,
    a storage write, an event, a message to L1; a callstack item. *)
Definition charges (o : Opcode) : list N :=
  match o with
  | Op_Nop _ | Op_Add _ | Op_Sub _ | Op_Mul _ | Op_Div _ | Op_Jump _
  | Op_Shift _ | Op_Binop _ | Op_Ptr _      => [1; 2;  0; 0; 0; 0;  0; 0; 0; 0;  0]
  | Op_Context _ | Op_Ret _                 => [1; 1;  0; 0; 0; 0;  0; 0; 0; 0;  0]
  | Op_NearCall _                           => [1; 1;  0; 0; 0; 0;  0; 0; 0; 0;  1]
  | Op_FarCall _                            => [2; 1;  0; 1; 0; 1;  1; 0; 0; 0;  1]
  | Op_Log LogOpcode_StorageRead            => [1; 1;  1; 1; 0; 0;  1; 0; 0; 0;  0]
  | Op_Log LogOpcode_StorageWrite           => [2; 1;  2; 2; 0; 0;  0; 1; 0; 0;  0]
  | Op_Log LogOpcode_Event                  => [2; 1;  2; 0; 2; 0;  0; 0; 1; 0;  0]
  | Op_Log LogOpcode_ToL1Message            => [2; 1;  2; 0; 2; 0;  0; 0; 0; 1;  0]
  | Op_Log LogOpcode_PrecompileCall         => [1; 1;  1; 0; 0; 0;  0; 0; 0; 0;  0]
  | Op_UMA UMAOpcode_HeapWrite
  | Op_UMA UMAOpcode_AuxHeapWrite           => [2; 5;  0; 0; 0; 0;  0; 0; 0; 0;  0]
  | Op_UMA _                                => [1; 3;  0; 0; 0; 0;  0; 0; 0; 0;  0]
  | Op_Invalid _                            => []
  end.

Definition unit_prices (P : price_constants) : list N :=
  [ vm_cycle P; ram_permutation P; log_demuxer P; storage_sorter P; events_sorter P;
    decommitment_sorter P; storage_read_io P; storage_write_io P; event_io P; l1_message_io P;
    call_like P ].

Definition dot (a b : list N) : N :=
  fold_right (fun '(x, y) s => x * y + s) 0 (combine a b).

(** The exact sum of the charges. *)
Definition charged (P : price_constants) (o : Opcode) : N := dot (charges o) (unit_prices P).

(** The least price of an instruction, whatever it is charged for. *)
Definition floor_price (P : price_constants) (o : Opcode) : N :=
  match o with
  | Op_Log LogOpcode_StorageWrite =>
      N.max 2301 (N.max (simulator_additive P - simulator_min_used P + 1)
                        (storage_write_hasher_min P))
  | Op_Log LogOpcode_ToL1Message => l1_message_min P
  | Op_Invalid _ => 2 ^ 32 - 1
  | _ => 0
  end.

(** Constants of the type [u32]. *)
Definition typed_constants (P : price_constants) : Prop :=
  Forall (fun x => x < 2 ^ 32)
    (unit_prices P ++ [ l1_message_min P; storage_write_hasher_min P; simulator_additive P;
                        simulator_min_used P ]).

(** The derived constants can be evaluated, without which the crate does not compile. *)
Definition compiles (P : price_constants) : Prop :=
  vm_cycle P + 2 * ram_permutation P < 2 ^ 32 /\
  simulator_min_used P <= simulator_additive P /\
  simulator_additive P - simulator_min_used P + 1 < 2 ^ 32 /\
  0 < call_like P /\
  (2 ^ 32 - 1) / call_like P + 80 < 2 ^ 32.

(** Every instruction has a price in a build. *)
Definition priced_by (P : price_constants) (bld : build) (price : Opcode -> N) : Prop :=
  forall o, Opcode_ergs_price_at P bld o = Ok (price o).

(** The paying machine of SpecPricing.v with other prices. *)
Inductive paying_step (price : Opcode -> N) : vm -> option Opcode -> vm -> Prop :=
| pay_plain o f f' r c k u :
    keeps_frame o = true -> f' + price o <= f ->
    paying_step price (mkVm (f :: r) c k u) (Some o) (mkVm (f' :: r) (c + 1) k u)
| pay_near i f f' p r c k u :
    f' + p + price (Op_NearCall i) <= f ->
    paying_step price (mkVm (f :: r) c k u) (Some (Op_NearCall i))
      (mkVm (p :: f' :: r) (c + 1) k u)
| pay_far i f f' p r c k u :
    f' + p + price (Op_FarCall i) <= f ->
    paying_step price (mkVm (f :: r) c k u) (Some (Op_FarCall i))
      (mkVm (p :: f' :: r) (c + 1) (k + 1) u)
| pay_ret i f g g' r c k u :
    price (Op_Ret i) <= f -> g' + price (Op_Ret i) <= g + f ->
    paying_step price (mkVm (f :: g :: r) c k u) (Some (Op_Ret i)) (mkVm (g' :: r) (c + 1) k u)
| pay_exit i f c k u :
    price (Op_Ret i) <= f ->
    paying_step price (mkVm [f] c k u) (Some (Op_Ret i)) (mkVm [] (c + 1) k u)
| pay_panic f r c k u :
    paying_step price (mkVm (f :: r) c k u) None (mkVm r (c + 1) k u)
| pay_unpaid i f f' p r c k u :
    f' + p <= f ->
    paying_step price (mkVm (f :: r) c k u) (Some (Op_NearCall i))
      (mkVm (p :: f' :: r) (c + 1) k (u + 1)).

Inductive paying_run (price : Opcode -> N) : vm -> list (option Opcode) -> vm -> Prop :=
| paying_nil s : paying_run price s [] s
| paying_cons s o s' l s'' :
    paying_step price s o s' -> paying_run price s' l s'' -> paying_run price s (o :: l) s''.

Definition sum_over {A : Type} (f : A -> N) (l : list A) : N :=
  fold_right (fun x s => f x + s) 0 l.

(** How often the instructions of [l] are charged for the [n]-th item of [charges]. *)
Definition charged_units (n : nat) (l : list Opcode) : N :=
  sum_over (fun o => nth n (charges o) 0) l.

(** The circuits an instruction is charged for, in the order of [charges]: units one instance
    holds and the price constant of a unit. *)
Definition charged_circuits (Q : circuit_parameters) : list (N * string) :=
  [ (cycles_per_vm_snapshot Q, "VM_CYCLE_COST_IN_ERGS");
    (cycles_per_ram_permutation Q, "RAM_PERMUTATION_COST_IN_ERGS");
    (cycles_for_log_demuxer Q, "LOG_DEMUXER_COST_IN_ERGS");
    (cycles_for_storage_sorter Q, "STORAGE_SORTER_COST_IN_ERGS");
    (cycles_for_events_or_l1_messages_sorter Q, "EVENTS_OR_L1_MESSAGES_SORTER_COST_IN_ERGS");
    (cycles_for_code_decommitter_sorter Q, "CODE_DECOMMITMENT_SORTER_COST_IN_ERGS") ]%string.

(** The circuit instances that [l] fills completely. *)
Definition filled_circuits (Q : circuit_parameters) (l : list Opcode) : N :=
  sum_over (fun '(n, (c, _)) => charged_units n l / c)
    (combine (seq 0 6) (charged_circuits Q)).

(** The opcodes executed in a history. *)
Definition executed (l : list (option Opcode)) : list Opcode :=
  flat_map (fun o => match o with Some x => [x] | None => [] end) l.

(** Worst-case work of an instruction at other prices of a cycle and a memory query. *)
Definition worst_work_at (P : price_constants) (x : OpcodeVariant) : N :=
  vm_cycle P * cycles_of (opcode x)
  + ram_permutation P
    * (1 + operand_queries (src0_operand_type x) + operand_queries (dst0_operand_type x)
       + heap_queries (opcode x)).
