(** * Specification of what a machine executes.  Definitions only.

    The virtual machine and the circuit are not part of the crate; these are the checks its
    attributes, prices and masks are meant for. *)

From Coq Require Import NArith List Bool.
From Verif Require Import Machine Constants Operands Opcodes AllOpcodes Tables Decoding SpecIsa SpecFamilies.
Import ListNotations.
Open Scope N_scope.

(** Where an instruction is executed: in kernel mode, in a static context, with so many ergs left, and
    with its condition met. *)
Record context := mkContext { in_kernel : bool; is_static : bool; ergs_left : N; is_met : bool }.

(** A machine that asks the decoded instruction for its attributes and its price. *)
Definition machine_executes (c : context) (d : DecodedOpcode) : DecodedOpcode :=
  let x := variant d in
  if OpcodeVariant_is_explicit_panic x
     || (OpcodeVariant_requires_kernel_mode x && negb (in_kernel c))
     || (negb (OpcodeVariant_can_be_used_in_static_context x) && is_static c)
     || (ergs_left c <? OpcodeVariant_ergs_price x)
  then mask_into_panic d
  else if is_met c then d else mask_into_nop d.

(** A circuit that reads price and properties at the number of the instruction, and replaces the
    properties by those of a panic or a NOP; [first] is where the attribute bits begin. *)
Definition circuit_properties (c : context) (first : N) (prices masks : list N) (panic nop : N) (n : N) : option N :=
  match nth_error prices (N.to_nat n), nth_error masks (N.to_nat n) with
  | Some price, Some mask =>
      let flag := fun i => N.testbit mask (first + i) in
      Some (if flag EXPLICIT_PANIC_FLAG_IDX
               || (flag KERNER_MODE_FLAG_IDX && negb (in_kernel c))
               || (negb (flag CAN_BE_USED_IN_STATIC_CONTEXT_FLAG_IDX) && is_static c)
               || (ergs_left c <? price)
            then panic
            else if is_met c then mask else nop)
  | _, _ => None
  end.

(** The instruction may be executed as it is. *)
Definition permitted (c : context) (o : Opcode) : Prop :=
  spec_is_invalid o = false /\
  (spec_kernel o = true -> in_kernel c = true) /\
  (spec_not_static o = true -> is_static c = false) /\
  spec_price o <= ergs_left c.
