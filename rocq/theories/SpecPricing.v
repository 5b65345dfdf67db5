(** * Specification vocabulary for prices, limits and the paying machine.  Definitions only. *)

From Coq Require Import NArith List Bool String Ascii.
From Verif Require Import Machine Constants Opcodes AllOpcodes PricingGen.
Import ListNotations.
Open Scope N_scope.

(** A line of text. *)
Definition line (s : string) : string := (s ++ String "010" EmptyString)%string.

(** The committed file /repo/src/circuit_prices.rs, character for character. *)
Definition committed_circuit_prices : string :=
  (line "// This file is auto-generated, do not edit it manually"
    ++ line "// Any changes to this file require system upgrade!"
    ++ line ""
    ++ line "pub const VM_CYCLE_COST_IN_ERGS: u32 = 4;"
    ++ line "pub const RAM_PERMUTATION_COST_IN_ERGS: u32 = 1;"
    ++ line "pub const CODE_DECOMMITMENT_COST_PER_WORD_IN_ERGS: u32 = 4;"
    ++ line "pub const STORAGE_APPLICATION_COST_IN_ERGS: u32 = 678;"
    ++ line "pub const CODE_DECOMMITTER_SORTER_COST_IN_ERGS: u32 = 1;"
    ++ line "pub const LOG_DEMUXER_COST_IN_ERGS: u32 = 1;"
    ++ line "pub const STORAGE_SORTER_COST_IN_ERGS: u32 = 2;"
    ++ line "pub const EVENTS_OR_L1_MESSAGES_SORTER_COST_IN_ERGS: u32 = 1;"
    ++ line "pub const INITIAL_WRITES_PUBDATA_HASHER_COST_IN_ERGS: u32 = 18;"
    ++ line "pub const REPEATED_WRITES_PUBDATA_HASHER_COST_IN_ERGS: u32 = 11;"
    ++ line "pub const CODE_DECOMMITMENT_SORTER_COST_IN_ERGS: u32 = 1;"
    ++ line ""
    ++ line "// The following circuits are single-instance and so the provided prices are just minimal prices to preserve DDoS safety"
    ++ line "pub const L1_MESSAGE_MIN_COST_IN_ERGS: u32 = 156250;"
    ++ line "pub const INITIAL_WRITES_PUBDATA_HASHER_MIN_COST_IN_ERGS: u32 = 0;"
    ++ line "pub const REPEATED_WRITES_PUBDATA_HASHER_MIN_COST_IN_ERGS: u32 = 0;"
    ++ line ""
    ++ line "// Equals to max(INITIAL_WRITES_PUBDATA_HASHER_MIN_COST_IN_ERGS, REPEATED_WRITES_PUBDATA_HASHER_MIN_COST_IN_ERGS)"
    ++ line "pub const STORAGE_WRITE_HASHER_MIN_COST_IN_ERGS: u32 = 0;"
    ++ line ""
    ++ line "// The following constants should not be used in the VM directly, but only in Solidity wrappers"
    ++ line "pub const KECCAK256_CIRCUIT_COST_IN_ERGS: u32 = 40;"
    ++ line "pub const SHA256_CIRCUIT_COST_IN_ERGS: u32 = 7;"
    ++ line "pub const ECRECOVER_CIRCUIT_COST_IN_ERGS: u32 = 1112;")%string.

(** [q] is the least number of units of size [b] that hold [a]. *)
Definition ceiling_of (a b q : N) : Prop :=
  a <= q * b /\ forall q', a <= q' * b -> q <= q'.

(** The metered circuits: units one circuit instance holds, and the price of a unit. *)
Definition metered_circuits : list (N * N) :=
  [ (23000, VM_CYCLE_COST_IN_ERGS);
    (260000, RAM_PERMUTATION_COST_IN_ERGS);
    (2 * 12100, CODE_DECOMMITMENT_COST_PER_WORD_IN_ERGS);
    (118, STORAGE_APPLICATION_COST_IN_ERGS);
    (192500, CODE_DECOMMITTER_SORTER_COST_IN_ERGS);
    (101500, LOG_DEMUXER_COST_IN_ERGS);
    (79000, STORAGE_SORTER_COST_IN_ERGS);
    (88000, EVENTS_OR_L1_MESSAGES_SORTER_COST_IN_ERGS);
    (4600, INITIAL_WRITES_PUBDATA_HASHER_COST_IN_ERGS);
    (7400, REPEATED_WRITES_PUBDATA_HASHER_COST_IN_ERGS);
    (192500, CODE_DECOMMITMENT_SORTER_COST_IN_ERGS);
    (2050, KECCAK256_CIRCUIT_COST_IN_ERGS);
    (11500, SHA256_CIRCUIT_COST_IN_ERGS);
    (72, ECRECOVER_CIRCUIT_COST_IN_ERGS) ].

(** ** The paying machine

    The virtual machine is not part of the crate; this is the charging discipline its
    constants are meant for.  A state is the ergs left in each frame (innermost first), the
    cycles executed, the far calls made and the unpaid internal calls made. *)
Record vm := mkVm { frames : list N; cycles : N; far_calls : N; unpaid : N }.

(** Opcodes that keep the current frame. *)
Definition keeps_frame (o : Opcode) : bool :=
  match o with
  | Op_NearCall _ | Op_FarCall _ | Op_Ret _ | Op_Invalid _ => false
  | _ => true
  end.

(** One cycle executing an opcode.  The price is the crate's; instructions may cost more
    (memory growth, decommitment), and a call may pass on any part of what remains. *)
Inductive vm_step : vm -> option Opcode -> vm -> Prop :=
| step_plain o f f' r c k u :
    keeps_frame o = true -> f' + Opcode_ergs_price o <= f ->
    vm_step (mkVm (f :: r) c k u) (Some o) (mkVm (f' :: r) (c + 1) k u)
| step_near i f f' p r c k u :
    f' + p + Opcode_ergs_price (Op_NearCall i) <= f ->
    vm_step (mkVm (f :: r) c k u) (Some (Op_NearCall i)) (mkVm (p :: f' :: r) (c + 1) k u)
| step_far i f f' p r c k u :
    f' + p + Opcode_ergs_price (Op_FarCall i) <= f ->
    vm_step (mkVm (f :: r) c k u) (Some (Op_FarCall i)) (mkVm (p :: f' :: r) (c + 1) (k + 1) u)
| step_ret i f g g' r c k u :
    Opcode_ergs_price (Op_Ret i) <= f -> g' + Opcode_ergs_price (Op_Ret i) <= g + f ->
    vm_step (mkVm (f :: g :: r) c k u) (Some (Op_Ret i)) (mkVm (g' :: r) (c + 1) k u)
| step_exit i f c k u :
    Opcode_ergs_price (Op_Ret i) <= f ->
    vm_step (mkVm [f] c k u) (Some (Op_Ret i)) (mkVm [] (c + 1) k u)
(* the instruction cannot be paid, or is invalid: the frame is lost *)
| step_panic f r c k u :
    vm_step (mkVm (f :: r) c k u) None (mkVm r (c + 1) k u)
(* a call made on the system's account *)
| step_unpaid i f f' p r c k u :
    f' + p <= f ->
    vm_step (mkVm (f :: r) c k u) (Some (Op_NearCall i)) (mkVm (p :: f' :: r) (c + 1) k (u + 1)).

(** The history of cycles between two states: the opcode executed, or [None] for a panic. *)
Inductive vm_run : vm -> list (option Opcode) -> vm -> Prop :=
| run_nil s : vm_run s [] s
| run_cons s o s' l s'' : vm_step s o s' -> vm_run s' l s'' -> vm_run s (o :: l) s''.

(** A fresh machine whose only frame has [e] ergs. *)
Definition vm_start (e : N) : vm := mkVm [e] 0 0 0.

(** Base page of the [k]-th far call, and the four pages of its frame. *)
Definition base_page (k : N) : N := STARTING_BASE_PAGE + NEW_MEMORY_PAGES_PER_FAR_CALL * k.
Definition page_group (base : N) : list N := [base; base + 1; base + 2; base + 3].
Definition bootloader_pages : list N :=
  [ BOOTLOADER_CALLDATA_PAGE; BOOTLOADER_CODE_PAGE; BOOTLOADER_STACK_PAGE; BOOTLOADER_HEAP_PAGE;
    BOOTLOADER_AUX_HEAP_PAGE ].

(** Timestamp at the start of cycle [c]. *)
Definition timestamp (c : N) : N := STARTING_TIMESTAMP + TIME_DELTA_PER_CYCLE * c.

(** ** System addresses *)
Definition system_addresses : list N :=
  [ ADDRESS_ECRECOVER; ADDRESS_SHA256; ADDRESS_RIPEMD160; ADDRESS_IDENTITY; ADDRESS_BOOTLOADER;
    ADDRESS_ACCOUNT_CODE_STORAGE; ADDRESS_NONCE_HOLDER; ADDRESS_KNOWN_CODES_STORAGE;
    ADDRESS_IMMUTABLE_SIMULATOR; ADDRESS_CONTRACT_DEPLOYER; ADDRESS_FORCE_DEPLOYER;
    ADDRESS_L1_MESSENGER; ADDRESS_MSG_VALUE; ADDRESS_ETH_TOKEN; ADDRESS_SYSTEM_CONTEXT;
    ADDRESS_BOOTLOADER_UTILITIES; ADDRESS_EVENT_WRITER; ADDRESS_KECCAK256 ].

(** [a] is the 20-byte address whose last bytes are the big-endian number [x]. *)
Definition address_of (x : N) (a : list N) : Prop :=
  List.length a = 20%nat /\ Forall (fun b => b < 256) a /\
  fold_left (fun acc b => acc * 256 + b) a 0 = x.
