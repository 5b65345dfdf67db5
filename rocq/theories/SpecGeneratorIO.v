(** * Specification of interrupted runs of the generator.  Definitions only. *)

From Coq Require Import Arith NArith List Bool String Ascii.
From Verif Require Import Machine PricingGen GeneratorIO SpecPricing SpecDisplay SpecGenerator.
Import ListNotations.
Local Open Scope nat_scope.

(** An answer after which writing goes on, and the bytes it accounts for. *)
Definition goes_on (a : answer) : bool :=
  match a with Took (S _) => true | Interrupted => true | _ => false end.
Definition bytes (a : answer) : nat := match a with Took n => n | _ => 0 end.
Definition total (l : list answer) : nat := fold_right (fun a n => bytes a + n) 0 l.

(** [pre] is the first [n] bytes of [s], or all of it. *)
Definition first_bytes (n : nat) (s pre : string) : Prop :=
  exists rest, s = (pre ++ rest)%string /\ String.length pre = Nat.min n (String.length s).

(** [s] has no character [c]. *)
Fixpoint free_of (c : ascii) (s : string) : Prop :=
  match s with EmptyString => True | String x r => x <> c /\ free_of c r end.

(** At the beginning of a line. *)
Definition line_start (before : string) : Prop :=
  before = EmptyString \/ exists b, before = line b.

(** A file declares the constant [name] with the value [x]. *)
Definition declares (file name : string) (x : N) : Prop :=
  exists before numeral after,
    file = (before ++ "pub const " ++ name ++ ": u32 = " ++ numeral ++ ";" ++ after)%string /\
    line_start before /\ free_of ":" name /\ free_of "010" name /\ decimal_text x numeral.

(** The constants in the order of the file. *)
Definition file_order : list string :=
  [ "VM_CYCLE_COST_IN_ERGS"; "RAM_PERMUTATION_COST_IN_ERGS";
    "CODE_DECOMMITMENT_COST_PER_WORD_IN_ERGS"; "STORAGE_APPLICATION_COST_IN_ERGS";
    "CODE_DECOMMITTER_SORTER_COST_IN_ERGS"; "LOG_DEMUXER_COST_IN_ERGS";
    "STORAGE_SORTER_COST_IN_ERGS"; "EVENTS_OR_L1_MESSAGES_SORTER_COST_IN_ERGS";
    "INITIAL_WRITES_PUBDATA_HASHER_COST_IN_ERGS"; "REPEATED_WRITES_PUBDATA_HASHER_COST_IN_ERGS";
    "CODE_DECOMMITMENT_SORTER_COST_IN_ERGS"; "L1_MESSAGE_MIN_COST_IN_ERGS";
    "INITIAL_WRITES_PUBDATA_HASHER_MIN_COST_IN_ERGS";
    "REPEATED_WRITES_PUBDATA_HASHER_MIN_COST_IN_ERGS"; "STORAGE_WRITE_HASHER_MIN_COST_IN_ERGS";
    "KECCAK256_CIRCUIT_COST_IN_ERGS"; "SHA256_CIRCUIT_COST_IN_ERGS";
    "ECRECOVER_CIRCUIT_COST_IN_ERGS" ]%string.

(** The constants without which the crate does not compile: lib.rs:14-17, system_params.rs:1,
    definitions/log.rs:3-5, definitions/far_call.rs:2-3, definitions/uma.rs:1. *)
Definition used_by_crate : list string :=
  [ "CODE_DECOMMITMENT_COST_PER_WORD_IN_ERGS"; "CODE_DECOMMITTER_SORTER_COST_IN_ERGS";
    "RAM_PERMUTATION_COST_IN_ERGS"; "VM_CYCLE_COST_IN_ERGS";
    "STORAGE_WRITE_HASHER_MIN_COST_IN_ERGS"; "EVENTS_OR_L1_MESSAGES_SORTER_COST_IN_ERGS";
    "L1_MESSAGE_MIN_COST_IN_ERGS"; "LOG_DEMUXER_COST_IN_ERGS"; "STORAGE_SORTER_COST_IN_ERGS";
    "CODE_DECOMMITMENT_SORTER_COST_IN_ERGS" ]%string.
