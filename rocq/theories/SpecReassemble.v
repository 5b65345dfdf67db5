(** * Specification of reassembling a bytecode.  Definitions only. *)

From Coq Require Import NArith List Bool.
From Verif Require Import Machine Operands OpcodeTrait Opcodes AllOpcodes Tables Decoding
  SpecIsa SpecCodec SpecAbi.
Import ListNotations.
Open Scope N_scope.

(** The [i]-th instruction word of a code page, and the instruction it means. *)
Definition nth_word (m : mode) (page : N -> U256) (i : N) : res N :=
  integer_representaiton_from_u256 (mode_impl m) (page (i / mode_per_word m))
    (i mod mode_per_word m).
Definition nth_instruction (m : mode) (page : N -> U256) (i : N) (d : DecodedOpcode) : Prop :=
  exists w n, nth_word m page i = Ok w /\
    parse_preliminary_variant_and_absolute_number (mode_impl m) w = Ok (d, n).

(** [ws'] is what comes out of decoding every instruction of the first [n] words of a page,
    serializing it, and cutting the bytes into words again. *)
Definition reassembled (m : mode) (bld : build) (page : N -> U256) (n : nat)
    (ws' : list (list N)) : Prop :=
  Forall (byte_array 32) ws' /\
  exists chunks,
    List.concat ws' = List.concat chunks /\
    N.of_nat (List.length chunks) = mode_per_word m * N.of_nat n /\
    forall i b, nth_error chunks (N.to_nat i) = Some b ->
      exists d, nth_instruction m page i d /\ serialize_as_bytes (mode_impl m) bld d = Ok b.

(** An instruction word that the decoder reads without loss: no bit outside the fields, and an
    assigned number. *)
Definition lossless (m : mode) (w : N) : Prop :=
  bits w 11 2 = 0 /\ bits w 0 11 < spec_assigned /\
  match m with ProductionMode => True | TestingMode => bits w 96 32 = 0 end.
