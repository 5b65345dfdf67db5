(** * Specification of the instructions a machine comes by.  Definitions only. *)

From Coq Require Import NArith List Bool.
From Verif Require Import Machine Tables Decoding SpecIsa SpecCodec.
Import ListNotations.
Open Scope N_scope.

(** The instructions a machine comes by: decoded from any place of any code page, replaced by a
    panic or a NOP, or put together from the variant of one of them and any condition, registers
    and immediates of the right width. *)
Inductive obtained (m : mode) : DecodedOpcode -> Prop :=
| Ob_fetched : forall page pc w d n,
    (forall k, u256_typed (page k)) -> pc <= pc_max (PcOrImm (mode_impl m)) ->
    fetch m page pc = Ok w ->
    parse_preliminary_variant_and_absolute_number (mode_impl m) w = Ok (d, n) ->
    obtained m d
| Ob_panic : forall d, obtained m d -> obtained m (mask_into_panic d)
| Ob_nop : forall d, obtained m d -> obtained m (mask_into_nop d)
| Ob_patched : forall d c src0 src1 dst0 dst1 i j,
    obtained m d -> src0 < 16 -> src1 < 16 -> dst0 < 16 -> dst1 < 16 ->
    i < 2 ^ mode_imm_bits m -> j < 2 ^ mode_imm_bits m ->
    obtained m (mkDecodedOpcode (variant d) c src0 src1 dst0 dst1 i j).

(** [r] is not a panic. *)
Definition returns {A} (r : res A) : Prop := exists a, r = Ok a.
