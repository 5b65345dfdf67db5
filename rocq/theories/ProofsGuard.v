(** * Proofs about what a machine executes (C96) *)

From Coq Require Import Arith NArith List Bool Lia.
From Verif Require Import Machine Constants Operands Opcodes AllOpcodes Tables Decoding
  SpecIsa SpecFamilies SpecCodec SpecGuard.
From Verif Require Import TableProofs2 ProofsCodec ProofsTables ProofsLayout.
Import ListNotations.
Open Scope N_scope.

Definition stopped (c : context) (o : Opcode) : bool :=
  spec_is_invalid o || (spec_kernel o && negb (in_kernel c)) || (spec_not_static o && is_static c)
  || (ergs_left c <? spec_price o).

Lemma stopped_spec c o : stopped c o = false <-> permitted c o.
Proof.
  unfold stopped, permitted. rewrite !orb_false_iff, !andb_false_iff, N.ltb_ge.
  destruct (spec_is_invalid o), (spec_kernel o), (spec_not_static o), (in_kernel c), (is_static c);
    cbn; intuition (try discriminate; auto).
Qed.

Lemma executes_eq c d :
  machine_executes c d
  = if stopped c (opcode (variant d)) then mask_into_panic d
    else if is_met c then d else mask_into_nop d.
Proof.
  unfold machine_executes, stopped.
  destruct (pf_C28_attributes (variant d)) as (-> & -> & -> & _).
  destruct (pf_C27_prices (variant d)) as (-> & _). rewrite negb_involutive. reflexivity.
Qed.

(** What is executed: a panic if the instruction is not permitted, a NOP if it is and its condition is
    not met, else the instruction itself; so never an instruction that the context forbids, and other
    than a panic nothing without the ergs. *)
Lemma pf_C96_executed :
  forall c d,
    (permitted c (opcode (variant d)) ->
       machine_executes c d = if is_met c then d else mask_into_nop d) /\
    (~ permitted c (opcode (variant d)) -> machine_executes c d = mask_into_panic d) /\
    (let o := opcode (variant (machine_executes c d)) in
     spec_is_invalid o = false /\
     (in_kernel c = false -> spec_kernel o = false) /\
     (is_static c = true -> spec_not_static o = false) /\
     (o <> Op_Ret RetOpcode_Panic -> spec_price (opcode (variant d)) <= ergs_left c)).
Proof.
  intros c d. rewrite executes_eq.
  destruct (stopped c (opcode (variant d))) eqn:S.
  - assert (NP : ~ permitted c (opcode (variant d))) by (rewrite <- stopped_spec, S; discriminate).
    split; [intros P; contradiction|]. split; [reflexivity|]. cbv zeta.
    change (opcode (variant (mask_into_panic d))) with (Op_Ret RetOpcode_Panic).
    repeat split. intros X. destruct (X eq_refl).
  - assert (P := proj1 (stopped_spec _ _) S). split; [reflexivity|]. split; [intros NP; contradiction|].
    cbv zeta. destruct P as (P1 & P2 & P3 & P4).
    destruct (is_met c).
    + split; [exact P1|]. split; [|split; [|intros _; exact P4]].
      * intros K. destruct (spec_kernel (opcode (variant d))); [|reflexivity].
        rewrite (P2 eq_refl) in K. discriminate K.
      * intros K. destruct (spec_not_static (opcode (variant d))); [|reflexivity].
        rewrite (P3 eq_refl) in K. discriminate K.
    + change (opcode (variant (mask_into_nop d))) with (Op_Nop nopOpcode).
      repeat split. intros _. exact P4.
Qed.

(** A circuit that works with the tables sees the properties of just what the machine executes, for
    every word of code. *)
Lemma pf_C96_circuit :
  forall m w c, exists d n first prices masks panic nop r,
    parse_preliminary_variant_and_absolute_number (mode_impl m) w
    = Ok (d, mkVariantMonotonicNumber n) /\
    total_description_bits_rounded_for_version DEFAULT_ISA_VERSION = Ok first /\
    OPCODES_PRICES = Ok prices /\ OPCODES_PROPS_INTEGER_BITMASKS = Ok masks /\
    PANIC_BITSPREAD_U64 = Ok panic /\ NOP_BITSPREAD_U64 = Ok nop /\
    circuit_properties c first prices masks panic nop n = Some r /\
    (forall bld, opcode_as_integer_bitmask bld (variant (machine_executes c d)) DEFAULT_ISA_VERSION
                 = Ok r).
Proof.
  intros m w c.
  destruct (pf_C63_tables m w) as (d & n & t & p & b & mm & D & _ & P & B & _ & _ & _ & NP & NB & _).
  destruct NB as (mask & NB & MB).
  destruct (pf_C24_bitspread d Debug) as (panic & nop & EP & EN & BP & BN).
  exists d, n, 48, p, b, panic, nop.
  assert (C : circuit_properties c 48 p b panic nop n
    = Some (if stopped c (opcode (variant d)) then panic else if is_met c then mask else nop)).
  { unfold circuit_properties, stopped. rewrite NP, NB. cbv zeta.
    change (48 + EXPLICIT_PANIC_FLAG_IDX) with 50.
    change (48 + KERNER_MODE_FLAG_IDX) with 48.
    change (48 + CAN_BE_USED_IN_STATIC_CONTEXT_FLAG_IDX) with 49.
    rewrite !MB. destruct (pf_C27_prices (variant d)) as (-> & _).
    change (spec_mask_bit (variant d) 50) with (spec_is_invalid (opcode (variant d))).
    change (spec_mask_bit (variant d) 48) with (spec_kernel (opcode (variant d))).
    change (spec_mask_bit (variant d) 49) with (negb (spec_not_static (opcode (variant d)))).
    rewrite negb_involutive. reflexivity. }
  eexists. split; [exact D|]. split; [rewrite rounded_bits_eq; reflexivity|]. split; [exact P|]. split; [exact B|]. split; [exact EP|].
  split; [exact EN|]. split; [exact C|]. intros bld. rewrite executes_eq.
  rewrite bitmask_eq in BP, BN |- *. change (DEFAULT_ISA_VERSION <=? 1) with true in *. cbn match in *.
  destruct (stopped c (opcode (variant d))); [exact BP|].
  destruct (is_met c); [|exact BN]. f_equal. apply N.bits_inj. intros i. rewrite MB. apply mask_bits.
Qed.

(** A storage write with enough ergs: as it is in a call that may write, a panic in a static one, a NOP
    if its condition is not met; and a panic without the ergs. *)
Example pf_C96_example :
  let x := mkOpcodeVariant (Op_Log LogOpcode_StorageWrite) RegOnly RegOnly (false, false) in
  let d := mkDecodedOpcode x Lt_ 1 2 0 0 0 0 in
  in_table x /\
  permitted (mkContext false false 3501 true) (opcode x) /\
  machine_executes (mkContext false false 3501 true) d = d /\
  machine_executes (mkContext false true 3501 true) d = mask_into_panic d /\
  machine_executes (mkContext false false 3501 false) d = mask_into_nop d /\
  machine_executes (mkContext true false 3500 true) d = mask_into_panic d.
Proof.
  cbv zeta. split; [apply CodecProofs2.in_table_wf; reflexivity|].
  split; [repeat split; discriminate|]. repeat split.
Qed.
