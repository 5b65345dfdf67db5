(** * Proofs about code that outlives a version of its instruction set. *)

From Coq Require Import Arith NArith Lia ZArith List Bool String.
From Verif Require Import Machine Constants Operands OpcodeTrait Opcodes AllOpcodes Tables Decoding
  SpecIsa SpecFamilies SpecCodec SpecSets SpecAnyTable.
From Coq Require Import ZifyBool ZifyNat ZifyN Permutation.
From Verif Require Import BitLemmas TableProofs TableProofs2 TableProofs3 CodecProofs CodecProofs2 ProofsTables
  ProofsSets ProofsAnyTable.
Import ListNotations.
Open Scope N_scope.

Lemma others_same iw w d d' :
  spec_equivalent (variant d) (variant d') -> other_fields iw w d -> other_fields iw w d' ->
  same_instruction d d'.
Proof.
  intros E (Hc & H0 & H1 & H2 & H3 & H4 & H5) (Hc' & H0' & H1' & H2' & H3' & H4' & H5').
  unfold same_instruction. split; [exact E|]. split; [congruence|].
  repeat split; congruence.
Qed.

Lemma equivalent_refl a : spec_equivalent a a.
Proof. unfold spec_equivalent. auto. Qed.

Lemma table_size I q b v x :
  11 < q -> synthesize_opcode_decoding_tables_of I q b 11 v = Ok x ->
  List.length x = 2048%nat /\ nth_error x 0 = Some spec_invalid.
Proof.
  intros Hq H. destruct (pf_C75_contents I q b 11 v x Hq H)
    as (vs & w & l & r & _ & _ & L & E & _ & Hd & _).
  change (2 ^ 11) with 2048 in L. split; [lia|].
  rewrite E. destruct r; [discriminate Hd|]. exact Hd.
Qed.

Lemma equivalent_invalid I q b u t x :
  11 < q -> synthesize_opcode_decoding_tables_of I q b 11 u = Ok t -> unambiguous I u ->
  In x t -> spec_equivalent x spec_invalid -> x = spec_invalid.
Proof.
  intros Hq H Un Hx E. destruct (pf_C75_contents I q b 11 u t Hq H)
    as (vs & w & l & r & U & El & _ & Et & _ & Hd & _ & _ & P).
  assert (Nl := Un vs w l U El). specialize (P Nl). rewrite Et in Hx.
  apply in_app_or in Hx as [Hx|Hx]; [|apply repeat_spec in Hx; exact Hx].
  assert (Hi : In spec_invalid r) by (destruct r as [|o r]; [discriminate Hd|]; injection Hd as ->; left; reflexivity).
  apply (Permutation_in _ P) in Hx. apply (Permutation_in _ P) in Hi.
  apply In_nth_error in Hx as [i Hx]. apply In_nth_error in Hi as [j Hj].
  assert (i = j) by (eapply Nl; eassumption). congruence.
Qed.

(** An entry of the older table stays where it is, the invalid one at least at the front. *)
Lemma entry_kept I p p' bld bld' u u' t t' n x :
  11 < p -> 11 < p' -> u <= u' ->
  synthesize_opcode_decoding_tables_of I p bld 11 u = Ok t ->
  synthesize_opcode_decoding_tables_of I p' bld' 11 u' = Ok t' ->
  first_index t x = Some n -> exists y, nth_error t' (N.to_nat n) = Some y /\ spec_equivalent x y.
Proof.
  intros Hp Hp' Hu T T' H. destruct (variant_dec x spec_invalid) as [->|Hx].
  - assert (n = 0).
    { destruct (N.eq_dec n 0) as [E|E]; [exact E|]. exfalso.
      apply first_index_Some in H as [_ H]. apply (H 0); [lia|].
      apply (table_size I p bld u t Hp T). }
    subst n. exists spec_invalid. split; [apply (table_size I p' bld' u' t' Hp' T')|].
    apply equivalent_refl.
  - apply first_index_Some in H as [H _].
    exact (pf_C75_stable I p p' bld bld' 11 11 u u' t t' Hu T T' _ _ H Hx).
Qed.

Lemma forward I p p' bld bld' u u' t t' m b d w :
  11 < p -> 11 < p' -> u <= u' ->
  synthesize_opcode_decoding_tables_of I p bld 11 u = Ok t ->
  synthesize_opcode_decoding_tables_of I p' bld' 11 u' = Ok t' ->
  typed (mode_imm_bits m) d -> encode_in m t b d = Ok w ->
  exists d' n, decode_in m t w = Ok (spec_wrap d, mkVariantMonotonicNumber n) /\
    decode_in m t' w = Ok (d', mkVariantMonotonicNumber n) /\
    same_instruction (spec_wrap d) d' /\
    (unambiguous I u -> unambiguous I u' -> forall b', encode_in m t' b' d' = Ok w).
Proof.
  intros Hp Hp' Hu T T' Ht H.
  destruct (table_size I p bld u t Hp T) as [L _].
  destruct (table_size I p' bld' u' t' Hp' T') as [L' Z'].
  assert (C := H). apply pf_C77_encode in C as (_ & _ & n & Hn & _ & E); [|exact Ht].
  assert (Hb : n < 2048) by (apply first_at_iff, first_bound in Hn; lia).
  destruct (wrap_typed _ _ Ht) as [Tw Rw].
  destruct (entry_kept I p p' bld bld' u u' t t' n (variant d) Hp Hp' Hu T T') as (y & Hy & Ey); [apply first_at_iff, Hn|].
  set (d' := mkDecodedOpcode y (condition (spec_wrap d)) (src0_reg_idx (spec_wrap d))
               (src1_reg_idx (spec_wrap d)) (dst0_reg_idx (spec_wrap d))
               (dst1_reg_idx (spec_wrap d)) (imm_0 (spec_wrap d)) (imm_1 (spec_wrap d))).
  assert (Sw : spec_word (mode_imm_bits m) n (spec_wrap d) = spec_word (mode_imm_bits m) n d')
    by reflexivity.
  assert (Td : typed (mode_imm_bits m) d') by exact Tw.
  assert (Rd : regs_in_range d') by exact Rw.
  exists d', n. split; [|split; [|split]].
  - rewrite E. apply decode_word; [lia|assumption..|apply Hn].
  - rewrite E, Sw. apply decode_word; [lia|assumption..|exact Hy].
  - unfold same_instruction. split; [exact Ey|]. repeat split; reflexivity.
  - intros Un Un' b'. assert (Nr := proj1 (pf_C77_synthesised I p' bld' u' t' Hp' T' Un')).
    apply pf_C77_encode; [exact Td|]. split; [exact Nr|].
    split; [intros _; exact Rd|]. exists n. split; [|split; [lia|]].
    + destruct (variant_dec y spec_invalid) as [->|Hi].
      * assert (Hd := equivalent_invalid I p bld u t _ Hp T Un (nth_error_In _ _ (proj1 Hn)) Ey).
        rewrite Hd in Hn.
        assert (n = 0).
        { destruct (N.eq_dec n 0) as [K|K]; [exact K|]. exfalso.
          apply (proj2 Hn 0); [lia|]. apply (table_size I p bld u t Hp T). }
        subst n. split; [exact Z'|]. intros j Hj. lia.
      * split; [exact Hy|]. intros j Hj K. apply Nr. exists j, n, y. auto.
    + rewrite E, (wrap_id d') by exact Rd. exact Sw.
Qed.

(** ** C78 *)

(** What was encoded for one version is decoded for every later one as the same instruction, with
    the same number, and encoding that gives the same word. *)
Lemma pf_C78_forward :
  forall I p p' bld bld' u u' t t', 11 < p -> 11 < p' -> u <= u' ->
    synthesize_opcode_decoding_tables_of I p bld 11 u = Ok t ->
    synthesize_opcode_decoding_tables_of I p' bld' 11 u' = Ok t' ->
    forall m b d w, typed (mode_imm_bits m) d -> encode_in m t b d = Ok w ->
      exists d' n, decode_in m t w = Ok (spec_wrap d, mkVariantMonotonicNumber n) /\
        decode_in m t' w = Ok (d', mkVariantMonotonicNumber n) /\
        same_instruction (spec_wrap d) d' /\
        (unambiguous I u -> unambiguous I u' -> forall b', encode_in m t' b' d' = Ok w).
Proof.
  intros I p p' bld bld' u u' t t' Hp Hp' Hu T T' m b d w.
  exact (forward I p p' bld bld' u u' t t' m b d w Hp Hp' Hu T T').
Qed.

(** Any word at all: where the older table has an instruction, the later one has the same.  So an
    older machine reads a newer program correctly or finds an invalid instruction. *)
Lemma pf_C78_words :
  forall I p p' bld bld' u u' t t', 11 < p -> 11 < p' -> u <= u' ->
    synthesize_opcode_decoding_tables_of I p bld 11 u = Ok t ->
    synthesize_opcode_decoding_tables_of I p' bld' 11 u' = Ok t' ->
    forall m w, exists d d' n,
      decode_in m t w = Ok (d, n) /\ decode_in m t' w = Ok (d', n) /\
      (variant d <> spec_invalid -> same_instruction d d').
Proof.
  intros I p p' bld bld' u u' t t' Hp Hp' Hu T T' m w.
  destruct (table_size I p bld u t Hp T) as [L _].
  destruct (table_size I p' bld' u' t' Hp' T') as [L' _].
  assert (B := bits_lt w 0 11). change (2 ^ 11) with 2048 in B.
  destruct (proj1 (pf_C77_decode m t w) ltac:(lia)) as (d & Hd & F).
  destruct (proj1 (pf_C77_decode m t' w) ltac:(lia)) as (d' & Hd' & F').
  apply fields_in_iff in F as [V F]. apply fields_in_iff in F' as [V' F'].
  exists d, d', (mkVariantMonotonicNumber (bits w 0 11)). split; [exact Hd|]. split; [exact Hd'|].
  intros Hi.
  destruct (pf_C75_stable I p p' bld bld' 11 11 u u' t t' Hu T T' _ _ V Hi) as (y & Hy & Ey).
  assert (y = variant d') by congruence. subst y. exact (others_same _ _ _ _ Ey F F').
Qed.

(** Whole programs, of any length. *)
Lemma pf_C78_program :
  forall I p p' bld bld' u u' t t', 11 < p -> 11 < p' -> u <= u' ->
    synthesize_opcode_decoding_tables_of I p bld 11 u = Ok t ->
    synthesize_opcode_decoding_tables_of I p' bld' 11 u' = Ok t' ->
    unambiguous I u -> unambiguous I u' ->
    forall m b program words,
      Forall (typed (mode_imm_bits m)) program -> Forall regs_in_range program ->
      Forall2 (fun d w => encode_in m t b d = Ok w) program words ->
      exists program',
        Forall2 same_instruction program program' /\
        Forall2 (fun w d' => exists n, decode_in m t' w = Ok (d', n)) words program' /\
        forall b', Forall2 (fun d' w => encode_in m t' b' d' = Ok w) program' words.
Proof.
  intros I p p' bld bld' u u' t t' Hp Hp' Hu T T' Un Un' m b program words Ht Hr H.
  induction H as [|d w ds ws H Hs IH]; [exists []; auto|].
  inversion Ht as [|? ? Ht1 Ht2]; subst. inversion Hr as [|? ? Hr1 Hr2]; subst.
  destruct (IH Ht2 Hr2) as (ds' & F1 & F2 & F3).
  destruct (pf_C78_forward I p p' bld bld' u u' t t' Hp Hp' Hu T T' m b d w Ht1 H)
    as (d' & n & _ & D & S & E).
  rewrite (wrap_id d Hr1) in S.
  exists (d' :: ds'). split; [constructor; assumption|].
  split; [constructor; [exists (mkVariantMonotonicNumber n); exact D|exact F2]|].
  intros b'. constructor; [apply E; assumption|apply F3].
Qed.

(** The two spellings of an instruction have the same circuit bitmask in every instruction set. *)
Lemma pf_C78_bitmask :
  forall I bld x y v, spec_equivalent x y ->
    opcode_as_integer_bitmask_of I bld x v = opcode_as_integer_bitmask_of I bld y v.
Proof.
  intros I bld [o s d f] [o' s' d' f'] v (E1 & E2 & E3 & E4). cbn in E1, E2, E3, E4. subst o' f' d'.
  assert (E : Operand_variant_idx s = Operand_variant_idx s').
  { destruct s as [|[]|[]], s' as [|[]|[]]; cbn in E4 |- *; congruence. }
  unfold opcode_as_integer_bitmask_of.
  cbn [opcode flags src0_operand_type dst0_operand_type]. rewrite E. reflexivity.
Qed.

Lemma synthesize_is b k v :
  synthesize_opcode_decoding_tables b k v
  = synthesize_opcode_decoding_tables_of current_set 64 b k v.
Proof. reflexivity. Qed.

(** The versions 0 and 1 of the source. *)
Lemma pf_C78_current :
  exists t0 t1,
    synthesize_opcode_decoding_tables Debug 11 0 = Ok t0 /\ OPCODES_TABLE = Ok t1 /\
    (forall m b d w, typed (mode_imm_bits m) d -> regs_in_range d -> encode_in m t0 b d = Ok w ->
       exists d' n, same_instruction d d' /\
         parse_preliminary_variant_and_absolute_number (mode_impl m) w = Ok (d', n) /\
         forall b', encode_as_integer (mode_impl m) b' d' = Ok w) /\
    (forall x, In x (spec_enumeration 0) -> In x t0).
Proof.
  destruct (pf_C77_current) as (t1 & T1 & L1 & N1 & C1).
  assert (S1 : synthesize_opcode_decoding_tables Debug 11 1 = Ok t1).
  { rewrite <- T1, OPCODES_TABLE_eq. apply synthesize_current. }
  destruct pf_C15_example as (t0 & t1' & S0 & _).
  assert (Un : forall v, v <= 1 -> unambiguous current_set v).
  { intros v Hv vs w l (rest & Er & F & _) El. apply Forall_app in F as [_ F].
    inversion F as [|? ? Hw _]; subst.
    destruct (proj1 (proj2 (proj2 (proj2 (proj2 pf_C75_current)))) w ltac:(lia)) as (l' & El' & Nl).
    assert (l' = l) by congruence. subst l'. exact Nl. }
  assert (U0 := Un 0 ltac:(lia)). assert (U1 := Un 1 ltac:(lia)).
  exists t0, t1. split; [exact S0|]. split; [exact T1|]. split.
  - intros m b d w Ht Hr H.
    rewrite synthesize_is in S0, S1.
    destruct (pf_C78_forward current_set 64 64 Debug Debug 0 1 t0 t1 ltac:(lia) ltac:(lia)
                ltac:(lia) S0 S1 m b d w Ht H) as (d' & n & _ & D & S & E).
    rewrite (wrap_id d Hr) in S. exists d', (mkVariantMonotonicNumber n).
    destruct (C1 m) as [C2 C3]. split; [exact S|]. split; [rewrite <- C2; exact D|].
    intros b'. rewrite <- C3. apply E; assumption.
  - intros x Hx.
    rewrite synthesize_is in S0. destruct (pf_C75_contents current_set 64 Debug 11 0 t0 ltac:(lia) S0)
      as (vs & w & l & r & U & El & _ & E & _ & _ & _ & _ & P).
    assert (w = 0).
    { destruct U as (rest & _ & F & _). apply Forall_app in F as [_ F]. inversion F. lia. }
    subst w. destruct (proj1 (proj2 (proj2 (proj2 (proj2 pf_C75_current)))) 0 ltac:(lia))
      as (l' & El' & Nl). assert (l' = l) by congruence. subst l'.
    change (all_variants_in_version 0 = Ok l) in El. rewrite enumeration_0 in El.
    injection El as <-. rewrite E. apply in_or_app. left.
    eapply Permutation_in; [apply Permutation_sym, P, Nl|exact Hx].
Qed.

Lemma inequivalent_check l :
  forallb (fun i => forallb (fun j => (i =? j)%nat ||
    negb (match nth_error l i, nth_error l j with
          | Some a, Some b => spec_equivalentb a b | _, _ => false end))
    (seq 0 (List.length l))) (seq 0 (List.length l)) = true -> inequivalent l.
Proof.
  intros H i j a b Ha Hb E. rewrite forallb_forall in H.
  assert (Hi : (i < List.length l)%nat) by (apply nth_error_Some; congruence).
  assert (Hj : (j < List.length l)%nat) by (apply nth_error_Some; congruence).
  specialize (H i ltac:(apply in_seq; lia)). rewrite forallb_forall in H.
  specialize (H j ltac:(apply in_seq; lia)). cbn beta in H. rewrite Ha, Hb in H.
  apply equivalentb_iff in E. rewrite E in H. cbn in H. rewrite orb_false_r in H.
  apply Nat.eqb_eq, H.
Qed.

Lemma toy_unambiguous v : v <= 1 -> unambiguous toy_set v.
Proof.
  intros Hv vs w l (rest & _ & F & _) El. apply Forall_app in F as [_ F].
  inversion F as [|? ? Hw _]; subst.
  assert (C : w = 0 \/ w = 1) by lia. apply inequivalent_check.
  destruct C as [-> | ->]; vm_compute in El; injection El as <-; vm_compute; reflexivity.
Qed.

(** In the toy set, version 1 lets the source of the second opcode be an immediate. *)
Example pf_C78_example :
  exists t0 t1,
    synthesize_opcode_decoding_tables_of toy_set 64 Debug 11 0 = Ok t0 /\
    synthesize_opcode_decoding_tables_of toy_set 64 Debug 11 1 = Ok t1 /\ unambiguous toy_set 0 /\ unambiguous toy_set 1 /\
    let old := mkDecodedOpcode
                 (mkOpcodeVariant (Op_Ret RetOpcode_Ok) RegOnly RegOnly (false, false))
                 Lt_ 1 2 3 4 5 6 in
    let new := mkDecodedOpcode
                 (mkOpcodeVariant (Op_Ret RetOpcode_Ok) (RegOrImm RI_UseRegOnly) RegOnly
                    (false, false)) Lt_ 1 2 3 4 5 6 in
    exists w, encode_in ProductionMode t0 Debug old = Ok w /\
      decode_in ProductionMode t1 w = Ok (new, mkVariantMonotonicNumber 1) /\
      encode_in ProductionMode t1 Debug old = Panic /\
      encode_in ProductionMode t1 Debug new = Ok w.
Proof.
  destruct (synthesize_opcode_decoding_tables_of toy_set 64 Debug 11 0) as [t0|] eqn:H0;
    [|vm_compute in H0; discriminate H0].
  destruct (synthesize_opcode_decoding_tables_of toy_set 64 Debug 11 1) as [t1|] eqn:H1;
    [|vm_compute in H1; discriminate H1].
  exists t0, t1. split; [reflexivity|]. split; [reflexivity|].
  split; [apply toy_unambiguous; lia|]. split; [apply toy_unambiguous; lia|].
  vm_compute in H0, H1. injection H0 as <-. injection H1 as <-.
  intros old new. eexists. split; [vm_compute; reflexivity|]. vm_compute. auto.
Qed.
