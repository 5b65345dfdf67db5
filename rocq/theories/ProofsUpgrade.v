(** * Proofs about upgrades of the version together with the width of the table. *)

From Coq Require Import Arith NArith Lia ZArith List Bool String.
From Verif Require Import Machine Constants Operands OpcodeTrait Opcodes AllOpcodes Tables Decoding
  Relayout SpecIsa SpecFamilies SpecCodec SpecSets SpecAnyTable SpecRelayout.
From Coq Require Import ZifyBool ZifyNat ZifyN Permutation.
From Verif Require Import BitLemmas TableProofs TableProofs2 TableProofs3 CodecProofs CodecProofs2
  ProofsTables ProofsSets ProofsAnyTable ProofsEvolve ProofsRelayout.
Import ListNotations.
Open Scope N_scope.

Lemma table_size_at I q b k v x :
  k < q -> synthesize_opcode_decoding_tables_of I q b k v = Ok x ->
  N.of_nat (List.length x) = 2 ^ k /\ nth_error x 0 = Some spec_invalid.
Proof.
  intros Hq H. destruct (pf_C75_contents I q b k v x Hq H)
    as (vs & w & l & r & _ & _ & L & E & _ & Hd & _).
  split; [exact L|]. rewrite E. destruct r; [discriminate Hd|]. exact Hd.
Qed.

Lemma table_distinct_at I q b k v x :
  k < q -> synthesize_opcode_decoding_tables_of I q b k v = Ok x -> unambiguous I v ->
  ~ spec_repeats x.
Proof.
  intros Hq H Un. destruct (pf_C75_contents I q b k v x Hq H)
    as (vs & w & l & r & Hu & El & _ & Et & _ & _ & _ & _ & Perm).
  assert (Ni := Un vs w l Hu El). specialize (Perm Ni).
  assert (Nd : NoDup r).
  { eapply Permutation_NoDup; [apply Permutation_sym, Perm|].
    apply inequivalent_iff in Ni. eapply NoDup_map_inv, Ni. }
  intros (i & j & y & Hij & Hx & Hy & Hn). rewrite Et in Hx, Hy.
  apply nth_pad in Hx; [|exact Hn]. apply nth_pad in Hy; [|exact Hn].
  assert (K : N.to_nat i = N.to_nat j); [|lia].
  apply (proj1 (NoDup_nth_error r) Nd); [apply nth_error_Some; congruence|congruence].
Qed.

Lemma equivalent_invalid_at I q b k u t x :
  k < q -> synthesize_opcode_decoding_tables_of I q b k u = Ok t -> unambiguous I u ->
  In x t -> spec_equivalent x spec_invalid -> x = spec_invalid.
Proof.
  intros Hq H Un Hx E. destruct (pf_C75_contents I q b k u t Hq H)
    as (vs & w & l & r & U & El & _ & Et & _ & Hd & _ & _ & P).
  assert (Nl := Un vs w l U El). specialize (P Nl). rewrite Et in Hx.
  apply in_app_or in Hx as [Hx|Hx]; [|apply repeat_spec in Hx; exact Hx].
  assert (Hi : In spec_invalid r) by (destruct r as [|o r]; [discriminate Hd|]; injection Hd as ->; left; reflexivity).
  apply (Permutation_in _ P) in Hx. apply (Permutation_in _ P) in Hi.
  apply In_nth_error in Hx as [i Hx]. apply In_nth_error in Hi as [j Hj].
  assert (i = j) by (eapply Nl; eassumption). congruence.
Qed.

Lemma entry_kept_at I p p' bld bld' k k' u u' t t' n x :
  k < p -> k' < p' -> u <= u' ->
  synthesize_opcode_decoding_tables_of I p bld k u = Ok t ->
  synthesize_opcode_decoding_tables_of I p' bld' k' u' = Ok t' ->
  first_at t x n -> exists y, nth_error t' (N.to_nat n) = Some y /\ spec_equivalent x y.
Proof.
  intros Hp Hp' Hu T T' H. destruct (variant_dec x spec_invalid) as [->|Hx].
  - assert (n = 0).
    { destruct (N.eq_dec n 0) as [E|E]; [exact E|]. exfalso.
      apply (proj2 H 0); [lia|]. apply (table_size_at I p bld k u t Hp T). }
    subst n. exists spec_invalid. split; [apply (table_size_at I p' bld' k' u' t' Hp' T')|].
    apply equivalent_refl.
  - exact (pf_C75_stable I p p' bld bld' k k' u u' t t' Hu T T' _ _ (proj1 H) Hx).
Qed.

Definition with_variant (y : OpcodeVariant) (d : DecodedOpcode) : DecodedOpcode :=
  mkDecodedOpcode y (condition d) (src0_reg_idx d) (src1_reg_idx d) (dst0_reg_idx d)
    (dst1_reg_idx d) (imm_0 d) (imm_1 d).

Lemma nth_bound {A} (t : list A) n x :
  nth_error t (N.to_nat n) = Some x -> n < N.of_nat (List.length t).
Proof. intros H. assert (N.to_nat n < List.length t)%nat by (apply nth_error_Some; congruence). lia. Qed.

(** ** C85 *)

(** What was encoded with the older table is decoded with the newer one, of whatever width, as
    the same instruction, with the same number, and encoding that gives the same word. *)
Lemma pf_C85_forward :
  forall I p p' bld bld' u u' t t' m L k,
    let L' := with_width k L in
    usable m L -> separate m L -> usable m L' -> separate m L' ->
    table_width L < p -> k < p' -> u <= u' ->
    synthesize_opcode_decoding_tables_of I p bld (table_width L) u = Ok t ->
    synthesize_opcode_decoding_tables_of I p' bld' k u' = Ok t' ->
    forall b d w, typed (mode_imm_bits m) d -> encode_at m L t b d = Ok w ->
      exists d' n, decode_at m L t w = Ok (spec_wrap d, mkVariantMonotonicNumber n) /\
        decode_at m L' t' w = Ok (d', mkVariantMonotonicNumber n) /\
        same_instruction (spec_wrap d) d' /\
        (unambiguous I u -> unambiguous I u' -> forall b', encode_at m L' t' b' d' = Ok w).
Proof.
  intros I p p' bld bld' u u' t t' m L k L' U S U' S' Hp Hp' Hu T T' b d w Ht H.
  destruct (table_size_at I p bld _ u t Hp T) as [Len Z].
  destruct (table_size_at I p' bld' _ u' t' Hp' T') as [Len' Z'].
  apply pf_C84_encode in H as (_ & _ & n & Hn & _ & E); [|assumption..].
  assert (Hb := nth_bound _ _ _ (proj1 Hn)).
  destruct (wrap_typed _ _ Ht) as [Tw Rw].
  destruct (entry_kept_at I p p' bld bld' _ _ u u' t t' n (variant d) Hp Hp' Hu T T' Hn)
    as (y & Hy & Ey).
  assert (Hb' := nth_bound _ _ _ Hy).
  set (d' := with_variant y (spec_wrap d)).
  assert (Td : typed (mode_imm_bits m) d') by exact Tw.
  assert (Rd : regs_in_range d') by exact Rw.
  assert (E' : spread m L' n d' w) by exact E.
  exists d', n. split; [|split; [|split]].
  - apply decode_spread; try assumption; [lia|apply Hn].
  - apply decode_spread; try assumption. cbn [L' with_width table_width]. lia.
  - unfold same_instruction. split; [exact Ey|]. repeat split; reflexivity.
  - intros Un Un' b'. assert (Nr := table_distinct_at I p' bld' k u' t' Hp' T' Un').
    apply pf_C84_encode; [exact U'|exact Td|]. split; [exact Nr|].
    split; [intros _; exact Rd|]. exists n. split; [|split].
    + destruct (variant_dec y spec_invalid) as [->|Hi].
      * assert (Hd := equivalent_invalid_at I p bld _ u t _ Hp T Un
                        (nth_error_In _ _ (proj1 Hn)) Ey).
        rewrite Hd in Hn.
        assert (n = 0).
        { destruct (N.eq_dec n 0) as [K|K]; [exact K|]. exfalso.
          apply (proj2 Hn 0); [lia|exact Z]. }
        subst n. split; [exact Z'|]. intros j Hj. lia.
      * split; [exact Hy|]. intros j Hj K. apply Nr. exists j, n, y. auto.
    + cbn [L' with_width table_width]. lia.
    + rewrite (wrap_id d' Rd). exact E'.
Qed.

(** Whole programs, of any length. *)
Lemma pf_C85_program :
  forall I p p' bld bld' u u' t t' m L k,
    let L' := with_width k L in
    usable m L -> separate m L -> usable m L' -> separate m L' ->
    table_width L < p -> k < p' -> u <= u' ->
    synthesize_opcode_decoding_tables_of I p bld (table_width L) u = Ok t ->
    synthesize_opcode_decoding_tables_of I p' bld' k u' = Ok t' ->
    unambiguous I u -> unambiguous I u' ->
    forall b program words,
      Forall (typed (mode_imm_bits m)) program -> Forall regs_in_range program ->
      Forall2 (fun d w => encode_at m L t b d = Ok w) program words ->
      exists program',
        Forall2 same_instruction program program' /\
        Forall2 (fun w d' => exists n, decode_at m L' t' w = Ok (d', n)) words program' /\
        forall b', Forall2 (fun d' w => encode_at m L' t' b' d' = Ok w) program' words.
Proof.
  intros I p p' bld bld' u u' t t' m L k L' U S U' S' Hp Hp' Hu T T' Un Un' b program words Ht Hr H.
  induction H as [|d w ds ws H Hs IH]; [exists []; auto|].
  inversion Ht as [|? ? Ht1 Ht2]; subst. inversion Hr as [|? ? Hr1 Hr2]; subst.
  destruct (IH Ht2 Hr2) as (ds' & F1 & F2 & F3).
  destruct (pf_C85_forward I p p' bld bld' u u' t t' m L k U S U' S' Hp Hp' Hu T T' b d w Ht1 H)
    as (d' & n & _ & D & Sm & E).
  rewrite (wrap_id d Hr1) in Sm.
  exists (d' :: ds'). split; [constructor; assumption|].
  split; [constructor; [exists (mkVariantMonotonicNumber n); exact D|exact F2]|].
  intros b'. constructor; [apply E; assumption|apply F3].
Qed.

(** An older machine that applies its canonicity check reads a word of the newer table as the
    same instruction or as the invalid one, or rejects it; it rejects exactly the numbers that
    its table does not have. *)
Lemma pf_C85_rollback :
  forall I p p' bld bld' u u' t t' m L k,
    let L' := with_width k L in
    usable m L -> separate m L -> usable m L' -> separate m L' ->
    gap_usable m L -> gap_usable m L' -> gap_free m L' -> table_width L <= k ->
    table_width L < p -> k < p' -> u <= u' ->
    synthesize_opcode_decoding_tables_of I p bld (table_width L) u = Ok t ->
    synthesize_opcode_decoding_tables_of I p' bld' k u' = Ok t' ->
    forall b d w, typed (mode_imm_bits m) d -> encode_at m L' t' b d = Ok w ->
      exists n, first_at t' (variant d) n /\
        canonical_at m L w = Ok (n <? N.of_nat (List.length t)) /\
        (canonical_at m L w = Ok true ->
         exists d', decode_at m L t w = Ok (d', mkVariantMonotonicNumber n) /\
           (variant d' = spec_invalid \/ same_instruction d' (spec_wrap d))).
Proof.
  intros I p p' bld bld' u u' t t' m L k L' U S U' S' G G' F Hk Hp Hp' Hu T T' b d w Ht H.
  destruct (table_size_at I p bld _ u t Hp T) as [Len Z].
  destruct (table_size_at I p' bld' _ u' t' Hp' T') as [Len' Z'].
  assert (H0 := H). apply pf_C84_encode in H0 as (_ & _ & n & Hn & _ & E); [|assumption..].
  destruct (wrap_typed _ _ Ht) as [Tw Rw].
  destruct (proj2 (pf_C84_widen m L k U S U' S' Hk) G G' F t' b d w n ltac:(lia) Ht H Hn)
    as [C _].
  exists n. split; [exact Hn|]. rewrite Len. split; [exact C|]. rewrite C. intros B.
  assert (Hb : n < 2 ^ table_width L) by (injection B as B; lia).
  destruct (nth_error t (N.to_nat n)) as [y|] eqn:Hy; [|apply nth_error_None in Hy; lia].
  exists (with_variant y (spec_wrap d)). split.
  - apply decode_spread; try assumption.
  - cbn [with_variant variant].
    destruct (variant_dec y spec_invalid) as [->|Hi]; [left; reflexivity|right].
    destruct (pf_C75_stable I p p' bld bld' _ _ u u' t t' Hu T T' _ _ Hy Hi) as (z & Hz & Ez).
    assert (z = variant d) by (destruct Hn as [Hn _]; congruence). subst z.
    unfold same_instruction. split; [exact Ez|]. repeat split; reflexivity.
Qed.

(** Without the check it would read another instruction: the toy set has 2 variants in version 0
    and 99 in version 1, which need 7 bits. *)
Lemma pf_C85_unchecked_refuted :
  forall m, exists t t' d d' w,
    let L := with_width 6 (current_layout m) in
    let L' := with_width 7 (current_layout m) in
    synthesize_opcode_decoding_tables_of toy_set 64 Debug 6 0 = Ok t /\
    synthesize_opcode_decoding_tables_of toy_set 64 Debug 7 1 = Ok t' /\
    typed (mode_imm_bits m) d /\ regs_in_range d /\
    encode_at m L' t' Debug d = Ok w /\ canonical_at m L w = Ok false /\
    decode_at m L t w = Ok (d', mkVariantMonotonicNumber 1) /\
    variant d' <> spec_invalid /\ ~ same_instruction d' d.
Proof.
  intros m.
  let x := eval vm_compute in
    (match synthesize_opcode_decoding_tables_of toy_set 64 Debug 6 0 with Ok t => t | Panic => [] end)
  in exists x.
  let x := eval vm_compute in
    (match synthesize_opcode_decoding_tables_of toy_set 64 Debug 7 1 with Ok t => t | Panic => [] end)
  in exists x.
  let y := eval vm_compute in
    (match synthesize_opcode_decoding_tables_of toy_set 64 Debug 7 1 with
     | Ok t => nth 65 t spec_invalid | Panic => spec_invalid end)
  in exists (mkDecodedOpcode y Always 1 2 3 4 5 6).
  exists (mkDecodedOpcode (mkOpcodeVariant (Op_Ret RetOpcode_Ok) RegOnly RegOnly (false, false))
            Always 1 2 3 4 5 6).
  exists (65 + 2 ^ 16 * 0x4321 + 2 ^ 32 * 5 + 2 ^ (32 + mode_imm_bits m) * 6).
  cbv zeta.
  split; [vm_compute; reflexivity|]. split; [vm_compute; reflexivity|].
  split; [destruct m; vm_compute; repeat split|]. split; [vm_compute; repeat split|].
  split; [destruct m; vm_compute; reflexivity|]. split; [destruct m; vm_compute; reflexivity|].
  split; [destruct m; vm_compute; reflexivity|]. split; [discriminate|].
  intros ((K & _) & _). discriminate K.
Qed.

Lemma padded_first t n x : In spec_invalid t ->
  first_index (t ++ repeat spec_invalid n) x = first_index t x.
Proof.
  intros Hi. destruct (first_index t x) as [i|] eqn:E.
  - apply first_index_Some. apply first_index_Some in E as [E F].
    assert (B := nth_bound _ _ _ E). split.
    + rewrite nth_error_app1 by lia. exact E.
    + intros j Hj. rewrite nth_error_app1 by lia. apply F, Hj.
  - apply first_index_None. apply first_index_None in E. intros K.
    apply in_app_or in K as [K|K]; [exact (E K)|]. apply repeat_spec in K. subst x. exact (E Hi).
Qed.

Lemma padded_repeats t n : ~ spec_repeats t -> ~ spec_repeats (t ++ repeat spec_invalid n).
Proof.
  intros H (i & j & x & Hij & Hx & Hy & Hn). apply H. exists i, j, x.
  apply nth_pad in Hx; [|exact Hn]. apply nth_pad in Hy; [|exact Hn]. auto.
Qed.

Lemma source_table : exists t, OPCODES_TABLE = Ok t /\
  synthesize_opcode_decoding_tables Debug 11 1 = Ok t /\ In spec_invalid t.
Proof.
  exists padded_table. split; [apply OPCODES_TABLE_eq|]. split; [apply synthesize_current|].
  unfold padded_table. apply in_or_app. right. left. reflexivity.
Qed.

(** Widening the table of the source changes no word of any instruction, and no reading of a word
    whose number it has; further numbers are read as invalid. *)
Lemma pf_C85_current :
  forall m k, 11 <= k -> k <= 13 ->
    let L' := with_width k (current_layout m) in
    exists t', synthesize_opcode_decoding_tables Debug k 1 = Ok t' /\
      (forall bld d, typed (mode_imm_bits m) d ->
         encode_at m L' t' bld d = encode_as_integer (mode_impl m) bld d) /\
      (forall w, bits w 0 k < 2048 ->
         decode_at m L' t' w = parse_preliminary_variant_and_absolute_number (mode_impl m) w) /\
      (forall w, 2048 <= bits w 0 k ->
         exists d, decode_at m L' t' w = Ok (d, mkVariantMonotonicNumber (bits w 0 k)) /\
           variant d = spec_invalid).
Proof.
  intros m k H1 H2 L'.
  destruct source_table as (t & Et & St & Hi).
  destruct pf_C77_current as (t0 & E0 & Len & Nr & Cur).
  assert (t0 = t) by congruence. subst t0. destruct (Cur m) as [Cd Ce].
  destruct (pf_C84_current m) as (U & _ & _ & _ & _ & Dc & Ec & _).
  destruct (proj2 (proj1 (pf_C84_growth m k)) H2) as (U' & _).
  destruct (pf_C18_widening Debug 11 k 1 t H1 ltac:(lia) St) as [_ St'].
  set (n := N.to_nat (2 ^ k - 2 ^ 11)) in St'. set (t' := t ++ repeat spec_invalid n) in St'.
  exists t'. split; [exact St'|].
  assert (P : 2 ^ 11 <= 2 ^ k) by (apply N.pow_le_mono_r; lia).
  change (2 ^ 11) with 2048 in P.
  assert (Len' : N.of_nat (List.length t') = 2 ^ k).
  { unfold t'. rewrite app_length, repeat_length. unfold n. change (2 ^ 11) with 2048. lia. }
  split; [|split].
  - intros bld d Ht. rewrite <- Ce, <- Ec, !encode_at_complete by assumption.
    unfold t' at 2. rewrite padded_first by exact Hi.
    destruct (proj2 (map_ok_iff t) Nr) as [c ->].
    destruct (proj2 (map_ok_iff t') (padded_repeats t n Nr)) as [c' ->].
    destruct (first_index t (variant d)) as [i|] eqn:Ei; [|reflexivity].
    apply first_bound in Ei.
    replace (i <=? 2 ^ table_width L') with true by (cbn [L' with_width table_width]; lia).
    replace (i <=? 2 ^ table_width (current_layout m)) with true
      by (replace (table_width (current_layout m)) with 11 by (destruct m; reflexivity);
          change (2 ^ 11) with 2048; lia).
    reflexivity.
  - intros w Hw. rewrite <- Cd, <- Dc.
    assert (B : bits w 0 11 = bits w 0 k).
    { apply N.bits_inj. intros i. rewrite !bits_testbit, N.add_0_l.
      destruct (N.ltb_spec i 11) as [Hj|Hj]; [replace (i <? k) with true by lia; reflexivity|].
      assert (Z := testbit_high (bits w 0 k) 11 i Hw Hj).
      rewrite bits_testbit, N.add_0_l in Z. rewrite Z. reflexivity. }
    assert (W : table_width (current_layout m) = 11) by (destruct m; reflexivity).
    destruct (proj1 (pf_C84_decode m L' t' w U')) as (d & D & F);
      [cbn [L' with_width table_width]; lia|].
    destruct (proj1 (pf_C84_decode m (current_layout m) t w U)) as (d1 & D1 & F1);
      [rewrite W; lia|].
    rewrite D, D1. cbn [L' with_width table_width]. rewrite W, B. f_equal. f_equal.
    apply (decode_unique m (current_layout m) t w d1 d _ U D1).
    destruct F as (Fv & F). split; [|exact F].
    rewrite W, B. cbn [L' with_width table_width] in Fv. unfold t' in Fv.
    rewrite nth_error_app1 in Fv by lia. exact Fv.
  - intros w Hw. destruct (proj1 (pf_C84_decode m L' t' w U')) as (d & D & F);
      [cbn [L' with_width table_width]; rewrite Len'; apply (bits_lt w 0 k)|].
    cbn [L' with_width table_width] in D. exists d. split; [exact D|].
    destruct F as (Fv & _). cbn [L' with_width table_width] in Fv. unfold t' in Fv.
    rewrite nth_error_app2 in Fv by lia. apply nth_error_In, repeat_spec in Fv. exact Fv.
Qed.

(** The toy set: 6 bits for version 0 and 7 bits for version 1. *)
Example pf_C85_example :
  forall m, exists t t' w,
    let L := with_width 6 (current_layout m) in
    let L' := with_width 7 L in
    usable m L /\ separate m L /\ gap_usable m L /\
    usable m L' /\ separate m L' /\ gap_usable m L' /\ gap_free m L' /\
    synthesize_opcode_decoding_tables_of toy_set 64 Debug (table_width L) 0 = Ok t /\
    synthesize_opcode_decoding_tables_of toy_set 64 Debug 7 1 = Ok t' /\
    unambiguous toy_set 0 /\ unambiguous toy_set 1 /\
    let old := mkDecodedOpcode
                 (mkOpcodeVariant (Op_Ret RetOpcode_Ok) RegOnly RegOnly (false, false))
                 Lt_ 1 2 3 4 5 6 in
    let new := mkDecodedOpcode
                 (mkOpcodeVariant (Op_Ret RetOpcode_Ok) (RegOrImm RI_UseRegOnly) RegOnly
                    (false, false)) Lt_ 1 2 3 4 5 6 in
    encode_at m L t Debug old = Ok w /\ encode_at m L' t' Debug new = Ok w /\
    canonical_at m L w = Ok true /\
    decode_at m L t w = Ok (old, mkVariantMonotonicNumber 1) /\
    decode_at m L' t' w = Ok (new, mkVariantMonotonicNumber 1) /\ same_instruction old new.
Proof.
  intros m.
  let x := eval vm_compute in
    (match synthesize_opcode_decoding_tables_of toy_set 64 Debug 6 0 with Ok t => t | Panic => [] end)
  in exists x.
  let x := eval vm_compute in
    (match synthesize_opcode_decoding_tables_of toy_set 64 Debug 7 1 with Ok t => t | Panic => [] end)
  in exists x.
  exists (1 + 2 ^ 13 * 2 + 2 ^ 16 * 0x4321 + 2 ^ 32 * 5 + 2 ^ (32 + mode_imm_bits m) * 6).
  cbv zeta.
  destruct (proj2 (proj1 (pf_C84_growth m 6)) ltac:(lia)) as (A0 & A1 & A2).
  destruct (proj2 (proj1 (pf_C84_growth m 7)) ltac:(lia)) as (B0 & B1 & B2).
  destruct (proj2 (proj2 (pf_C84_growth m 7)) ltac:(lia)) as (B3 & _).
  split; [exact A0|]. split; [exact A2|]. split; [exact A1|].
  split; [exact B0|]. split; [exact B2|]. split; [exact B1|]. split; [exact B3|].
  split; [vm_compute; reflexivity|]. split; [vm_compute; reflexivity|].
  split; [apply toy_unambiguous; lia|]. split; [apply toy_unambiguous; lia|].
  split; [destruct m; vm_compute; reflexivity|]. split; [destruct m; vm_compute; reflexivity|].
  split; [destruct m; vm_compute; reflexivity|]. split; [destruct m; vm_compute; reflexivity|].
  split; [destruct m; vm_compute; reflexivity|]. vm_compute. repeat split.
Qed.
