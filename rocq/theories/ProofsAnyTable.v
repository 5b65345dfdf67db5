(** * Proofs about the codec for an arbitrary opcode table. *)

From Coq Require Import Arith NArith Lia ZArith List Bool String.
From Verif Require Import Machine Constants Operands OpcodeTrait Opcodes AllOpcodes Tables Decoding
  SpecIsa SpecFamilies SpecCodec SpecSets SpecAnyTable.
From Coq Require Import ZifyBool ZifyNat ZifyN Permutation.
From Verif Require Import BitLemmas TableProofs TableProofs2 CodecProofs CodecProofs2 ProofsTables
  ProofsSets.
Import ListNotations.
Open Scope N_scope.

Lemma decode_in_fields m t w :
  match index t (bits w 0 11) with
  | Ok v => exists d, decode_in m t w = Ok (d, mkVariantMonotonicNumber (bits w 0 11)) /\
              variant d = v /\ other_fields (mode_imm_bits m) w d
  | Panic => decode_in m t w = Panic
  end.
Proof. destruct m; [apply prod_parse_fields_with | apply test_parse_fields_with]. Qed.

Lemma encode_in_gen m t bld d :
  encode_in m t bld d
  = gen_encode_with (canonical_map_of_table t) (mode_word_bits m) (mode_imm_bits m) bld d.
Proof. destruct m; reflexivity. Qed.

Lemma fields_in_iff t iw w d :
  fields_in t iw w d <->
  nth_error t (N.to_nat (bits w 0 11)) = Some (variant d) /\ other_fields iw w d.
Proof. unfold fields_in, other_fields. tauto. Qed.

Lemma first_at_iff t x n : first_at t x n <-> first_index t x = Some n.
Proof. symmetry. apply first_index_Some. Qed.

Lemma other_fields_unique iw w d d' :
  variant d = variant d' -> other_fields iw w d -> other_fields iw w d' -> d = d'.
Proof.
  destruct d as [v c a0 a1 b0 b1 i j], d' as [v' c' a0' a1' b0' b1' i' j'].
  unfold other_fields; cbn.
  intros -> (Hc & -> & -> & -> & -> & -> & ->) (Hc' & -> & -> & -> & -> & -> & ->).
  f_equal. congruence.
Qed.

(** ** Decoding *)

Lemma pf_C77_decode :
  forall m t w,
    (bits w 0 11 < N.of_nat (List.length t) ->
     exists d, decode_in m t w = Ok (d, mkVariantMonotonicNumber (bits w 0 11)) /\
               fields_in t (mode_imm_bits m) w d) /\
    (N.of_nat (List.length t) <= bits w 0 11 -> decode_in m t w = Panic).
Proof.
  intros m t w. assert (H := decode_in_fields m t w). unfold index in H. split; intros L.
  - destruct (nth_error t (N.to_nat (bits w 0 11))) as [v|] eqn:E.
    + cbn in H. destruct H as (d & H & Hv & Ho). exists d. split; [exact H|].
      apply fields_in_iff. split; [congruence|exact Ho].
    + apply nth_error_None in E. lia.
  - rewrite (proj2 (nth_error_None t (N.to_nat (bits w 0 11)))) in H by lia. exact H.
Qed.

(** ** Encoding *)

Lemma first_bound t x n : first_index t x = Some n -> n < N.of_nat (List.length t).
Proof.
  intros H. apply first_index_Some in H as [H _].
  assert (N.to_nat n < List.length t)%nat by (apply nth_error_Some; congruence). lia.
Qed.

Lemma encode_in_complete m t bld d :
  typed (mode_imm_bits m) d ->
  encode_in m t bld d =
  match canonical_map_of_table t, first_index t (variant d) with
  | Ok _, Some n =>
      if n <=? 2048 then
        match bld with
        | Debug => if in_range_b d then Ok (spec_word (mode_imm_bits m) n (spec_wrap d)) else Panic
        | Release => Ok (spec_word (mode_imm_bits m) n (spec_wrap d))
        end
      else Panic
  | _, _ => Panic
  end.
Proof.
  intros Ht. rewrite encode_in_gen. destruct (mode_sizes m) as [A B].
  destruct (canonical_map_of_table t) as [c|] eqn:Ec; [|reflexivity].
  assert (Hg := proj1 (proj2 (proj2 (pf_C14_any_table t))) c Ec (variant d)).
  destruct (first_index t (variant d)) as [n|] eqn:En.
  2:{ unfold gen_encode_with. cbn [bind]. rewrite Hg. reflexivity. }
  destruct (n <=? 2048) eqn:Hn.
  2:{ unfold gen_encode_with. cbn [bind]. rewrite Hg. cbn [unwrap bind].
      rewrite width_check_iff, Hn. reflexivity. }
  etransitivity; [apply (gen_encode_known_with c _ _ bld d n A B Hg); [lia|exact Ht]|].
  destruct bld.
  - destruct (in_range_b d) eqn:Er.
    + apply in_range_b_iff in Er. rewrite wrap_id by exact Er.
      destruct Er as (H0 & H1 & H2 & H3).
      rewrite !merge_small by assumption. cbn [bind]. unfold spec_word. f_equal.
      generalize (2 ^ (32 + mode_imm_bits m) * imm_1 d). intros x.
      change (2 ^ 13) with 8192; change (2 ^ 16) with 65536; change (2 ^ 20) with 1048576;
        change (2 ^ 24) with 16777216; change (2 ^ 28) with 268435456;
        change (2 ^ 32) with 4294967296. lia.
    + unfold in_range_b in Er.
      destruct (merge_u4 Debug (src0_reg_idx d) (src1_reg_idx d)) as [s|] eqn:Es; [|reflexivity].
      destruct (merge_u4 Debug (dst0_reg_idx d) (dst1_reg_idx d)) as [u|] eqn:Et; [|reflexivity].
      exfalso.
      assert (~ (16 <= src0_reg_idx d \/ 16 <= src1_reg_idx d))
        by (rewrite <- merge_debug_panic; congruence).
      assert (~ (16 <= dst0_reg_idx d \/ 16 <= dst1_reg_idx d))
        by (rewrite <- merge_debug_panic; congruence).
      lia.
  - rewrite !merge_release. cbn [bind]. f_equal. unfold spec_word, spec_wrap.
    cbn [variant condition src0_reg_idx src1_reg_idx dst0_reg_idx dst1_reg_idx imm_0 imm_1].
    destruct Ht as (H0 & H1 & H2 & H3 & H4 & H5).
    rewrite !merge_parts by assumption.
    change (2 ^ 13) with 8192; change (2 ^ 16) with 65536; change (2 ^ 20) with 1048576;
    change (2 ^ 24) with 16777216; change (2 ^ 28) with 268435456;
    change (2 ^ 32) with 4294967296. lia.
Qed.

Lemma map_ok_iff t : (exists c, canonical_map_of_table t = Ok c) <-> ~ spec_repeats t.
Proof.
  destruct (pf_C14_any_table t) as [H _].
  destruct (canonical_map_of_table t) as [c|].
  - split; [intros _ K; apply H in K; discriminate K|intros _; exists c; reflexivity].
  - split; [intros [c E]; discriminate E|intros K; exfalso; apply K, H; reflexivity].
Qed.

(** The whole behaviour of the encoder, for every table. *)
Lemma pf_C77_encode :
  forall m t bld d w,
    typed (mode_imm_bits m) d ->
    (encode_in m t bld d = Ok w <->
     ~ spec_repeats t /\ (bld = Debug -> regs_in_range d) /\
     exists n, first_at t (variant d) n /\ n <= 2048 /\
       w = spec_word (mode_imm_bits m) n (spec_wrap d)).
Proof.
  intros m t bld d w Ht. rewrite encode_in_complete, <- map_ok_iff by assumption.
  split.
  - destruct (canonical_map_of_table t) as [c|]; [|discriminate].
    destruct (first_index t (variant d)) as [n|] eqn:En; [|discriminate].
    destruct (n <=? 2048) eqn:Hn; [|discriminate].
    intros H. split; [exists c; reflexivity|].
    destruct bld; [destruct (in_range_b d) eqn:Er; [|discriminate]|];
      (split; [|exists n; split; [apply first_at_iff, En|split; [lia|congruence]]]).
    + intros _. apply in_range_b_iff, Er.
    + discriminate.
  - intros ([c ->] & Hr & n & Hn & Hb & ->). apply first_at_iff in Hn. rewrite Hn.
    replace (n <=? 2048) with true by lia.
    destruct bld; [|reflexivity]. rewrite (proj2 (in_range_b_iff d) (Hr eq_refl)). reflexivity.
Qed.

(** ** Round trips *)

Lemma decode_word m t n d :
  (List.length t <= 2048)%nat -> typed (mode_imm_bits m) d -> regs_in_range d ->
  nth_error t (N.to_nat n) = Some (variant d) ->
  decode_in m t (spec_word (mode_imm_bits m) n d) = Ok (d, mkVariantMonotonicNumber n).
Proof.
  intros L Ht Hr Hn.
  assert (N.to_nat n < List.length t)%nat by (apply nth_error_Some; congruence).
  destruct (other_word_fields (mode_imm_bits m) n d) as (Ho & Hk & _); [lia|assumption..|].
  assert (H0 := decode_in_fields m t (spec_word (mode_imm_bits m) n d)).
  rewrite Hk in H0. unfold index in H0. rewrite Hn in H0. cbn [unwrap] in H0.
  destruct H0 as (d' & -> & Hv & Ho'). repeat f_equal.
  exact (other_fields_unique _ _ _ _ Hv Ho' Ho).
Qed.

(** Whatever was encoded is decoded again, with the number of the variant. *)
Lemma pf_C77_decode_encode :
  forall m t bld d w,
    (List.length t <= 2048)%nat -> typed (mode_imm_bits m) d ->
    encode_in m t bld d = Ok w ->
    exists n, first_at t (variant d) n /\
      decode_in m t w = Ok (spec_wrap d, mkVariantMonotonicNumber n) /\
      (regs_in_range d -> spec_wrap d = d) /\
      w < 2 ^ (32 + 2 * mode_imm_bits m) /\ bits w 11 2 = 0.
Proof.
  intros m t bld d w L Ht H. apply pf_C77_encode in H as (_ & _ & n & Hn & _ & ->); [|assumption].
  exists n. split; [exact Hn|]. destruct (wrap_typed _ _ Ht) as [Ht' Hr'].
  assert (B : n < 2048).
  { apply first_at_iff, first_bound in Hn. lia. }
  split; [apply decode_word; try assumption; apply Hn|].
  split; [apply wrap_id|].
  split; [apply spec_word_lt; assumption|].
  apply (other_word_fields (mode_imm_bits m) n (spec_wrap d)); assumption.
Qed.

Lemma first_exists t x i : nth_error t (N.to_nat i) = Some x ->
  exists n, first_index t x = Some n /\ n <= i.
Proof.
  intros H. destruct (first_index t x) as [n|] eqn:E.
  - exists n. split; [reflexivity|]. apply first_index_Some in E as [_ E].
    destruct (N.le_gt_cases n i) as [Hle|Hgt]; [exact Hle|]. exfalso. exact (E i Hgt H).
  - exfalso. apply first_index_None in E. apply E. eapply nth_error_In, H.
Qed.

(** Decoding any word and encoding the result gives the word with the gap cleared, the bits above
    the last immediate dropped and the number replaced by the first one of its variant; only the
    invalid variant can have several. *)
Lemma pf_C77_encode_decode :
  forall m t bld w,
    (List.length t <= 2048)%nat -> ~ spec_repeats t ->
    bits w 0 11 < N.of_nat (List.length t) ->
    exists d n, decode_in m t w = Ok (d, mkVariantMonotonicNumber (bits w 0 11)) /\
      first_at t (variant d) n /\
      encode_in m t bld d = Ok (n + 2 ^ 13 * bits w 13 (19 + 2 * mode_imm_bits m)) /\
      (variant d <> spec_invalid -> n = bits w 0 11).
Proof.
  intros m t bld w L Nr Hk.
  destruct (proj1 (pf_C77_decode m t w) Hk) as (d & Hd & Hf).
  apply fields_in_iff in Hf as [Hv Ho]. destruct (other_fields_typed _ _ _ Ho) as [Ht Hr].
  destruct (first_exists _ _ _ Hv) as (n & Hn & Hle). apply first_at_iff in Hn.
  exists d, n. split; [exact Hd|]. split; [exact Hn|]. split.
  - apply pf_C77_encode; [assumption|]. split; [exact Nr|]. split; [intros _; exact Hr|].
    exists n. split; [exact Hn|].
    split; [apply first_at_iff, first_bound in Hn; lia|]. rewrite wrap_id by exact Hr.
    symmetry. apply other_fields_word, Ho.
  - intros Hi. destruct (N.eq_dec n (bits w 0 11)) as [E|E]; [exact E|]. exfalso. apply Nr.
    exists n, (bits w 0 11), (variant d). split; [lia|]. split; [apply Hn|]. split; assumption.
Qed.

(** Instructions over the same table never share a word. *)
Lemma pf_C77_injective :
  forall m t bld bld' d d' w,
    (List.length t <= 2048)%nat ->
    typed (mode_imm_bits m) d -> regs_in_range d ->
    typed (mode_imm_bits m) d' -> regs_in_range d' ->
    encode_in m t bld d = Ok w -> encode_in m t bld' d' = Ok w -> d = d'.
Proof.
  intros m t bld bld' d d' w L Ht Hr Ht' Hr' H H'.
  apply pf_C77_decode_encode in H as (n & _ & H & E & _); [|assumption..].
  apply pf_C77_decode_encode in H' as (n' & _ & H' & E' & _); [|assumption..].
  rewrite (E Hr) in H. rewrite (E' Hr') in H'. congruence.
Qed.

(** ** Tables synthesised from an instruction set *)

(** Whenever synthesis with 11 bits succeeds and no two variants of the newest version mean the
    same, every variant of that version can be encoded and every word can be decoded. *)
Lemma pf_C77_synthesised :
  forall I p bld u t, 11 < p ->
    synthesize_opcode_decoding_tables_of I p bld 11 u = Ok t ->
    unambiguous I u ->
    ~ spec_repeats t /\ List.length t = 2048%nat /\
    (forall m w, exists d, decode_in m t w = Ok (d, mkVariantMonotonicNumber (bits w 0 11)) /\
       fields_in t (mode_imm_bits m) w d) /\
    (forall m b vs v l d, versions_used I u (vs ++ [v]) -> all_variants_in_version_of I v = Ok l ->
       In (variant d) l -> typed (mode_imm_bits m) d -> regs_in_range d ->
       exists w n, encode_in m t b d = Ok w /\ first_at t (variant d) n /\
         decode_in m t w = Ok (d, mkVariantMonotonicNumber n)).
Proof.
  intros I p bld u t Hp Hs Hi.
  destruct (pf_C75_contents I p bld 11 u t Hp Hs)
    as (vs & w & l & r & Hu & El & Len & Et & Lr & Hd & _ & _ & Perm).
  assert (Ni := Hi vs w l Hu El). specialize (Perm Ni).
  assert (L : List.length t = 2048%nat) by (change (2 ^ 11) with 2048 in Len; lia).
  assert (Nd : NoDup r).
  { eapply Permutation_NoDup; [apply Permutation_sym, Perm|].
    apply inequivalent_iff in Ni. eapply NoDup_map_inv, Ni. }
  assert (Nr : ~ spec_repeats t).
  { intros (i & j & x & Hij & Hx & Hy & Hn). rewrite Et in Hx, Hy.
    apply nth_pad in Hx; [|exact Hn]. apply nth_pad in Hy; [|exact Hn].
    assert (K : N.to_nat i = N.to_nat j); [|lia].
    apply (proj1 (NoDup_nth_error r) Nd); [apply nth_error_Some; congruence|congruence]. }
  split; [exact Nr|]. split; [exact L|]. split.
  - intros m w'. apply pf_C77_decode. rewrite L. assert (B := bits_lt w' 0 11).
    change (2 ^ 11) with 2048 in B. lia.
  - intros m b vs' v l' d Hu' El' Hin Ht Hr.
    assert (Ev : vs ++ [w] = vs' ++ [v]).
    { apply versions_used_iff in Hu. apply versions_used_iff in Hu'. congruence. }
    apply app_inj_tail in Ev as [_ <-]. assert (l' = l) by congruence. subst l'.
    assert (In (variant d) t).
    { rewrite Et. apply in_or_app. left. eapply Permutation_in; [apply Permutation_sym, Perm|].
      exact Hin. }
    destruct (first_index t (variant d)) as [n|] eqn:En;
      [|apply first_index_None in En; contradiction].
    apply first_at_iff in En.
    exists (spec_word (mode_imm_bits m) n d), n. split.
    + apply pf_C77_encode; [exact Ht|]. split; [exact Nr|]. split; [intros _; exact Hr|].
      exists n. split; [exact En|].
      split; [apply first_at_iff, first_bound in En; lia|]. rewrite wrap_id by exact Hr. reflexivity.
    + split; [exact En|]. apply decode_word; try assumption; [lia|apply En].
Qed.

(** The assertion on the width of the number does not bound it: it lets the number 2048 pass, and
    such a word decodes to entry 0.  (The table of the source has exactly 2048 entries.) *)
Lemma pf_C77_width_refuted :
  exists t d w,
    List.length t = 2049%nat /\ ~ spec_repeats t /\ typed 16 d /\ regs_in_range d /\
    encode_in ProductionMode t Debug d = Ok w /\ bits w 11 2 = 1 /\
    exists d', decode_in ProductionMode t w = Ok (d', mkVariantMonotonicNumber 0) /\
      variant d' <> variant d.
Proof.
  set (x := mkOpcodeVariant (Op_Nop nopOpcode) (Full UseRegOnly) (Full UseRegOnly) (false, false)).
  exists (repeat spec_invalid (N.to_nat 2048) ++ [x]), (mkDecodedOpcode x Always 0 0 0 0 0 0), 2048.
  split; [rewrite app_length, repeat_length; reflexivity|]. split.
  - intros (i & j & y & Hij & Hi & Hj & Hn).
    assert (P : forall k, nth_error (repeat spec_invalid (N.to_nat 2048) ++ [x]) (N.to_nat k) = Some y ->
              k = 2048).
    { intros k Hk. destruct (Nat.lt_ge_cases (N.to_nat k) (N.to_nat 2048)) as [H|H].
      - rewrite nth_error_app1, nth_error_repeat in Hk by (rewrite ?repeat_length; exact H). congruence.
      - rewrite nth_error_app2, repeat_length in Hk by (rewrite repeat_length; exact H).
        assert (N.to_nat k - N.to_nat 2048 < 1)%nat; [|lia].
        apply (nth_error_Some [x]). congruence. }
    rewrite (P i Hi), (P j Hj) in Hij. lia.
  - split; [unfold typed; cbn; lia|]. split; [unfold regs_in_range; cbn; lia|].
    split; [vm_compute; reflexivity|]. split; [vm_compute; reflexivity|].
    exists (mkDecodedOpcode spec_invalid Always 0 0 0 0 0 0).
    split; [vm_compute; reflexivity|discriminate].
Qed.

(** The source uses its own table. *)
Lemma pf_C77_current :
  exists t, OPCODES_TABLE = Ok t /\ List.length t = 2048%nat /\ ~ spec_repeats t /\
    forall m,
      (forall w, decode_in m t w
                 = parse_preliminary_variant_and_absolute_number (mode_impl m) w) /\
      (forall bld d, encode_in m t bld d = encode_as_integer (mode_impl m) bld d).
Proof.
  exists padded_table. split; [apply OPCODES_TABLE_eq|].
  split; [unfold padded_table; rewrite app_length, repeat_length, spec_table_v1_length; reflexivity|].
  split.
  - apply map_ok_iff. destruct canonical_map_defined as (c & Hc & _). exists c.
    rewrite canonical_map_eq in Hc. exact Hc.
  - intros m. split.
    + intros w. destruct m.
      * change (prod_parse_with (Ok padded_table) w = prod_parse w). unfold prod_parse.
        rewrite OPCODES_TABLE_eq. reflexivity.
      * change (test_parse_with (Ok padded_table) w = test_parse w). unfold test_parse.
        rewrite OPCODES_TABLE_eq. reflexivity.
    + intros bld d. rewrite encode_in_gen, mode_encode_gen. unfold gen_encode.
      rewrite canonical_map_eq. reflexivity.
Qed.

(** The codec over the table synthesised for another instruction set. *)
Example pf_C77_example :
  exists t, synthesize_opcode_decoding_tables_of toy_set 64 Debug 11 1 = Ok t /\
    let d := mkDecodedOpcode
               (mkOpcodeVariant (Op_Nop nopOpcode) (Full UseCodePage) (Full UseStackWithOffset)
                  (true, true)) GtOrLt 1 2 3 15 513 65535 in
    exists w, encode_in ProductionMode t Debug d = Ok w /\ bits w 0 11 = 94 /\
      decode_in ProductionMode t w = Ok (d, mkVariantMonotonicNumber 94) /\
      decode_in ProductionMode t (w + 2 ^ 11 * 3) = Ok (d, mkVariantMonotonicNumber 94).
Proof.
  destruct (synthesize_opcode_decoding_tables_of toy_set 64 Debug 11 1) as [t|] eqn:H;
    [|vm_compute in H; discriminate H].
  exists t. split; [reflexivity|]. vm_compute in H. injection H as <-.
  intros d. eexists. split; [vm_compute; reflexivity|]. vm_compute. auto.
Qed.
