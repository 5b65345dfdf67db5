(** * Proofs about the codecs for other places of the fields. *)

From Coq Require Import Arith NArith Lia ZArith List Bool String.
From Verif Require Import Machine Constants Operands OpcodeTrait Opcodes AllOpcodes Tables Decoding
  Relayout SpecIsa SpecFamilies SpecCodec SpecSets SpecAnyTable SpecRelayout.
From Coq Require Import ZifyBool ZifyNat ZifyN.
From Verif Require Import BitLemmas TableProofs TableProofs2 CodecProofs CodecProofs2 ProofsTables
  ProofsSets ProofsAnyTable.
Import ListNotations.
Open Scope N_scope.

(** ** Bits *)

Lemma bits_testbit w lo n i : N.testbit (bits w lo n) i = (i <? n) && N.testbit w (lo + i).
Proof.
  unfold bits. rewrite <- N.land_ones, <- N.shiftr_div_pow2, N.land_spec, N.shiftr_spec' .
  rewrite (N.add_comm i lo). destruct (N.ltb_spec i n) as [H|H].
  - rewrite N.ones_spec_low by exact H. apply andb_true_r.
  - rewrite N.ones_spec_high by exact H. apply andb_false_r.
Qed.

Lemma mod_testbit w k i : N.testbit (w mod 2 ^ k) i = (i <? k) && N.testbit w i.
Proof.
  destruct (N.ltb_spec i k) as [H|H].
  - apply N.mod_pow2_bits_low, H.
  - apply N.mod_pow2_bits_high, H.
Qed.

Lemma shl_testbit w x k i :
  N.testbit (shl w x k) i = (i <? w) && ((k <=? i) && N.testbit x (i - k)).
Proof.
  unfold shl. rewrite mod_testbit. f_equal. destruct (N.leb_spec k i) as [H|H].
  - apply N.shiftl_spec_high'. exact H.
  - apply N.shiftl_spec_low. exact H.
Qed.

Lemma bits_bound w k : (forall i, k <= i -> N.testbit w i = false) -> w < 2 ^ k.
Proof.
  intros H. destruct (N.lt_ge_cases w (2 ^ k)) as [L|L]; [exact L|exfalso].
  assert (P := pow2_pos k). assert (E := N.bit_log2 w ltac:(lia)).
  rewrite H in E; [discriminate E|]. apply N.log2_le_pow2; [lia|exact L].
Qed.

Lemma byte_testbit a b j : a < 16 -> b < 16 ->
  N.testbit (a + 16 * b) j = N.testbit a j || ((4 <=? j) && N.testbit b (j - 4)).
Proof.
  intros Ha Hb. rewrite <- (N.mul_comm b). change 16 with (2 ^ 4).
  rewrite <- lor_shiftl by exact Ha. rewrite N.lor_spec. f_equal.
  destruct (N.leb_spec 4 j) as [H|H].
  - apply N.shiftl_spec_high'. exact H.
  - apply N.shiftl_spec_low. exact H.
Qed.

(** ** Both codecs as one *)

Definition gen_encode_at (W : N) (L : layout) (M : res (list (OpcodeVariant * N))) (bld : build)
    (opcode : DecodedOpcode) : res N :=
  let* m := M in
  let* n := unwrap (map_get m (variant opcode)) in
  let* _ := assert_ (trailing_zeros 64 (next_power_of_two n) <=? table_width L) in
  let c := Condition_variant_index (condition opcode) in
  let* _ := assert_ (trailing_zeros 64 (next_power_of_two c) <=? CONDITIONAL_BITS_WIDTH) in
  let* x0 := shl_const W c (condition_shift L) in
  let* s := merge_u4 bld (src0_reg_idx opcode) (src1_reg_idx opcode) in
  let* x1 := shl_const W s (src_shift L) in
  let* u := merge_u4 bld (dst0_reg_idx opcode) (dst1_reg_idx opcode) in
  let* x2 := shl_const W u (dst_shift L) in
  let* x3 := shl_const W (imm_0 opcode) (imm0_shift L) in
  let* x4 := shl_const W (imm_1 opcode) (imm1_shift L) in
  Ok (N.lor (N.lor (N.lor (N.lor (N.lor (n mod 2 ^ W) x0) x1) x2) x3) x4).

Lemma encode_at_gen m L t bld d :
  encode_at m L t bld d = gen_encode_at (mode_word_bits m) L (canonical_map_of_table t) bld d.
Proof. destruct m; reflexivity. Qed.

Lemma shl_const_ok W x k : k < W -> shl_const W x k = Ok (shl W x k).
Proof. intros H. unfold shl_const. destruct (N.ltb_spec k W); [reflexivity|lia]. Qed.
Lemma shr_const_ok W x k : k < W -> shr_const W x k = Ok (shr x k).
Proof. intros H. unfold shr_const. destruct (N.ltb_spec k W); [reflexivity|lia]. Qed.

Lemma width_check_at n k :
  (trailing_zeros 64 (next_power_of_two n) <=? k) = (n <=? 2 ^ k).
Proof.
  unfold next_power_of_two. assert (P := pow2_pos k).
  destruct (n <=? 1) eqn:E; [cbn; lia|]. rewrite trailing_pow2.
  assert (H : N.log2 (n - 1) < k <-> n - 1 < 2 ^ k) by (symmetry; apply N.log2_lt_pow2; lia).
  lia.
Qed.

(** The registers of an instruction as they end up in a word. *)
Lemma merge_wrap bld a b : a < 2 ^ 8 ->
  merge_u4 bld a b =
  match bld with
  | Debug => if (a <? 16) && (b <? 16)
             then Ok ((a mod 16) + 16 * N.lor (a / 16) (b mod 16)) else Panic
  | Release => Ok ((a mod 16) + 16 * N.lor (a / 16) (b mod 16))
  end.
Proof.
  intros Ha. rewrite <- merge_parts by exact Ha. destruct bld; [|apply merge_release].
  unfold merge_u4. cbn [debug_assert_].
  destruct (a <? 16); [|reflexivity]. destruct (b <? 16); [|reflexivity].
  cbn [assert_ bind andb]. rewrite shl_eq. reflexivity.
Qed.

(** The word the encoder makes, as a union of shifted fields. *)
Definition union_at (W : N) (L : layout) (n : N) (d : DecodedOpcode) : N :=
  N.lor (N.lor (N.lor (N.lor (N.lor (n mod 2 ^ W)
    (shl W (spec_cond_number (condition d)) (condition_shift L)))
    (shl W (src0_reg_idx d + 16 * src1_reg_idx d) (src_shift L)))
    (shl W (dst0_reg_idx d + 16 * dst1_reg_idx d) (dst_shift L)))
    (shl W (imm_0 d) (imm0_shift L))) (shl W (imm_1 d) (imm1_shift L)).

Lemma word_ge m : 64 <= mode_word_bits m.
Proof. destruct m; cbn; lia. Qed.

Lemma encode_at_complete m L t bld d :
  usable m L -> typed (mode_imm_bits m) d ->
  encode_at m L t bld d =
  match canonical_map_of_table t, first_index t (variant d) with
  | Ok _, Some n =>
      if n <=? 2 ^ table_width L then
        match bld with
        | Debug => if in_range_b d then Ok (union_at (mode_word_bits m) L n (spec_wrap d))
                   else Panic
        | Release => Ok (union_at (mode_word_bits m) L n (spec_wrap d))
        end
      else Panic
  | _, _ => Panic
  end.
Proof.
  intros (U0 & U1 & U2 & U3 & U4 & U5) (T0 & T1 & T2 & T3 & T4 & T5).
  assert (G := word_ge m). rewrite encode_at_gen. unfold gen_encode_at.
  destruct (canonical_map_of_table t) as [c|] eqn:Ec; [|reflexivity]. cbn [bind].
  rewrite (proj1 (proj2 (proj2 (pf_C14_any_table t))) c Ec (variant d)).
  destruct (first_index t (variant d)) as [n|] eqn:En; [|reflexivity]. cbn [unwrap bind].
  rewrite width_check_at. destruct (n <=? 2 ^ table_width L); [|reflexivity].
  cbn [assert_ bind]. rewrite cond_index. assert (Hc := cond_lt (condition d)).
  rewrite width_check_cond by exact Hc. cbn [assert_ bind].
  rewrite !merge_wrap by assumption. rewrite shl_const_ok by lia. cbn [bind].
  unfold union_at, spec_wrap, in_range_b.
  cbn [variant condition src0_reg_idx src1_reg_idx dst0_reg_idx dst1_reg_idx imm_0 imm_1].
  destruct bld.
  - destruct (src0_reg_idx d <? 16); [|reflexivity]. destruct (src1_reg_idx d <? 16); [|reflexivity].
    cbn [andb bind]. rewrite (shl_const_ok _ _ (src_shift L)) by assumption. cbn [bind].
    destruct (dst0_reg_idx d <? 16); [|reflexivity]. destruct (dst1_reg_idx d <? 16); [|reflexivity].
    cbn [andb bind]. repeat (rewrite shl_const_ok by assumption; cbn [bind]). reflexivity.
  - cbn [bind]. repeat (rewrite shl_const_ok by assumption; cbn [bind]). reflexivity.
Qed.

(** Whether a bit belongs to a value of an instruction. *)
Definition covered (m : mode) (L : layout) (d : DecodedOpcode) (i : N) : bool :=
  existsb (fun '((lo, _), v) => (lo <=? i) && N.testbit v (i - lo))
    (combine (places m L) (values d)).

Lemma union_testbit m L n d i : regs_in_range d ->
  N.testbit (union_at (mode_word_bits m) L n d) i
  = (i <? mode_word_bits m) && (N.testbit n i || covered m L d i).
Proof.
  intros (R0 & R1 & R2 & R3). unfold union_at, covered, places, values.
  rewrite !N.lor_spec, mod_testbit, !shl_testbit, !byte_testbit by assumption.
  destruct (i <? mode_word_bits m); [|reflexivity]. cbn [andb combine existsb].
  rewrite !orb_false_r.
  assert (S : forall lo a b, (lo <=? i) && (N.testbit a (i - lo)
                || (4 <=? i - lo) && N.testbit b (i - lo - 4))
              = ((lo <=? i) && N.testbit a (i - lo)) || ((lo + 4 <=? i) && N.testbit b (i - (lo + 4)))).
  { intros lo a b. replace (i - lo - 4) with (i - (lo + 4)) by lia.
    destruct (N.leb_spec lo i), (N.leb_spec 4 (i - lo)), (N.leb_spec (lo + 4) i); try lia;
      cbn [andb]; rewrite ?orb_false_r; reflexivity. }
  rewrite !S, <- !orb_assoc. reflexivity.
Qed.

Lemma union_spread m L n d w : regs_in_range d ->
  (spread m L n d w <-> w = union_at (mode_word_bits m) L n d).
Proof.
  intros R. split.
  - intros [B H]. apply N.bits_inj. intros i. rewrite union_testbit by exact R.
    destruct (N.ltb_spec i (mode_word_bits m)) as [Hi|Hi]; [apply H, Hi|].
    apply (testbit_high w (mode_word_bits m)); assumption.
  - intros ->. split.
    + apply bits_bound. intros i Hi. rewrite union_testbit by exact R.
      destruct (N.ltb_spec i (mode_word_bits m)); [lia|reflexivity].
    + intros i Hi. rewrite union_testbit by exact R.
      destruct (N.ltb_spec i (mode_word_bits m)); [reflexivity|lia].
Qed.

(** What the encoder does, for every choice of the places, overlapping or not. *)
Lemma pf_C84_encode :
  forall m L t bld d w,
    usable m L -> typed (mode_imm_bits m) d ->
    (encode_at m L t bld d = Ok w <->
     ~ spec_repeats t /\ (bld = Debug -> regs_in_range d) /\
     exists n, first_at t (variant d) n /\ n <= 2 ^ table_width L /\
       spread m L n (spec_wrap d) w).
Proof.
  intros m L t bld d w U Ht. rewrite encode_at_complete, <- map_ok_iff by assumption.
  destruct (wrap_typed _ _ Ht) as [_ Rw].
  split.
  - destruct (canonical_map_of_table t) as [c|]; [|discriminate].
    destruct (first_index t (variant d)) as [n|] eqn:En; [|discriminate].
    destruct (n <=? 2 ^ table_width L) eqn:Hn; [|discriminate].
    intros H. split; [exists c; reflexivity|].
    destruct bld; [destruct (in_range_b d) eqn:Er; [|discriminate]|];
      (split; [|exists n; split; [apply first_at_iff, En|split; [lia|]];
                apply union_spread; [exact Rw|congruence]]).
    + intros _. apply in_range_b_iff, Er.
    + discriminate.
  - intros ([c ->] & Hr & n & Hn & Hb & Hs). apply first_at_iff in Hn. rewrite Hn.
    apply union_spread in Hs; [|exact Rw]. subst w.
    replace (n <=? 2 ^ table_width L) with true by lia.
    destruct bld; [|reflexivity]. rewrite (proj2 (in_range_b_iff d) (Hr eq_refl)). reflexivity.
Qed.

(** ** Decoding *)

Lemma variant_mask_ok k : k < 64 -> (let* x := shl_const 64 1 k in sub_w Debug 64 x 1) = Ok (N.ones k).
Proof.
  intros H. rewrite shl_const_ok by exact H. cbn [bind].
  assert (L : 2 ^ k < 2 ^ 64) by (apply N.pow_lt_mono_r; lia).
  rewrite shl_small by lia. rewrite N.mul_1_l.
  assert (P := pow2_pos k). unfold sub_w. destruct (N.leb_spec 1 (2 ^ k)); [|lia].
  rewrite N.ones_equiv. f_equal. lia.
Qed.

Lemma condition_mask_ok k : k < 64 ->
  (let* x := shl_const 64 1 CONDITIONAL_BITS_WIDTH in
   let* x := sub_w Debug 64 x 1 in shl_const 64 x k) = Ok (shl 64 (N.ones 3) k).
Proof. intros H. apply (shl_const_ok 64 (N.ones 3) k H). Qed.

Lemma ones_testbit n i : N.testbit (N.ones n) i = (i <? n).
Proof.
  destruct (N.ltb_spec i n); [apply N.ones_spec_low|apply N.ones_spec_high]; assumption.
Qed.

Lemma condition_bits_eq w k : shr (N.land w (shl 64 (N.ones 3) k)) k = bits (w mod 2 ^ 64) k 3.
Proof.
  apply N.bits_inj. intros i. unfold shr.
  rewrite N.shiftr_spec', N.land_spec, shl_testbit, ones_testbit, bits_testbit, mod_testbit.
  replace (i + k - k) with i by lia. replace (k <=? i + k) with true by lia.
  rewrite (N.add_comm k i). cbn [andb].
  destruct (N.testbit w (i + k)), (i + k <? 64), (i <? 3); reflexivity.
Qed.

Lemma number_bits_eq w k : N.land w (N.ones k) = bits w 0 k.
Proof. rewrite N.land_ones. unfold bits. rewrite N.pow_0_r, N.div_1_r. reflexivity. Qed.

Lemma number_bits_low w k : k <= 64 -> bits (as_u64 w) 0 k = bits w 0 k.
Proof. intros H. rewrite as_u64_bits, bits_sub by lia. reflexivity. Qed.

Lemma condition_bits_low w k : bits (as_u64 w mod 2 ^ 64) k 3 = bits (w mod 2 ^ 64) k 3.
Proof. unfold as_u64. rewrite N.mod_mod by (apply N.pow_nonzero; lia). reflexivity. Qed.

Lemma head_at L t w :
  table_width L < 64 -> condition_shift L < 64 ->
  exists c, spec_condition (bits (w mod 2 ^ 64) (condition_shift L) 3) = Some c /\
  variant_and_condition_from_u64_word_at L (Ok t) w
  = (let* v := index t (bits w 0 (table_width L)) in Ok (v, c, bits w 0 (table_width L))).
Proof.
  intros H0 H1.
  destruct (cond_defined (bits (w mod 2 ^ 64) (condition_shift L) 3)) as [c Hc];
    [apply (bits_lt _ _ 3)|].
  exists c. split; [exact Hc|].
  unfold variant_and_condition_from_u64_word_at, prod_VARIANT_MASK_at, prod_CONDITION_MASK_at.
  rewrite variant_mask_ok, condition_mask_ok by assumption. cbn [bind].
  rewrite number_bits_eq. destruct (index t (bits w 0 (table_width L))); [|reflexivity].
  cbn [bind]. rewrite shr_const_ok by assumption. cbn [bind].
  rewrite condition_bits_eq, cond_materialize, Hc. reflexivity.
Qed.

Lemma head_at_test L T w :
  variant_and_condition_from_u128_word_at L T w
  = variant_and_condition_from_u64_word_at L T (as_u64 w).
Proof. reflexivity. Qed.

Lemma decode_at_fields m L t w :
  usable m L ->
  match index t (bits w 0 (table_width L)) with
  | Ok v => exists d, decode_at m L t w
                      = Ok (d, mkVariantMonotonicNumber (bits w 0 (table_width L))) /\
                      fields_at m L t w d
  | Panic => decode_at m L t w = Panic
  end.
Proof.
  intros (U0 & U1 & U2 & U3 & U4 & U5).
  assert (K : exists c, spec_condition (bits (w mod 2 ^ 64) (condition_shift L) 3) = Some c /\
     (let* v := index t (bits w 0 (table_width L)) in Ok (v, c, bits w 0 (table_width L)))
     = match m with
       | ProductionMode => variant_and_condition_from_u64_word_at L (Ok t) w
       | TestingMode => variant_and_condition_from_u128_word_at L (Ok t) w
       end).
  { destruct m.
    - destruct (head_at L t w U0 U1) as (c & Hc & H). exists c. split; [exact Hc|symmetry; exact H].
    - destruct (head_at L t (as_u64 w) U0 U1) as (c & Hc & H).
      rewrite condition_bits_low in Hc. rewrite number_bits_low in H by lia.
      exists c. split; [exact Hc|]. rewrite head_at_test, H. reflexivity. }
  destruct K as (c & Hc & K).
  unfold fields_at.
  destruct m; cbn [mode_word_bits mode_imm_bits] in *; unfold decode_at, prod_parse_at, test_parse_at;
    rewrite <- K; clear K;
    destruct (index t (bits w 0 (table_width L))) as [v|] eqn:Ev; try reflexivity; cbn [bind];
    repeat (rewrite shr_const_ok by assumption; cbn [bind]);
    rewrite !as_bits_8, ?as_bits_16, ?as_bits_32;
    rewrite !split_as_u4_eq by apply bits_lt; rewrite !bits_sub by lia;
    rewrite !N.add_0_r; eexists; (split; [reflexivity|]);
    cbn [variant condition src0_reg_idx src1_reg_idx dst0_reg_idx dst1_reg_idx imm_0 imm_1];
    unfold index in Ev; destruct (nth_error t (N.to_nat (bits w 0 (table_width L)))) as [x|];
    try discriminate Ev; cbn [unwrap] in Ev; (split; [congruence|]);
    (split; [exact Hc|]); repeat split.
Qed.

Lemma pf_C84_decode :
  forall m L t w,
    usable m L ->
    (bits w 0 (table_width L) < N.of_nat (List.length t) ->
     exists d, decode_at m L t w = Ok (d, mkVariantMonotonicNumber (bits w 0 (table_width L))) /\
               fields_at m L t w d) /\
    (N.of_nat (List.length t) <= bits w 0 (table_width L) -> decode_at m L t w = Panic).
Proof.
  intros m L t w U. assert (H := decode_at_fields m L t w U). unfold index in H. split; intros B.
  - destruct (nth_error t (N.to_nat (bits w 0 (table_width L)))) as [v|] eqn:E.
    + exact H.
    + apply nth_error_None in E. lia.
  - rewrite (proj2 (nth_error_None t (N.to_nat (bits w 0 (table_width L))))) in H by lia. exact H.
Qed.

Lemma decode_unique m L t w d d' n : usable m L ->
  decode_at m L t w = Ok (d, n) -> fields_at m L t w d' -> d' = d.
Proof.
  intros U H F. assert (K := decode_at_fields m L t w U). assert (F' := F).
  destruct F' as (Hv & Hc & H0 & H1 & H2 & H3 & H4 & H5).
  unfold index in K. rewrite Hv in K. cbn [unwrap] in K. destruct K as (e & K & Fe).
  assert (e = d) by congruence. subst e. destruct Fe as (Ev & Ec & E0 & E1 & E2 & E3 & E4 & E5).
  destruct d, d'; cbn in *. congruence.
Qed.

(** Reading a field back, bit by bit; the condition is looked for below bit 64. *)
Definition limit (m : mode) (k : nat) : N := match k with O => 64 | _ => mode_word_bits m end.

Lemma fields_read m L t w d k lo n v :
  w < 2 ^ mode_word_bits m -> fields_at m L t w d ->
  nth_error (places m L) k = Some (lo, n) -> nth_error (values d) k = Some v ->
  forall j, N.testbit v j = (j <? n) && ((lo + j <? limit m k) && N.testbit w (lo + j)).
Proof.
  intros B (_ & Hc & H0 & H1 & H2 & H3 & H4 & H5) Hp Hv j.
  apply cond_number_of in Hc.
  assert (G : forall i, N.testbit w i = (i <? mode_word_bits m) && N.testbit w i).
  { intros i. destruct (N.ltb_spec i (mode_word_bits m)) as [Hi|Hi]; [reflexivity|].
    apply (testbit_high w (mode_word_bits m)); assumption. }
  unfold places in Hp. unfold values in Hv.
  destruct k as [|[|[|[|[|[|[|k]]]]]]]; cbn [nth_error limit] in *;
    try (destruct k; discriminate Hp);
    injection Hp as <- <-; injection Hv as <-;
    rewrite ?Hc, ?H0, ?H1, ?H2, ?H3, ?H4, ?H5, bits_testbit.
  - rewrite mod_testbit. reflexivity.
  - rewrite <- G. reflexivity.
  - rewrite <- G. reflexivity.
  - rewrite <- G. reflexivity.
  - rewrite <- G. reflexivity.
  - rewrite <- G. reflexivity.
  - rewrite <- G. reflexivity.
Qed.

(** ** Round trips *)

Lemma nth_combine {A B} (a : list A) (b : list B) k x y :
  nth_error a k = Some x -> nth_error b k = Some y -> nth_error (combine a b) k = Some (x, y).
Proof.
  revert a b. induction k as [|k IH]; intros [|x' a] [|y' b] Ha Hb; try discriminate; cbn in *.
  - congruence.
  - apply IH; assumption.
Qed.

Lemma nth_combine_inv {A B} (a : list A) (b : list B) k x y :
  nth_error (combine a b) k = Some (x, y) -> nth_error a k = Some x /\ nth_error b k = Some y.
Proof.
  revert a b. induction k as [|k IH]; intros [|x' a] [|y' b] H; try discriminate; cbn in *.
  - split; congruence.
  - apply IH, H.
Qed.

Lemma covered_iff m L d i :
  covered m L d i = true <->
  exists k lo n v, nth_error (places m L) k = Some (lo, n) /\ nth_error (values d) k = Some v /\
    lo <= i /\ N.testbit v (i - lo) = true.
Proof.
  unfold covered. rewrite existsb_exists. split.
  - intros ([[lo n] v] & Hi & H). apply In_nth_error in Hi as [k Hk].
    apply nth_combine_inv in Hk as [Hp Hv]. apply andb_true_iff in H as [H0 H1].
    exists k, lo, n, v. repeat split; try assumption. lia.
  - intros (k & lo & n & v & Hp & Hv & Hl & Ht). exists ((lo, n), v).
    split; [eapply nth_error_In, nth_combine; eassumption|].
    replace (lo <=? i) with true by lia. exact Ht.
Qed.

Lemma value_of m L d k lo n : nth_error (places m L) k = Some (lo, n) ->
  exists v, nth_error (values d) k = Some v.
Proof.
  intros H. destruct (nth_error (values d) k) as [v|] eqn:E; [exists v; reflexivity|].
  apply nth_error_None in E. assert (k < List.length (places m L))%nat
    by (apply nth_error_Some; congruence). cbn in *. lia.
Qed.

Lemma place_of m L d k v : nth_error (values d) k = Some v ->
  exists lo n, nth_error (places m L) k = Some (lo, n).
Proof.
  intros H. destruct (nth_error (places m L) k) as [[lo n]|] eqn:E; [repeat eexists|].
  apply nth_error_None in E. assert (k < List.length (values d))%nat
    by (apply nth_error_Some; congruence). cbn in *. lia.
Qed.

Lemma value_bound m L d k lo n v :
  typed (mode_imm_bits m) d -> regs_in_range d ->
  nth_error (places m L) k = Some (lo, n) -> nth_error (values d) k = Some v -> v < 2 ^ n.
Proof.
  intros (_ & _ & _ & _ & T4 & T5) (R0 & R1 & R2 & R3) Hp Hv. assert (C := cond_lt (condition d)).
  unfold places in Hp. unfold values in Hv.
  destruct k as [|[|[|[|[|[|[|k]]]]]]]; cbn [nth_error] in *; try (destruct k; discriminate Hp);
    injection Hp as <- <-; injection Hv as <-;
    change (2 ^ 3) with 8; change (2 ^ 4) with 16; assumption.
Qed.

Lemma values_inj d d' : variant d = variant d' -> values d = values d' -> d = d'.
Proof.
  intros Hv H. destruct d as [v c a0 a1 b0 b1 i j], d' as [v' c' a0' a1' b0' b1' i' j'].
  unfold values in H. cbn in *. injection H as Hc -> -> -> -> -> ->. subst v'. f_equal.
  assert (E := cond_of_number c). rewrite Hc, cond_of_number in E. congruence.
Qed.

Lemma values_ext m L d d' : variant d = variant d' ->
  (forall k lo n v v', nth_error (places m L) k = Some (lo, n) ->
     nth_error (values d) k = Some v -> nth_error (values d') k = Some v' -> v = v') -> d = d'.
Proof.
  intros Hv H. apply values_inj; [exact Hv|].
  assert (forall k, nth_error (values d) k = nth_error (values d') k).
  { intros k. destruct (nth_error (values d) k) as [v|] eqn:E.
    - destruct (place_of m L d k v E) as (lo & n & Hp).
      destruct (value_of m L d' k lo n Hp) as [v' E']. rewrite E'. f_equal. eapply H; eassumption.
    - symmetry. apply nth_error_None. apply nth_error_None in E. exact E. }
  unfold values in *.
  assert (A0 := H0 0%nat). assert (A1 := H0 1%nat). assert (A2 := H0 2%nat). assert (A3 := H0 3%nat).
  assert (A4 := H0 4%nat). assert (A5 := H0 5%nat). assert (A6 := H0 6%nat). cbn in *. congruence.
Qed.

(** Numbers below the width of the table and separate fields can be told apart again. *)
Lemma spread_number m L n d w :
  separate m L -> n < 2 ^ table_width L -> table_width L < mode_word_bits m ->
  spread m L n d w -> bits w 0 (table_width L) = n.
Proof.
  intros (S0 & _) Hn Hw [B H]. apply N.bits_inj. intros i. rewrite bits_testbit, N.add_0_l.
  destruct (N.ltb_spec i (table_width L)) as [Hi|Hi].
  - rewrite H by lia. fold (covered m L d i).
    destruct (covered m L d i) eqn:E; [|apply orb_false_r].
    apply covered_iff in E as (k & lo & len & v & Hp & _ & Hl & _).
    apply nth_error_In in Hp. apply S0 in Hp. lia.
  - symmetry. apply (testbit_high n (table_width L)); assumption.
Qed.

Lemma spread_value m L n d w k lo len v j :
  separate m L -> n < 2 ^ table_width L -> typed (mode_imm_bits m) d -> regs_in_range d ->
  spread m L n d w ->
  nth_error (places m L) k = Some (lo, len) -> nth_error (values d) k = Some v ->
  j < len -> N.testbit w (lo + j) = N.testbit v j.
Proof.
  intros (S0 & _ & S2) Hn Ht Hr [B H] Hp Hv Hj.
  assert (P := S0 lo len (nth_error_In _ _ Hp)). rewrite H by lia. fold (covered m L d (lo + j)).
  rewrite (testbit_high n (table_width L)) by (try assumption; lia). cbn [orb].
  destruct (N.testbit v j) eqn:E.
  - apply covered_iff. exists k, lo, len, v. repeat split; try assumption; [lia|].
    replace (lo + j - lo) with j by lia. exact E.
  - destruct (covered m L d (lo + j)) eqn:C; [|reflexivity].
    apply covered_iff in C as (k' & lo' & len' & v' & Hp' & Hv' & Hl & Hb).
    assert (Vb := value_bound m L d k' lo' len' v' Ht Hr Hp' Hv').
    destruct (N.lt_ge_cases (lo + j - lo') len') as [Q|Q].
    + destruct (Nat.eq_dec k k') as [<-|Hk].
      * assert (v' = v) by congruence. assert (lo' = lo) by congruence. subst v' lo'.
        replace (lo + j - lo) with j in Hb by lia. congruence.
      * destruct (S2 k k' lo len lo' len' Hk Hp Hp'); lia.
    + rewrite (testbit_high v' len') in Hb by assumption. discriminate Hb.
Qed.

Lemma decode_spread m L t n d w :
  usable m L -> separate m L -> n < 2 ^ table_width L ->
  typed (mode_imm_bits m) d -> regs_in_range d ->
  nth_error t (N.to_nat n) = Some (variant d) -> spread m L n d w ->
  decode_at m L t w = Ok (d, mkVariantMonotonicNumber n).
Proof.
  intros U S Hn Ht Hr Hv Hs. assert (G := word_ge m). assert (U' := U). destruct U' as (U0 & _).
  assert (En := spread_number m L n d w S Hn ltac:(lia) Hs).
  assert (K := decode_at_fields m L t w U). rewrite En in K. unfold index in K.
  rewrite Hv in K. cbn [unwrap] in K. destruct K as (d' & -> & F). repeat f_equal.
  apply (values_ext m L); [destruct F as (F & _); rewrite En, Hv in F; congruence|].
  intros k lo len v v' Hp Hv1 Hv2. apply N.bits_inj. intros j.
  rewrite (fields_read m L t w d' k lo len v (proj1 Hs) F Hp Hv1 j).
  destruct (N.ltb_spec j len) as [Hj|Hj].
  - rewrite (spread_value m L n d w k lo len v' j) by assumption.
    assert (P := proj1 S lo len (nth_error_In _ _ Hp)).
    assert (Q : lo + j < limit m k).
    { destruct k; cbn [limit]; [|lia]. destruct S as (_ & S & _). cbn in Hp. injection Hp as <- <-.
      lia. }
    destruct (N.ltb_spec (lo + j) (limit m k)); [reflexivity|lia].
  - symmetry. apply (testbit_high v' len); [|exact Hj].
    exact (value_bound m L d k lo len v' Ht Hr Hp Hv2).
Qed.

(** The instruction with one bit set in one field. *)
Definition one_bit (x : OpcodeVariant) (k : nat) (j : N) : DecodedOpcode :=
  let b i := if Nat.eqb k i then 2 ^ j else 0 in
  mkDecodedOpcode x
    (if Nat.eqb k 0 then (if j =? 0 then Gt_ else if j =? 1 then Lt_ else Ge_) else Always)
    (b 1%nat) (b 2%nat) (b 3%nat) (b 4%nat) (b 5%nat) (b 6%nat).

Lemma one_bit_values m L x k j lo n k' :
  nth_error (places m L) k = Some (lo, n) -> j < n ->
  forall v, nth_error (values (one_bit x k j)) k' = Some v -> v = if Nat.eqb k k' then 2 ^ j else 0.
Proof.
  intros Hp Hj v Hv. unfold places in Hp. unfold values, one_bit in Hv.
  destruct k as [|[|[|[|[|[|[|k]]]]]]]; cbn [nth_error] in Hp; try (destruct k; discriminate Hp);
    injection Hp as <- <-;
    destruct k' as [|[|[|[|[|[|[|k']]]]]]]; cbn in Hv; try (destruct k'; discriminate Hv);
    injection Hv as <-; cbn [Nat.eqb]; try reflexivity.
  assert (Q : j = 0 \/ j = 1 \/ j = 2) by lia. destruct Q as [->|[->| ->]]; reflexivity.
Qed.

Lemma one_bit_typed m L x k j lo n :
  nth_error (places m L) k = Some (lo, n) -> j < n ->
  typed (mode_imm_bits m) (one_bit x k j) /\ regs_in_range (one_bit x k j).
Proof.
  intros Hp Hj. assert (P : 2 ^ j < 2 ^ n) by (apply N.pow_lt_mono_r; lia).
  assert (Q := pow2_pos (mode_imm_bits m)).
  unfold places in Hp. unfold typed, regs_in_range, one_bit. change (2 ^ 8) with 256.
  destruct k as [|[|[|[|[|[|[|k]]]]]]]; cbn [nth_error] in Hp; try (destruct k; discriminate Hp);
    injection Hp as <- <-; cbn [src0_reg_idx src1_reg_idx dst0_reg_idx dst1_reg_idx imm_0 imm_1 Nat.eqb];
    try change (2 ^ 4) with 16 in P; repeat split; try assumption; lia.
Qed.

Lemma first_of_head x t : first_at (x :: t) x 0.
Proof. split; [reflexivity|]. intros j Hj. lia. Qed.

Lemma one_bit_word m L t bld x k j lo n :
  usable m L -> ~ spec_repeats (x :: t) -> nth_error (places m L) k = Some (lo, n) -> j < n ->
  exists w, encode_at m L (x :: t) bld (one_bit x k j) = Ok w /\
    forall i, N.testbit w i = (i <? mode_word_bits m) && (i =? lo + j).
Proof.
  intros U Nr Hp Hj. destruct (one_bit_typed m L x k j lo n Hp Hj) as [Ht Hr].
  exists (union_at (mode_word_bits m) L 0 (one_bit x k j)). split.
  - apply pf_C84_encode; try assumption. split; [exact Nr|]. split; [intros _; exact Hr|].
    exists 0. split; [apply first_of_head|]. split; [lia|]. rewrite wrap_id by exact Hr.
    apply union_spread; [exact Hr|reflexivity].
  - intros i. rewrite union_testbit by exact Hr. rewrite N.bits_0. cbn [orb]. f_equal.
    apply eq_true_iff_eq. rewrite covered_iff, N.eqb_eq. split.
    + intros (k' & lo' & n' & v & Hp' & Hv & Hl & Hb).
      apply (one_bit_values m L x k j lo n k' Hp Hj) in Hv. subst v.
      destruct (Nat.eqb_spec k k') as [<-|_]; [|rewrite N.bits_0 in Hb; discriminate Hb].
      assert (lo' = lo) by congruence. subst lo'. rewrite N.pow2_bits_eqb in Hb. lia.
    + intros ->. destruct (value_of m L (one_bit x k j) k lo n Hp) as [v Hv].
      exists k, lo, n, v. repeat split; try assumption; [lia|].
      apply (one_bit_values m L x k j lo n k Hp Hj) in Hv. subst v.
      rewrite Nat.eqb_refl, N.pow2_bits_eqb. lia.
Qed.

(** Every instruction survives encoding and decoding exactly if no two fields share a bit and
    all lie inside the word. *)
Lemma pf_C84_roundtrip :
  forall m L t,
    usable m L -> t <> [] -> ~ spec_repeats t -> N.of_nat (List.length t) <= 2 ^ table_width L ->
    (separate m L <->
     forall bld d w, typed (mode_imm_bits m) d -> regs_in_range d ->
       encode_at m L t bld d = Ok w ->
       exists n, first_at t (variant d) n /\
         decode_at m L t w = Ok (d, mkVariantMonotonicNumber n)).
Proof.
  intros m L t U Ne Nr Len. split.
  - intros S bld d w Ht Hr H. apply pf_C84_encode in H; try assumption.
    destruct H as (_ & _ & n & Hn & _ & Hs). exists n. split; [exact Hn|].
    rewrite wrap_id in Hs by exact Hr. apply decode_spread; try assumption; [|apply Hn].
    apply first_at_iff, first_bound in Hn. lia.
  - destruct t as [|x t]; [congruence|]. intros R. assert (G := word_ge m).
    assert (U' := U). destruct U' as (U0 & _).
    assert (K : forall k lo n j, nth_error (places m L) k = Some (lo, n) -> j < n ->
       table_width L <= lo + j /\ lo + j < mode_word_bits m /\ lo + j < limit m k /\
       forall k' lo' n', k <> k' -> nth_error (places m L) k' = Some (lo', n') ->
         ~ (lo' <= lo + j < lo' + n' /\ lo + j < limit m k')).
    { intros k lo n j Hp Hj.
      destruct (one_bit_word m L t Debug x k j lo n U Nr Hp Hj) as (w & Hw & Hb).
      destruct (one_bit_typed m L x k j lo n Hp Hj) as [Ht Hr].
      destruct (R Debug _ _ Ht Hr Hw) as (n0 & Hn0 & Hd).
      assert (n0 = 0).
      { change (variant (one_bit x k j)) with x in Hn0. destruct Hn0 as [_ Hn0].
        destruct (N.eq_dec n0 0) as [E|E]; [exact E|]. exfalso. apply (Hn0 0); [lia|reflexivity]. }
      subst n0.
      assert (B : w < 2 ^ mode_word_bits m).
      { apply bits_bound. intros i Hi. rewrite Hb.
        destruct (N.ltb_spec i (mode_word_bits m)); [lia|reflexivity]. }
      assert (Hf := decode_at_fields m L (x :: t) w U).
      destruct (index (x :: t) (bits w 0 (table_width L))); [|congruence].
      destruct Hf as (d' & Hd' & F). rewrite Hd in Hd'.
      assert (d' = one_bit x k j /\ bits w 0 (table_width L) = 0) as [-> E0]
        by (split; congruence). clear Hd Hd'.
      destruct (value_of m L (one_bit x k j) k lo n Hp) as [v Hv].
      assert (V := fields_read m L _ w _ k lo n v B F Hp Hv j).
      apply (one_bit_values m L x k j lo n k Hp Hj) in Hv. subst v.
      rewrite Nat.eqb_refl, N.pow2_bits_true, Hb in V.
      assert (Q : lo + j < limit m k /\ lo + j < mode_word_bits m) by lia.
      destruct Q as [Q0 Q1].
      assert (Hb' : N.testbit w (lo + j) = true) by (rewrite Hb; lia).
      split; [|split; [exact Q1|split; [exact Q0|]]].
      - assert (T : N.testbit (bits w 0 (table_width L)) (lo + j) = false)
          by (rewrite E0; apply N.bits_0).
        rewrite bits_testbit, N.add_0_l, Hb' in T. lia.
      - intros k' lo' n' Hk Hp' [[I0 I1] Y].
        destruct (value_of m L (one_bit x k j) k' lo' n' Hp') as [v' Hv'].
        assert (V' := fields_read m L _ w _ k' lo' n' v' B F Hp' Hv' (lo + j - lo')).
        apply (one_bit_values m L x k j lo n k' Hp Hj) in Hv'. subst v'.
        rewrite (proj2 (Nat.eqb_neq k k') Hk), N.bits_0 in V'.
        replace (lo' + (lo + j - lo')) with (lo + j) in V' by lia. rewrite Hb' in V'.
        lia. }
    assert (Pos : forall k lo n, nth_error (places m L) k = Some (lo, n) -> 0 < n).
    { intros k lo n Hp. unfold places in Hp.
      destruct k as [|[|[|[|[|[|[|k]]]]]]]; cbn [nth_error] in Hp; try (destruct k; discriminate Hp);
        injection Hp as <- <-; try lia; destruct m; cbn; lia. }
    assert (C : condition_shift L + 3 <= 64).
    { destruct (K 0%nat (condition_shift L) 3 2 eq_refl) as (_ & _ & Q & _); [lia|].
      cbn [limit] in Q. lia. }
    assert (Lim : forall k lo n i, nth_error (places m L) k = Some (lo, n) -> i < lo + n ->
              i < mode_word_bits m -> i < limit m k).
    { intros k lo n i Hp Hi Hw. destruct k; cbn [limit]; [|exact Hw]. cbn in Hp.
      injection Hp as <- <-. lia. }
    split; [|split; [exact C|]].
    + intros lo n Hi. apply In_nth_error in Hi as [k Hp]. assert (P := Pos k lo n Hp).
      destruct (K k lo n 0 Hp) as (A & _); [lia|].
      destruct (K k lo n (n - 1) Hp) as (_ & B & _); [lia|]. lia.
    + intros k k' lo n lo' n' Hk Hp Hp'. assert (P := Pos k lo n Hp). assert (P' := Pos k' lo' n' Hp').
      destruct (N.le_gt_cases (lo + n) lo') as [A|A]; [left; exact A|].
      destruct (N.le_gt_cases (lo' + n') lo) as [B|B]; [right; exact B|]. exfalso.
      destruct (K k lo n (N.max lo lo' - lo) Hp) as (_ & Q & _ & D); [lia|].
      apply (D k' lo' n' Hk Hp'). replace (lo + (N.max lo lo' - lo)) with (N.max lo lo') in * by lia.
      split; [lia|]. apply (Lim k' lo' n'); [exact Hp'|lia|exact Q].
Qed.

(** ** Which constants can be used, and the canonicity check *)

Lemma shl_const_inv W x k y : shl_const W x k = Ok y -> k < W.
Proof. unfold shl_const. destruct (N.ltb_spec k W); [auto|discriminate]. Qed.
Lemma shr_const_inv W x k y : shr_const W x k = Ok y -> k < W.
Proof. unfold shr_const. destruct (N.ltb_spec k W); [auto|discriminate]. Qed.

Lemma gap_mask_ok m L : gap_usable m L ->
  (let* x := (let* k := sub_w Debug 64 (head_bits L) (table_width L) in
              let* k := sub_w Debug 64 k CONDITIONAL_BITS_WIDTH in
              let* x := shl_const (mode_word_bits m) 1 k in
              sub_w Debug (mode_word_bits m) x 1) in
   shl_const (mode_word_bits m) x (table_width L))
  = Ok (shl (mode_word_bits m) (N.ones (gap L)) (table_width L)).
Proof.
  intros (G0 & G1 & G2). unfold sub_w at 1.
  destruct (N.leb_spec (table_width L) (head_bits L)); [|lia]. cbn [bind].
  unfold sub_w at 1. change CONDITIONAL_BITS_WIDTH with 3.
  destruct (N.leb_spec 3 (head_bits L - table_width L)); [|lia]. cbn [bind].
  fold (gap L). rewrite shl_const_ok by exact G2. cbn [bind].
  assert (B : 2 ^ gap L < 2 ^ mode_word_bits m) by (apply N.pow_lt_mono_r; lia).
  rewrite shl_small by lia. rewrite N.mul_1_l. assert (P := pow2_pos (gap L)).
  unfold sub_w. destruct (N.leb_spec 1 (2 ^ gap L)); [|lia]. cbn [bind].
  rewrite N.ones_equiv, <- N.sub_1_r. apply shl_const_ok. exact G0.
Qed.

Lemma gap_mask_inv m L y :
  (let* x := (let* k := sub_w Debug 64 (head_bits L) (table_width L) in
              let* k := sub_w Debug 64 k CONDITIONAL_BITS_WIDTH in
              let* x := shl_const (mode_word_bits m) 1 k in
              sub_w Debug (mode_word_bits m) x 1) in
   shl_const (mode_word_bits m) x (table_width L)) = Ok y -> gap_usable m L.
Proof.
  unfold sub_w at 1.
  destruct (N.leb_spec (table_width L) (head_bits L)); [|discriminate]. cbn [bind].
  unfold sub_w at 1. change CONDITIONAL_BITS_WIDTH with 3.
  destruct (N.leb_spec 3 (head_bits L - table_width L)); [|discriminate]. cbn [bind].
  destruct (shl_const (mode_word_bits m) 1 _) as [x|] eqn:E; [|discriminate].
  apply shl_const_inv in E. cbn [bind].
  destruct (sub_w Debug (mode_word_bits m) x 1); [|discriminate]. cbn [bind].
  intros Hy. apply shl_const_inv in Hy. unfold gap_usable, gap. lia.
Qed.

Lemma land_gap m L w : w < 2 ^ mode_word_bits m ->
  (N.land w (shl (mode_word_bits m) (N.ones (gap L)) (table_width L)) =? 0)
  = (bits w (table_width L) (gap L) =? 0).
Proof.
  intros B. apply eq_true_iff_eq. rewrite !N.eqb_eq. split; intros H; apply N.bits_inj; intros i;
    rewrite N.bits_0.
  - rewrite bits_testbit. destruct (N.ltb_spec i (gap L)) as [Hi|Hi]; [|reflexivity]. cbn [andb].
    destruct (N.lt_ge_cases (table_width L + i) (mode_word_bits m)) as [Hw|Hw];
      [|apply (testbit_high w (mode_word_bits m)); assumption].
    assert (E : N.testbit (N.land w (shl (mode_word_bits m) (N.ones (gap L)) (table_width L)))
                  (table_width L + i) = false) by (rewrite H; apply N.bits_0).
    rewrite N.land_spec, shl_testbit, ones_testbit in E.
    replace (table_width L + i - table_width L) with i in E by lia.
    destruct (N.testbit w (table_width L + i)); [|reflexivity]. lia.
  - rewrite N.land_spec, shl_testbit, ones_testbit.
    destruct (N.leb_spec (table_width L) i) as [Hi|Hi]; [|rewrite !andb_false_r; reflexivity].
    assert (E : N.testbit (bits w (table_width L) (gap L)) (i - table_width L) = false)
      by (rewrite H; apply N.bits_0).
    rewrite bits_testbit in E. replace (table_width L + (i - table_width L)) with i in E by lia.
    destruct (N.testbit w i); lia.
Qed.

Lemma canonical_at_eq m L w : gap_usable m L -> w < 2 ^ mode_word_bits m ->
  canonical_at m L w = Ok (bits w (table_width L) (gap L) =? 0).
Proof.
  intros G B. rewrite <- land_gap with (m := m) by exact B. assert (M := gap_mask_ok m L G).
  destruct m; cbn [canonical_at mode_word_bits] in *;
    unfold prod_is_canonical_encoding_at, test_is_canonical_encoding_at,
      prod_UNUSED_BITS_MASK_at, test_UNUSED_BITS_MASK_at, prod_UNUSED_GAP_RAW_MASK_at,
      test_UNUSED_GAP_RAW_MASK_at; rewrite M; reflexivity.
Qed.

(** The decoder can be compiled exactly if every field starts inside its integer, the encoder
    if all fields after the number do, the check if number, gap and condition fit the head; the
    check then asks for a zero gap. *)
Lemma pf_C84_constants :
  forall m L,
    ((exists t w r, decode_at m L t w = Ok r) <-> usable m L) /\
    ((exists t bld d w, encode_at m L t bld d = Ok w) <->
       Forall (fun k => k < mode_word_bits m)
         [condition_shift L; src_shift L; dst_shift L; imm0_shift L; imm1_shift L]) /\
    ((exists w b, canonical_at m L w = Ok b) <-> gap_usable m L) /\
    (gap_usable m L -> forall w, w < 2 ^ mode_word_bits m ->
       canonical_at m L w = Ok (bits w (table_width L) (gap L) =? 0)).
Proof.
  intros m L. split; [|split; [|split]].
  - split.
    + intros (t & w & r & H).
      assert (Hd : forall T w, variant_and_condition_from_u64_word_at L T w = Panic \/
                     table_width L < 64 /\ condition_shift L < 64).
      { clear. intros T w. unfold variant_and_condition_from_u64_word_at, prod_VARIANT_MASK_at,
          prod_CONDITION_MASK_at.
        destruct (shl_const 64 1 (table_width L)) as [x|] eqn:E; [|left; reflexivity].
        apply shl_const_inv in E. cbn [bind].
        destruct (sub_w Debug 64 x 1); [|left; reflexivity]. cbn [bind].
        destruct T; [|left; reflexivity]. cbn [bind].
        destruct (index _ _); [|left; reflexivity]. cbn [bind].
        change (shl_const 64 1 CONDITIONAL_BITS_WIDTH) with (@Ok N 8). cbn [bind].
        change (sub_w Debug 64 8 1) with (@Ok N 7). cbn [bind].
        destruct (shl_const 64 7 (condition_shift L)) as [y|] eqn:E'; [|left; reflexivity].
        apply shl_const_inv in E'. right. split; assumption. }
      unfold usable.
      assert (K : match m with
                  | ProductionMode => variant_and_condition_from_u64_word_at L (Ok t) w
                  | TestingMode => variant_and_condition_from_u128_word_at L (Ok t) w
                  end <> Panic).
      { intros K. destruct m; unfold decode_at, prod_parse_at, test_parse_at in H; rewrite K in H;
          discriminate H. }
      assert (Q : table_width L < 64 /\ condition_shift L < 64).
      { destruct m; [destruct (Hd (Ok t) w)|rewrite head_at_test in K; destruct (Hd (Ok t) (as_u64 w))];
          tauto. }
      split; [apply Q|]. split; [apply Q|].
      destruct m; cbn [mode_word_bits]; unfold decode_at, prod_parse_at, test_parse_at in H;
        [destruct (variant_and_condition_from_u64_word_at L (Ok t) w) as [[[v c] n]|]
        |destruct (variant_and_condition_from_u128_word_at L (Ok t) w) as [[[v c] n]|]];
        try discriminate H; cbn [bind] in H;
        (destruct (shr_const _ w (src_shift L)) eqn:E1; [|discriminate H]);
        apply shr_const_inv in E1; cbn [bind] in H;
        (destruct (shr_const _ w (dst_shift L)) eqn:E2; [|discriminate H]);
        apply shr_const_inv in E2; cbn [bind] in H;
        (destruct (shr_const _ w (imm0_shift L)) eqn:E3; [|discriminate H]);
        apply shr_const_inv in E3; cbn [bind] in H;
        (destruct (shr_const _ w (imm1_shift L)) eqn:E4; [|discriminate H]);
        apply shr_const_inv in E4; repeat split; assumption.
    + intros U. exists [spec_invalid], 0. assert (K := decode_at_fields m L [spec_invalid] 0 U).
      assert (E : bits 0 0 (table_width L) = 0).
      { unfold bits. rewrite N.div_0_l by (apply N.pow_nonzero; lia).
        apply N.mod_0_l, N.pow_nonzero. lia. }
      rewrite E in K. cbn in K. destruct K as (d & K & _). eexists. exact K.
  - split.
    + intros (t & bld & d & w & H). rewrite encode_at_gen in H. unfold gen_encode_at in H.
      destruct (canonical_map_of_table t); [|discriminate H]. cbn [bind] in H.
      destruct (unwrap _); [|discriminate H]. cbn [bind] in H.
      destruct (assert_ _); [|discriminate H]. cbn [bind] in H.
      destruct (assert_ _); [|discriminate H]. cbn [bind] in H.
      destruct (shl_const _ _ (condition_shift L)) eqn:E0; [|discriminate H].
      apply shl_const_inv in E0. cbn [bind] in H.
      destruct (merge_u4 _ _ _); [|discriminate H]. cbn [bind] in H.
      destruct (shl_const _ _ (src_shift L)) eqn:E1; [|discriminate H].
      apply shl_const_inv in E1. cbn [bind] in H.
      destruct (merge_u4 _ _ _); [|discriminate H]. cbn [bind] in H.
      destruct (shl_const _ _ (dst_shift L)) eqn:E2; [|discriminate H].
      apply shl_const_inv in E2. cbn [bind] in H.
      destruct (shl_const _ _ (imm0_shift L)) eqn:E3; [|discriminate H].
      apply shl_const_inv in E3. cbn [bind] in H.
      destruct (shl_const _ _ (imm1_shift L)) eqn:E4; [|discriminate H].
      apply shl_const_inv in E4. repeat constructor; assumption.
    + intros F. inversion_clear F as [|? ? F0 Fr]. inversion_clear Fr as [|? ? F1 Fs].
      inversion_clear Fs as [|? ? F2 Ft]. inversion_clear Ft as [|? ? F3 Fu].
      inversion_clear Fu as [|? ? F4 _].
      exists [spec_invalid], Debug, (mkDecodedOpcode spec_invalid Always 0 0 0 0 0 0).
      eexists. rewrite encode_at_gen. unfold gen_encode_at.
      destruct (pf_C14_any_table [spec_invalid]) as (Hc & _ & Hg & _).
      destruct (canonical_map_of_table [spec_invalid]) as [c|] eqn:E; [|vm_compute in E; discriminate E].
      cbn [bind]. rewrite (Hg c eq_refl). change (first_index _ _) with (Some 0). cbn [unwrap bind].
      change (trailing_zeros 64 (next_power_of_two 0)) with 0.
      replace (0 <=? table_width L) with true by lia. cbn [assert_ bind condition].
      change (trailing_zeros 64 (next_power_of_two (Condition_variant_index Always))
              <=? CONDITIONAL_BITS_WIDTH) with true. cbn [assert_ bind].
      rewrite shl_const_ok by assumption. cbn [bind src0_reg_idx src1_reg_idx].
      change (merge_u4 Debug 0 0) with (@Ok N 0). cbn [bind].
      rewrite shl_const_ok by assumption. cbn [bind dst0_reg_idx dst1_reg_idx].
      change (merge_u4 Debug 0 0) with (@Ok N 0). cbn [bind imm_0 imm_1].
      repeat (rewrite shl_const_ok by assumption; cbn [bind]). reflexivity.
  - split.
    + intros (w & b & H).
      destruct m; cbn [canonical_at] in H;
        unfold prod_is_canonical_encoding_at, test_is_canonical_encoding_at in H.
      * destruct (prod_UNUSED_BITS_MASK_at L) eqn:E; [|discriminate H].
        exact (gap_mask_inv ProductionMode L _ E).
      * destruct (test_UNUSED_BITS_MASK_at L) eqn:E; [|discriminate H].
        exact (gap_mask_inv TestingMode L _ E).
    + intros G. exists 0. eexists. apply canonical_at_eq; [exact G|apply pow2_pos].
  - intros G w B. apply canonical_at_eq; assumption.
Qed.

Lemma covered_in_field m L d i :
  typed (mode_imm_bits m) d -> regs_in_range d -> covered m L d i = true -> in_field m L i.
Proof.
  intros Ht Hr H. apply covered_iff in H as (k & lo & n & v & Hp & Hv & Hl & Hb).
  exists lo, n. split; [eapply nth_error_In, Hp|]. split; [exact Hl|].
  assert (B := value_bound m L d k lo n v Ht Hr Hp Hv).
  destruct (N.lt_ge_cases (i - lo) n) as [Q|Q]; [lia|].
  rewrite (testbit_high v n) in Hb by assumption. discriminate Hb.
Qed.

Lemma fields_typed_at m L t w d : fields_at m L t w d ->
  typed (mode_imm_bits m) d /\ regs_in_range d.
Proof.
  intros (_ & _ & H0 & H1 & H2 & H3 & H4 & H5). unfold typed, regs_in_range.
  rewrite H0, H1, H2, H3, H4, H5. assert (B : forall lo, bits w lo 4 < 16) by (intros lo; apply bits_lt).
  assert (B0 := B (src_shift L)). assert (B1 := B (src_shift L + 4)).
  assert (B2 := B (dst_shift L)). assert (B3 := B (dst_shift L + 4)).
  change (2 ^ 8) with 256. repeat split; try apply bits_lt; lia.
Qed.

Lemma in_field_dec m L i : in_field m L i \/ ~ in_field m L i.
Proof.
  destruct (existsb (fun '(lo, n) => (lo <=? i) && (i <? lo + n)) (places m L)) eqn:E.
  - left. apply existsb_exists in E as ([lo n] & Hi & H). exists lo, n. split; [exact Hi|lia].
  - right. intros (lo & n & Hi & H).
    assert (existsb (fun '(lo, n) => (lo <=? i) && (i <? lo + n)) (places m L) = true); [|congruence].
    apply existsb_exists. exists (lo, n). split; [exact Hi|lia].
Qed.

(** For separate fields, every encoded word passes the check exactly if no field has a bit in the
    gap; and every word that passes and whose number is the one of its variant survives decoding
    and encoding exactly if every bit after the number belongs to a field or to the gap. *)
Lemma pf_C84_canonical :
  forall m L t,
    usable m L -> gap_usable m L -> separate m L -> t <> [] -> ~ spec_repeats t ->
    N.of_nat (List.length t) <= 2 ^ table_width L ->
    (gap_free m L <->
     forall bld d w, typed (mode_imm_bits m) d -> regs_in_range d ->
       encode_at m L t bld d = Ok w -> canonical_at m L w = Ok true) /\
    (gap_complete m L <->
     forall w x, w < 2 ^ mode_word_bits m -> canonical_at m L w = Ok true ->
       first_at t x (bits w 0 (table_width L)) ->
       exists d, decode_at m L t w = Ok (d, mkVariantMonotonicNumber (bits w 0 (table_width L))) /\
         forall bld, encode_at m L t bld d = Ok w).
Proof.
  intros m L t U G S Ne Nr Len. assert (S' := S). destruct S' as (S0 & S1 & _).
  assert (Gm := word_ge m). assert (U' := U). destruct U' as (U0 & _).
  split; split.
  - intros F bld d w Ht Hr H. apply pf_C84_encode in H; try assumption.
    destruct H as (_ & _ & n & Hn & _ & Hs). rewrite wrap_id in Hs by exact Hr.
    apply first_at_iff, first_bound in Hn.
    rewrite canonical_at_eq by (try assumption; apply Hs). f_equal. apply N.eqb_eq.
    apply N.bits_inj. intros i. rewrite N.bits_0, bits_testbit.
    destruct (N.ltb_spec i (gap L)) as [Hi|Hi]; [|reflexivity]. cbn [andb].
    destruct Hs as [B Hs].
    destruct (N.lt_ge_cases (table_width L + i) (mode_word_bits m)) as [Hw|Hw];
      [|apply (testbit_high w (mode_word_bits m)); assumption].
    rewrite Hs by exact Hw. rewrite (testbit_high n (table_width L)) by lia. cbn [orb].
    fold (covered m L d (table_width L + i)).
    destruct (covered m L d (table_width L + i)) eqn:E; [|reflexivity]. exfalso.
    apply (F (table_width L + i)); [unfold in_gap; lia|].
    exact (covered_in_field m L d _ Ht Hr E).
  - destruct t as [|x t]; [congruence|]. intros H i [I0 I1] (lo & n & Hi & Hl).
    assert (P := S0 lo n Hi). apply In_nth_error in Hi as [k Hp].
    destruct (one_bit_word m L t Debug x k (i - lo) lo n U Nr Hp) as (w & Hw & Hb); [lia|].
    destruct (one_bit_typed m L x k (i - lo) lo n Hp) as [Ht Hr]; [lia|].
    assert (B : w < 2 ^ mode_word_bits m).
    { apply bits_bound. intros i' Hi'. rewrite Hb.
      destruct (N.ltb_spec i' (mode_word_bits m)); [lia|reflexivity]. }
    assert (C := H Debug _ _ Ht Hr Hw). rewrite canonical_at_eq in C by assumption.
    injection C as C. apply N.eqb_eq in C.
    assert (E : N.testbit (bits w (table_width L) (gap L)) (i - table_width L) = false)
      by (rewrite C; apply N.bits_0).
    rewrite bits_testbit, Hb in E. lia.
  - intros Cm w x B C Hx. rewrite canonical_at_eq in C by assumption. injection C as C.
    apply N.eqb_eq in C. assert (K := decode_at_fields m L t w U). unfold index in K.
    assert (Hx' := Hx). destruct Hx' as [Hx0 _]. rewrite Hx0 in K. cbn [unwrap] in K.
    destruct K as (d & K & F). exists d. split; [exact K|]. intros bld.
    destruct (fields_typed_at _ _ _ _ _ F) as [Ht Hr].
    assert (Ev : variant d = x) by (destruct F as (F & _); congruence).
    apply pf_C84_encode; try assumption. split; [exact Nr|]. split; [intros _; exact Hr|].
    exists (bits w 0 (table_width L)). rewrite Ev, wrap_id by exact Hr. split; [exact Hx|].
    split; [assert (Q := bits_lt w 0 (table_width L)); lia|]. split; [exact B|].
    intros i Hi. fold (covered m L d i). rewrite bits_testbit, N.add_0_l.
    apply eq_true_iff_eq. rewrite orb_true_iff, andb_true_iff. split.
    + intros Hb. destruct (N.lt_ge_cases i (table_width L)) as [Q|Q]; [left; split; [lia|exact Hb]|].
      right. destruct (Cm i) as [(lo & n & Hin & Hl)|[_ Hg]]; [lia| |].
      * assert (P := S0 lo n Hin). apply In_nth_error in Hin as [k Hp].
        destruct (value_of m L d k lo n Hp) as [v Hv]. apply covered_iff.
        exists k, lo, n, v. repeat split; try assumption; [lia|].
        rewrite (fields_read m L t w d k lo n v B F Hp Hv (i - lo)).
        replace (lo + (i - lo)) with i by lia. rewrite Hb.
        assert (Y : i < limit m k).
        { destruct k; cbn [limit]; [|lia]. cbn in Hp. injection Hp as <- <-. lia. }
        lia.
      * exfalso.
        assert (E : N.testbit (bits w (table_width L) (gap L)) (i - table_width L) = false)
          by (rewrite C; apply N.bits_0).
        rewrite bits_testbit in E. replace (table_width L + (i - table_width L)) with i in E by lia.
        rewrite Hb in E. lia.
    + intros [[_ Hb]|Hc]; [exact Hb|].
      apply covered_iff in Hc as (k & lo & n & v & Hp & Hv & Hl & Hb).
      rewrite (fields_read m L t w d k lo n v B F Hp Hv (i - lo)) in Hb.
      replace (lo + (i - lo)) with i in Hb by lia.
      apply andb_true_iff in Hb as [_ Hb]. apply andb_true_iff in Hb as [_ Hb]. exact Hb.
  - destruct t as [|x t]; [congruence|]. intros H i Hi.
    destruct (in_field_dec m L i) as [Q|Q]; [left; exact Q|].
    destruct (N.lt_ge_cases i (table_width L + gap L)) as [R|R]; [right; unfold in_gap; lia|].
    exfalso.
    assert (B : 2 ^ i < 2 ^ mode_word_bits m) by (apply N.pow_lt_mono_r; lia).
    assert (Z : forall lo n, (i < lo \/ lo + n <= i) -> bits (2 ^ i) lo n = 0).
    { intros lo n Y. apply N.bits_inj. intros j. rewrite N.bits_0, bits_testbit, N.pow2_bits_eqb. lia. }
    destruct (H (2 ^ i) x B) as (d & Hd & He).
    + rewrite canonical_at_eq by assumption. rewrite Z by lia. reflexivity.
    + rewrite Z by lia. apply first_of_head.
    + specialize (He Debug). assert (K := decode_at_fields m L (x :: t) (2 ^ i) U).
      destruct (index (x :: t) _); [|congruence]. destruct K as (d' & Hd' & F).
      assert (d' = d) by congruence. subst d'. destruct (fields_typed_at _ _ _ _ _ F) as [Ht Hr].
      apply pf_C84_encode in He; try assumption. destruct He as (_ & _ & n & Hn & _ & Hs).
      rewrite wrap_id in Hs by exact Hr. destruct Hs as [_ Hs]. specialize (Hs i ltac:(lia)).
      apply first_at_iff, first_bound in Hn.
      rewrite N.pow2_bits_true, (testbit_high n (table_width L)) in Hs by lia. cbn [orb] in Hs.
      apply Q, (covered_in_field m L d i Ht Hr). symmetry. exact Hs.
Qed.

(** ** The constants of the source, and wider tables *)

Ltac by_places :=
  unfold places in *; cbn [current_layout with_width prod_layout test_layout table_width
    condition_shift src_shift dst_shift imm0_shift imm1_shift head_bits mode_imm_bits
    mode_word_bits] in *;
  change OPCODES_TABLE_WIDTH with 11 in *; change CONDITIONAL_BITS_SHIFT with 13 in *;
  change SRC_REGS_SHIFT with 16 in *; change DST_REGS_SHIFT with 24 in *;
  change prod_IMM0_SHIFT with 32 in *; change prod_IMM1_SHIFT with 48 in *;
  change test_IMM0_SHIFT with 32 in *; change test_IMM1_SHIFT with 64 in *;
  change prod_VARIANT_AND_CONDITION_BITS with 16 in *;
  change test_VARIANT_AND_CONDITION_BITS with 16 in *.

(** With the other constants as they are, the table can have up to 13 bits, and every encoded
    word then passes the check; with 14 bits the crate does not compile.  In testing mode 32 bits
    after the immediates belong neither to a field nor to the gap. *)
Lemma pf_C84_growth :
  forall m k,
    let L := with_width k (current_layout m) in
    (usable m L /\ gap_usable m L /\ separate m L <-> k <= 13) /\
    (gap_usable m L <-> k <= 13) /\
    (k <= 13 -> gap_free m L /\ (gap_complete m L <-> m = ProductionMode)).
Proof.
  intros m k L.
  assert (G : gap_usable m L <-> k <= 13).
  { unfold L, gap_usable, gap. destruct m; by_places; lia. }
  split; [|split; [exact G|]].
  - split; [intros (_ & H & _); apply G, H|]. intros Hk. split; [|split; [apply G, Hk|]].
    + unfold L, usable. destruct m; by_places; lia.
    + unfold L, separate. split; [|split].
      * intros lo n H. destruct m; by_places; cbn [In] in H;
          repeat (destruct H as [H|H]; [injection H as <- <-; lia|]); contradiction.
      * destruct m; by_places; lia.
      * intros a b lo n lo' n' Hab Ha Hb.
        destruct m; by_places;
        destruct a as [|[|[|[|[|[|[|a]]]]]]]; cbn [nth_error] in Ha;
          try (destruct a; discriminate Ha); injection Ha as <- <-;
        destruct b as [|[|[|[|[|[|[|b]]]]]]]; cbn [nth_error] in Hb;
          try (destruct b; discriminate Hb); injection Hb as <- <-; try lia; congruence.
  - intros Hk. split.
    + intros i Hi (lo & n & Hin & Hl). unfold L, in_gap, gap in Hi. unfold L in Hin.
      destruct m; by_places; cbn [In] in Hin;
        repeat (destruct Hin as [Hin|Hin]; [injection Hin as <- <-; lia|]); contradiction.
    + split.
      * intros C. destruct m; [reflexivity|exfalso].
        destruct (C 127) as [(lo & n & Hin & Hl)|Hg].
        { unfold L. by_places. lia. }
        { unfold L in Hin. by_places. cbn [In] in Hin.
          repeat (destruct Hin as [Hin|Hin]; [injection Hin as <- <-; lia|]); contradiction. }
        { unfold L, in_gap, gap in Hg. by_places. lia. }
      * intros -> i Hi. unfold in_gap, gap, in_field, L in *.
        assert (Q : k <= i < 13 \/ 13 <= i < 16 \/ 16 <= i < 20 \/ 20 <= i < 24 \/ 24 <= i < 28 \/
                    28 <= i < 32 \/ 32 <= i < 48 \/ 48 <= i < 64) by (by_places; lia).
        destruct Q as [Q|Q]; [right; by_places; lia|]. left.
        destruct Q as [Q|[Q|[Q|[Q|[Q|[Q|Q]]]]]];
          [exists 13, 3|exists 16, 4|exists 20, 4|exists 24, 4|exists 28, 4
          |exists 32, 16|exists 48, 16];
          (split; [cbn; tauto|lia]).
Qed.

(** With the constants of the source these are the codecs of the source. *)
Lemma pf_C84_current :
  forall m,
    let L := current_layout m in
    usable m L /\ gap_usable m L /\ separate m L /\ gap_free m L /\
    (gap_complete m L <-> m = ProductionMode) /\
    (forall t w, decode_at m L t w = decode_in m t w) /\
    (forall t bld d, encode_at m L t bld d = encode_in m t bld d) /\
    (forall w, canonical_at m L w = Ok (is_canonical_encoding (mode_impl m) w)).
Proof.
  intros m L. destruct (pf_C84_growth m 11) as (A & _ & B).
  assert (E : with_width 11 (current_layout m) = current_layout m) by (destruct m; reflexivity).
  rewrite E in A, B. destruct (proj2 A) as (A0 & A1 & A2); [lia|]. destruct B as [B0 B1]; [lia|].
  split; [exact A0|]. split; [exact A1|]. split; [exact A2|]. split; [exact B0|].
  split; [exact B1|]. split; [|split].
  - intros t w. destruct m; reflexivity.
  - intros t bld d. destruct m; reflexivity.
  - intros w. destruct m; reflexivity.
Qed.

(** Widening the table alone: words of the narrower table are read alike, and a word of the
    wider table passes the check of the narrower one exactly if its number fits that table;
    without the check it would be read with the number taken modulo the size of the table. *)
Lemma pf_C84_widen :
  forall m L k,
    let L' := with_width k L in
    usable m L -> separate m L -> usable m L' -> separate m L' -> table_width L <= k ->
    (forall t t' bld d w n,
       N.of_nat (List.length t) <= 2 ^ table_width L -> typed (mode_imm_bits m) d ->
       encode_at m L t bld d = Ok w -> first_at t (variant d) n ->
       nth_error t' (N.to_nat n) = Some (variant d) ->
       decode_at m L' t' w = Ok (spec_wrap d, mkVariantMonotonicNumber n) /\
       decode_at m L t w = Ok (spec_wrap d, mkVariantMonotonicNumber n)) /\
    (gap_usable m L -> gap_usable m L' -> gap_free m L' ->
     forall t' bld d w n,
       N.of_nat (List.length t') <= 2 ^ k -> typed (mode_imm_bits m) d ->
       encode_at m L' t' bld d = Ok w -> first_at t' (variant d) n ->
       canonical_at m L w = Ok (n <? 2 ^ table_width L) /\
       bits w 0 (table_width L) = n mod 2 ^ table_width L).
Proof.
  intros m L k L' U S U' S' Hk.
  assert (Fu : forall t x n n', first_at t x n -> first_at t x n' -> n' = n).
  { intros t x n n' H H'. apply first_at_iff in H. apply first_at_iff in H'. congruence. }
  split.
  - intros t t' bld d w n Len Ht H Hn Hn'. apply pf_C84_encode in H; try assumption.
    destruct H as (_ & _ & n0 & Hn0 & _ & Hs). assert (n0 = n) by (eapply Fu; eassumption). subst n0.
    destruct (wrap_typed _ _ Ht) as [Tw Rw].
    assert (B : n < 2 ^ table_width L) by (apply first_at_iff, first_bound in Hn; lia).
    assert (B' : 2 ^ table_width L <= 2 ^ k) by (apply N.pow_le_mono_r; lia).
    split; apply decode_spread; try assumption; [cbn; lia|apply Hn].
  - intros G G' F t' bld d w n Len Ht H Hn. apply pf_C84_encode in H; try assumption.
    destruct H as (_ & _ & n0 & Hn0 & _ & Hs). assert (n0 = n) by (eapply Fu; eassumption). subst n0.
    destruct (wrap_typed _ _ Ht) as [Tw Rw]. assert (Gm := word_ge m).
    assert (Hk' : k < 64) by (destruct U' as (U' & _); exact U').
    assert (B : n < 2 ^ k) by (apply first_at_iff, first_bound in Hn; lia).
    assert (En : bits w 0 k = n) by (apply (spread_number m L' n (spec_wrap d)); try assumption; cbn; lia).
    assert (Q : forall i, k <= i < k + gap L' -> N.testbit w i = false).
    { intros i Hi. destruct (N.lt_ge_cases i (mode_word_bits m)) as [Hw|Hw];
        [|apply (testbit_high w (mode_word_bits m)); [apply Hs|exact Hw]].
      destruct Hs as [_ Hs]. rewrite Hs by exact Hw. rewrite (testbit_high n k) by lia. cbn [orb].
      fold (covered m L' (spec_wrap d) i).
      destruct (covered m L' (spec_wrap d) i) eqn:E; [|reflexivity]. exfalso.
      apply (F i); [exact Hi|]. exact (covered_in_field m L' _ _ Tw Rw E). }
    assert (N0 : forall i, i < k -> N.testbit w i = N.testbit n i).
    { intros i Hi. rewrite <- En, bits_testbit, N.add_0_l. replace (i <? k) with true by lia.
      reflexivity. }
    split.
    + rewrite canonical_at_eq by (try assumption; apply Hs). f_equal. apply eq_true_iff_eq.
      rewrite N.eqb_eq, N.ltb_lt. split.
      * intros E. apply bits_bound. intros i Hi.
        destruct (N.lt_ge_cases i k) as [Q0|Q0]; [|apply (testbit_high n k); assumption].
        rewrite <- N0 by exact Q0.
        assert (T : N.testbit (bits w (table_width L) (gap L)) (i - table_width L) = false)
          by (rewrite E; apply N.bits_0).
        rewrite bits_testbit in T. replace (table_width L + (i - table_width L)) with i in T by lia.
        destruct G' as (_ & G' & _). unfold gap in T. cbn [with_width table_width head_bits L'] in G'.
        destruct (N.testbit w i); [lia|reflexivity].
      * intros Hb. apply N.bits_inj. intros i. rewrite N.bits_0, bits_testbit.
        destruct (N.ltb_spec i (gap L)) as [Hi|Hi]; [|reflexivity]. cbn [andb].
        destruct (N.lt_ge_cases (table_width L + i) k) as [Q0|Q0].
        { rewrite N0 by exact Q0. apply (testbit_high n (table_width L)); [exact Hb|lia]. }
        { apply Q. unfold gap in *. cbn [with_width table_width head_bits L']. lia. }
    + apply N.bits_inj. intros i. rewrite bits_testbit, mod_testbit, N.add_0_l.
      destruct (N.ltb_spec i (table_width L)) as [Hi|Hi]; [|reflexivity]. cbn [andb].
      apply N0. lia.
Qed.

(** The check is not tied to the place of the condition: moving the condition one bit down into
    the gap leaves all instructions readable, but some encoded words fail the check. *)
Lemma pf_C84_check_refuted :
  forall m, exists L,
    usable m L /\ gap_usable m L /\ separate m L /\ head_bits L = 16 /\ condition_shift L = 12 /\
    forall t, t <> [] -> ~ spec_repeats t ->
      exists d w, typed (mode_imm_bits m) d /\ regs_in_range d /\
        encode_at m L t Debug d = Ok w /\ canonical_at m L w = Ok false.
Proof.
  intros m.
  set (L := mkLayout 11 12 16 24 32 (32 + mode_imm_bits m) 16). exists L.
  assert (U : usable m L) by (unfold usable; destruct m; cbn; lia).
  assert (G : gap_usable m L) by (unfold gap_usable, gap; destruct m; cbn; lia).
  split; [exact U|]. split; [exact G|]. split; [|split; [reflexivity|split; [reflexivity|]]].
  - unfold separate. split; [|split; [cbn; lia|]].
    + intros lo n H. unfold L, places in *.
      cbn [table_width condition_shift src_shift dst_shift imm0_shift imm1_shift In] in *.
      destruct m; cbn [mode_imm_bits mode_word_bits] in *;
        repeat (destruct H as [H|H]; [injection H as <- <-; lia|]); contradiction.
    + intros a b lo n lo' n' Hab Ha Hb. unfold L, places in *.
      cbn [table_width condition_shift src_shift dst_shift imm0_shift imm1_shift] in *.
      destruct m; cbn [mode_imm_bits] in *;
      destruct a as [|[|[|[|[|[|[|a]]]]]]]; cbn [nth_error] in Ha;
          try (destruct a; discriminate Ha); injection Ha as <- <-;
        destruct b as [|[|[|[|[|[|[|b]]]]]]]; cbn [nth_error] in Hb;
          try (destruct b; discriminate Hb); injection Hb as <- <-; try lia; congruence.
  - intros t Ne Nr. destruct t as [|x t]; [congruence|].
    destruct (one_bit_word m L t Debug x 0%nat 0 12 3 U Nr eq_refl) as (w & Hw & Hb); [lia|].
    destruct (one_bit_typed m L x 0%nat 0 12 3 eq_refl) as [Ht Hr]; [lia|].
    exists (one_bit x 0%nat 0), w. split; [exact Ht|]. split; [exact Hr|]. split; [exact Hw|].
    assert (Gm := word_ge m).
    assert (B : w < 2 ^ mode_word_bits m).
    { apply bits_bound. intros i' Hi'. rewrite Hb.
      destruct (N.ltb_spec i' (mode_word_bits m)); [lia|reflexivity]. }
    rewrite canonical_at_eq by assumption. f_equal. apply N.eqb_neq. intros E.
    assert (T : N.testbit (bits w (table_width L) (gap L)) 1 = false) by (rewrite E; apply N.bits_0).
    rewrite bits_testbit, Hb in T. change (gap L) with 2 in T. change (table_width L) with 11 in T. lia.
Qed.

(** Another order of the fields and a table of 12 bits, and a layout whose fields overlap. *)
Example pf_C84_example :
  let L := mkLayout 12 13 24 16 48 32 16 in
  let nop := mkOpcodeVariant (Op_Nop nopOpcode) (Full UseRegOnly) (Full UseRegOnly) (false, false) in
  let t := [spec_invalid; nop] in
  let d := mkDecodedOpcode nop Ne_ 1 2 3 15 513 65535 in
  usable ProductionMode L /\ gap_usable ProductionMode L /\ separate ProductionMode L /\
  gap_free ProductionMode L /\ ~ spec_repeats t /\ typed 16 d /\ regs_in_range d /\
  (exists w, encode_at ProductionMode L t Debug d = Ok w /\
     w = 1 + 2 ^ 13 * 6 + 2 ^ 16 * 0xf3 + 2 ^ 24 * 0x21 + 2 ^ 32 * 65535 + 2 ^ 48 * 513 /\
     decode_at ProductionMode L t w = Ok (d, mkVariantMonotonicNumber 1) /\
     canonical_at ProductionMode L w = Ok true) /\
  let O := mkLayout 11 13 16 23 32 48 16 in
  usable ProductionMode O /\ ~ separate ProductionMode O /\
  exists w d', encode_at ProductionMode O t Debug d = Ok w /\
     decode_at ProductionMode O t w = Ok (d', mkVariantMonotonicNumber 1) /\ src1_reg_idx d' = 10.
Proof.
  intros L nop t d.
  split; [vm_compute; tauto|]. split; [vm_compute; intuition discriminate|].
  split; [|split; [|split; [|split; [vm_compute; tauto|split; [vm_compute; tauto|split]]]]].
  - unfold separate. split; [|split; [cbn; lia|]].
    + intros lo n H. unfold L, places in *.
      cbn [table_width condition_shift src_shift dst_shift imm0_shift imm1_shift In
           mode_imm_bits mode_word_bits] in *.
      repeat (destruct H as [H|H]; [injection H as <- <-; lia|]); contradiction.
    + intros a b lo n lo' n' Hab Ha Hb. unfold L, places in *.
      cbn [table_width condition_shift src_shift dst_shift imm0_shift imm1_shift mode_imm_bits] in *.
      destruct a as [|[|[|[|[|[|[|a]]]]]]]; cbn [nth_error] in Ha;
          try (destruct a; discriminate Ha); injection Ha as <- <-;
        destruct b as [|[|[|[|[|[|[|b]]]]]]]; cbn [nth_error] in Hb;
          try (destruct b; discriminate Hb); injection Hb as <- <-; try lia; congruence.
  - intros i Hi (lo & n & Hin & Hl). unfold in_gap, gap, L, places in *.
    cbn [table_width condition_shift src_shift dst_shift imm0_shift imm1_shift head_bits In
         mode_imm_bits] in *.
    repeat (destruct Hin as [Hin|Hin]; [injection Hin as <- <-; lia|]); contradiction.
  - apply map_ok_iff. eexists. vm_compute. reflexivity.
  - eexists. vm_compute. repeat split.
  - intros O. split; [vm_compute; tauto|]. split.
    + intros (_ & _ & H). destruct (H 2%nat 3%nat 20 4 23 4); [discriminate|reflexivity..|lia|lia].
    + do 2 eexists. split; [vm_compute; reflexivity|]. split; vm_compute; reflexivity.
Qed.
