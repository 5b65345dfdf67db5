(** * Codecs, continued: panics, mode agreement, bytes, fetching, masks. *)

From Coq Require Import NArith Lia ZArith List Bool String.
From Coq Require Import ZifyBool ZifyNat ZifyN.
From Verif Require Import Machine Constants Operands OpcodeTrait Opcodes AllOpcodes Tables
  Decoding SpecIsa SpecCodec BitLemmas TableProofs CodecProofs.
Import ListNotations.
Open Scope N_scope.

(** ** Table membership *)

Lemma in_table_iff x : in_table x <-> exists n, spec_number x = Some n.
Proof.
  unfold in_table. rewrite OPCODES_TABLE_eq. split.
  - intros (t & Ht & Hin). injection Ht as <-.
    destruct (spec_number x) as [n|] eqn:E; [exists n; reflexivity|].
    rewrite <- padded_first_index in E. apply first_index_None in E. contradiction.
  - intros (n & Hn). exists padded_table. split; [reflexivity|].
    destruct (in_dec variant_dec x padded_table) as [H|H]; [exact H|].
    apply first_index_None in H. rewrite padded_first_index in H. congruence.
Qed.

Lemma in_table_wf x : in_table x <-> spec_well_formed 1 x = true.
Proof. rewrite in_table_iff. apply spec_number_wf. Qed.

Lemma not_in_table x : ~ in_table x <-> spec_number x = None.
Proof.
  rewrite in_table_iff. destruct (spec_number x).
  - split; [intros H; exfalso; apply H; eexists; reflexivity|discriminate].
  - split; [reflexivity|intros _ [n H]; discriminate].
Qed.

(** ** Complete description of encoding *)

Definition in_range_b (d : DecodedOpcode) : bool :=
  (src0_reg_idx d <? 16) && (src1_reg_idx d <? 16)
  && (dst0_reg_idx d <? 16) && (dst1_reg_idx d <? 16).

Lemma in_range_b_iff d : in_range_b d = true <-> regs_in_range d.
Proof. unfold in_range_b, regs_in_range. lia. Qed.

Lemma merge_parts a b :
  a < 2 ^ 8 ->
  N.lor a (b * 16 mod 256) = (a mod 16) + 16 * N.lor (a / 16) (b mod 16).
Proof.
  intros Ha.
  set (m := N.lor a (b * 16 mod 256)).
  assert (E : m = 16 * (m / 16) + m mod 16) by (apply N.div_mod; lia).
  assert (H1 : m mod 16 = a mod 16).
  { unfold m. change 16 with (2 ^ 4) at 2 3. rewrite <- !N.land_ones, N.land_lor_distr_l.
    rewrite (N.land_ones (b * 16 mod 256)).
    replace ((b * 16 mod 256) mod 2 ^ 4) with 0; [apply N.lor_0_r|].
    change (2 ^ 4) with 16. change 256 with (16 * 16). rewrite N.mod_mul_r by lia.
    rewrite (N.mul_comm 16), N.mod_add by lia. rewrite N.mod_mod by lia.
    symmetry. apply N.mod_mul. lia. }
  assert (H2 : m / 16 = N.lor (a / 16) (b mod 16)).
  { unfold m. change 16 with (2 ^ 4) at 2 3. rewrite <- !N.shiftr_div_pow2, N.shiftr_lor.
    f_equal. rewrite N.shiftr_div_pow2. change (2 ^ 4) with 16.
    change 256 with (16 * 16). rewrite (N.mul_comm b), N.mul_mod_distr_l by lia.
    rewrite N.mul_comm. apply N.div_mul. lia. }
  rewrite <- H1, <- H2. lia.
Qed.

Lemma lor_nibbles a b : a < 2 ^ 8 -> N.lor (a / 16) (b mod 16) < 16.
Proof.
  intros Ha. apply (lor_lt _ _ 4).
  - change (2 ^ 4) with 16. change (2 ^ 8) with 256 in Ha. apply N.div_lt_upper_bound; lia.
  - apply N.mod_lt. lia.
Qed.

Lemma wrap_typed iw d : typed iw d -> typed iw (spec_wrap d) /\ regs_in_range (spec_wrap d).
Proof.
  intros (H0 & H1 & H2 & H3 & H4 & H5). unfold typed, regs_in_range, spec_wrap.
  cbn [src0_reg_idx src1_reg_idx dst0_reg_idx dst1_reg_idx imm_0 imm_1].
  assert (A := lor_nibbles (src0_reg_idx d) (src1_reg_idx d) H0).
  assert (B := lor_nibbles (dst0_reg_idx d) (dst1_reg_idx d) H2).
  assert (C : src0_reg_idx d mod 16 < 16) by (apply N.mod_lt; lia).
  assert (D : dst0_reg_idx d mod 16 < 16) by (apply N.mod_lt; lia).
  change (2 ^ 8) with 256. repeat split; try assumption; eapply N.lt_trans; try eassumption; lia.
Qed.

Lemma wrap_id d : regs_in_range d -> spec_wrap d = d.
Proof.
  intros (H0 & H1 & H2 & H3). destruct d as [v c a0 a1 b0 b1 i j]. unfold spec_wrap.
  cbn in *. rewrite !N.mod_small, !N.div_small, !N.lor_0_l by assumption. reflexivity.
Qed.

Lemma encode_complete m bld d :
  typed (mode_imm_bits m) d ->
  encode_as_integer (mode_impl m) bld d =
  match spec_number (variant d) with
  | None => Panic
  | Some n =>
      match bld with
      | Debug => if in_range_b d then Ok (spec_word (mode_imm_bits m) n (spec_wrap d)) else Panic
      | Release => Ok (spec_word (mode_imm_bits m) n (spec_wrap d))
      end
  end.
Proof.
  intros Ht. rewrite mode_encode_gen. destruct (mode_sizes m) as [A B].
  destruct (spec_number (variant d)) as [n|] eqn:En;
    [|apply gen_encode_unknown, En].
  destruct bld.
  - destruct (in_range_b d) eqn:Er.
    + apply in_range_b_iff in Er. rewrite wrap_id by exact Er.
      apply gen_encode_in_range; assumption.
    + etransitivity; [exact (gen_encode_known _ _ _ d n A B En Ht)|].
      unfold in_range_b in Er.
      destruct (merge_u4 Debug (src0_reg_idx d) (src1_reg_idx d)) as [s|] eqn:Es; [|reflexivity].
      destruct (merge_u4 Debug (dst0_reg_idx d) (dst1_reg_idx d)) as [t|] eqn:Et; [|reflexivity].
      exfalso.
      assert (~ (16 <= src0_reg_idx d \/ 16 <= src1_reg_idx d))
        by (rewrite <- merge_debug_panic; congruence).
      assert (~ (16 <= dst0_reg_idx d \/ 16 <= dst1_reg_idx d))
        by (rewrite <- merge_debug_panic; congruence).
      lia.
  - etransitivity; [exact (gen_encode_known _ _ _ d n A B En Ht)|].
    rewrite !merge_release. cbn [bind]. f_equal. unfold spec_word, spec_wrap.
    cbn [variant condition src0_reg_idx src1_reg_idx dst0_reg_idx dst1_reg_idx imm_0 imm_1].
    destruct Ht as (H0 & H1 & H2 & H3 & H4 & H5).
    rewrite !merge_parts by assumption.
    change (2 ^ 13) with 8192; change (2 ^ 16) with 65536; change (2 ^ 20) with 1048576;
    change (2 ^ 24) with 16777216; change (2 ^ 28) with 268435456;
    change (2 ^ 32) with 4294967296. lia.
Qed.

(** Whatever was encoded decodes to the wrapped instruction. *)
Lemma encode_then_parse m bld d w :
  typed (mode_imm_bits m) d ->
  encode_as_integer (mode_impl m) bld d = Ok w ->
  exists n, spec_number (variant d) = Some n /\
    w = spec_word (mode_imm_bits m) n (spec_wrap d) /\
    parse_preliminary_variant_and_absolute_number (mode_impl m) w
    = Ok (spec_wrap d, mkVariantMonotonicNumber n).
Proof.
  intros Ht He. rewrite encode_complete in He by exact Ht.
  destruct (spec_number (variant d)) as [n|] eqn:En; [|discriminate].
  assert (Hw : w = spec_word (mode_imm_bits m) n (spec_wrap d)).
  { destruct bld; [destruct (in_range_b d)|]; congruence. }
  exists n. split; [reflexivity|]. split; [exact Hw|]. subst w.
  destruct (wrap_typed _ _ Ht) as [Ht' Hr'].
  apply (roundtrip_decode m bld); assumption.
Qed.

Lemma encode_panics_release m d :
  typed (mode_imm_bits m) d ->
  (encode_as_integer (mode_impl m) Release d = Panic <-> ~ in_table (variant d)).
Proof.
  intros Ht. rewrite encode_complete, not_in_table by exact Ht.
  destruct (spec_number (variant d)); split; congruence.
Qed.

Lemma encode_panics_debug m d :
  typed (mode_imm_bits m) d ->
  (encode_as_integer (mode_impl m) Debug d = Panic <->
   ~ in_table (variant d) \/ ~ regs_in_range d).
Proof.
  intros Ht. rewrite encode_complete, not_in_table, <- in_range_b_iff by exact Ht.
  destruct (spec_number (variant d)); [|split; auto].
  destruct (in_range_b d); split; try tauto; try congruence; [|intros _; right; discriminate].
  intros [H|H]; [discriminate|exfalso; apply H; reflexivity].
Qed.

(** ** Words stay in range *)

Lemma spec_word_lt iw n d :
  n < 2048 -> typed iw d -> regs_in_range d -> spec_word iw n d < 2 ^ (32 + 2 * iw).
Proof.
  intros Hn (_ & _ & _ & _ & Hi0 & Hi1) (H0 & H1 & H2 & H3).
  assert (Hc := cond_lt (condition d)).
  unfold spec_word. replace (32 + 2 * iw) with (32 + (iw + iw)) by lia.
  rewrite (N.pow_add_r 2 32 iw), (N.pow_add_r 2 32 (iw + iw)), (N.pow_add_r 2 iw iw).
  change (2 ^ 13) with 8192; change (2 ^ 16) with 65536; change (2 ^ 20) with 1048576;
    change (2 ^ 24) with 16777216; change (2 ^ 28) with 268435456;
    change (2 ^ 32) with 4294967296.
  set (P := 2 ^ iw) in *.
  assert (imm_0 d + 1 <= P) by lia. assert (imm_1 d + 1 <= P) by lia.
  assert (P * (imm_1 d + 1) <= P * P) by (apply N.mul_le_mono_l; assumption).
  lia.
Qed.

Lemma encode_lt m bld d w :
  typed (mode_imm_bits m) d -> encode_as_integer (mode_impl m) bld d = Ok w ->
  w < 2 ^ (32 + 2 * mode_imm_bits m) /\ w < 2 ^ mode_word_bits m /\ bits w 11 2 = 0.
Proof.
  intros Ht He. destruct (encode_then_parse m bld d w Ht He) as (n & Hn & -> & _).
  destruct (wrap_typed _ _ Ht) as [Ht' Hr'].
  assert (Hb := spec_number_bound _ _ Hn).
  assert (L : spec_word (mode_imm_bits m) n (spec_wrap d) < 2 ^ (32 + 2 * mode_imm_bits m))
    by (apply spec_word_lt; [lia|assumption|assumption]).
  split; [exact L|]. split.
  - eapply N.lt_le_trans; [exact L|]. apply N.pow_le_mono_r; [lia|]. apply mode_sizes.
  - apply (word_fields (mode_imm_bits m) n (spec_wrap d)); assumption.
Qed.

(** ** Agreement of the modes *)

Lemma typed_widen d : typed 16 d -> typed 32 d.
Proof.
  intros (H0 & H1 & H2 & H3 & H4 & H5). unfold typed.
  change (2 ^ 16) with 65536 in *. change (2 ^ 32) with 4294967296. 
  repeat split; try assumption; lia.
Qed.

Lemma low_word iw n d :
  spec_word iw n d =
  (n + 2 ^ 13 * spec_cond_number (condition d)
   + 2 ^ 16 * src0_reg_idx d + 2 ^ 20 * src1_reg_idx d
   + 2 ^ 24 * dst0_reg_idx d + 2 ^ 28 * dst1_reg_idx d)
  + 2 ^ 32 * (imm_0 d + 2 ^ iw * imm_1 d).
Proof.
  unfold spec_word. rewrite (N.pow_add_r 2 32 iw).
  change (2 ^ 32) with 4294967296. lia.
Qed.

Lemma low_part_lt n d :
  n < 2048 -> regs_in_range d ->
  n + 2 ^ 13 * spec_cond_number (condition d)
   + 2 ^ 16 * src0_reg_idx d + 2 ^ 20 * src1_reg_idx d
   + 2 ^ 24 * dst0_reg_idx d + 2 ^ 28 * dst1_reg_idx d < 2 ^ 32.
Proof.
  intros Hn (H0 & H1 & H2 & H3). assert (Hc := cond_lt (condition d)).
  change (2 ^ 13) with 8192; change (2 ^ 16) with 65536; change (2 ^ 20) with 1048576;
    change (2 ^ 24) with 16777216; change (2 ^ 28) with 268435456;
    change (2 ^ 32) with 4294967296. lia.
Qed.

Lemma modes_agree bld d :
  typed 16 d ->
  match prod_encode_as_integer bld d, test_encode_as_integer bld d with
  | Panic, Panic => True
  | Ok wp, Ok wt =>
      bits wp 0 48 = bits wt 0 48 /\
      bits wt 64 16 = bits wp 48 16 /\
      bits wt 48 16 = 0 /\ bits wt 80 48 = 0 /\
      prod_parse wp = test_parse wt
  | _, _ => False
  end.
Proof.
  intros Ht. assert (Ht2 := typed_widen d Ht).
  assert (Ep := encode_complete ProductionMode bld d Ht).
  assert (Et := encode_complete TestingMode bld d Ht2).
  change (encode_as_integer (mode_impl ProductionMode)) with prod_encode_as_integer in Ep.
  change (encode_as_integer (mode_impl TestingMode)) with test_encode_as_integer in Et.
  rewrite Ep, Et.
  assert (G : forall n, spec_number (variant d) = Some n ->
    let wp := spec_word 16 n (spec_wrap d) in let wt := spec_word 32 n (spec_wrap d) in
    bits wp 0 48 = bits wt 0 48 /\ bits wt 64 16 = bits wp 48 16 /\
    bits wt 48 16 = 0 /\ bits wt 80 48 = 0 /\ prod_parse wp = test_parse wt).
  { intros n Hn wp wt. destruct (wrap_typed _ _ Ht) as [Ht' Hr'].
    destruct (wrap_typed _ _ Ht2) as [Ht2' _].
    assert (Hb := spec_number_bound _ _ Hn).
    assert (HL := low_part_lt n (spec_wrap d) ltac:(lia) Hr').
    unfold wp, wt.
    destruct (roundtrip_decode ProductionMode bld (spec_wrap d) n Hn Ht' Hr') as [_ Pp].
    destruct (roundtrip_decode TestingMode bld (spec_wrap d) n Hn Ht2' Hr') as [_ Pt].
    cbn [mode_impl parse_preliminary_variant_and_absolute_number mode_imm_bits
         EncodingModeProduction EncodingModeTesting] in Pp, Pt.
    destruct Ht' as (_ & _ & _ & _ & Hi0 & Hi1).
    split; [|split; [|split; [|split]]];
      [| | | |etransitivity; [exact Pp|symmetry; exact Pt]]; rewrite !low_word;
      set (L := n + _ + _ + _ + _ + _) in *;
      set (i := imm_0 (spec_wrap d)) in *; set (j := imm_1 (spec_wrap d)) in *.
    - change 48 with (32 + 16). rewrite !bits_split. f_equal.
      + rewrite !bits_head by exact HL. reflexivity.
      + f_equal. change (0 + 32) with (32 + 0). rewrite !bits_high by exact HL.
        rewrite bits_head by exact Hi0.
        rewrite bits_low; [|change (2 ^ 16) with 65536 in *; change (2 ^ 32) with 4294967296; lia
                           |lia].
        rewrite bits_all by exact Hi0. reflexivity.
    - change 64 with (32 + (32 + 0)) at 1. change 48 with (32 + (16 + 0)).
      rewrite !bits_high; try assumption.
      + reflexivity.
      + change (2 ^ 16) with 65536 in *; change (2 ^ 32) with 4294967296; lia.
    - change 48 with (32 + 16). rewrite bits_high by exact HL.
      rewrite bits_low; [|change (2 ^ 16) with 65536 in *; change (2 ^ 32) with 4294967296; lia
                         |lia].
      unfold bits. rewrite N.div_small by exact Hi0. reflexivity.
    - change 80 with (32 + (32 + 16)). rewrite !bits_high; try assumption;
        [|change (2 ^ 16) with 65536 in *; change (2 ^ 32) with 4294967296; lia].
      unfold bits. rewrite N.div_small by exact Hi1. reflexivity. }
  destruct (spec_number (variant d)) as [n|]; [|exact I].
  specialize (G n eq_refl). destruct bld; [destruct (in_range_b d)|]; auto.
Qed.

(** ** Canonicality *)

Lemma canonical_iff m w :
  is_canonical_encoding (mode_impl m) w = true <-> bits w 11 2 = 0.
Proof.
  assert (E : is_canonical_encoding (mode_impl m) w = (N.land w (N.ones 2 * 2 ^ 11) =? 0))
    by (destruct m; reflexivity).
  rewrite E, land_mask_shift, N.eqb_eq. change ((w / 2 ^ 11) mod 2 ^ 2) with (bits w 11 2).
  change (2 ^ 11) with 2048. lia.
Qed.

(** ** Bytes *)

Lemma le_length n x : List.length (to_le_bytes n x) = n.
Proof. revert x. induction n; intros x; cbn; [reflexivity|]. rewrite IHn. reflexivity. Qed.

Lemma be_length n x : List.length (to_be_bytes n x) = n.
Proof. unfold to_be_bytes. rewrite rev_length. apply le_length. Qed.

Lemma le_bytes n x : is_bytes (to_le_bytes n x).
Proof.
  revert x. induction n; intros x; cbn [to_le_bytes]; constructor; [apply N.mod_lt; lia|apply IHn].
Qed.

Lemma be_bytes n x : is_bytes (to_be_bytes n x).
Proof. apply Forall_rev, le_bytes. Qed.

Lemma be_value_app a b :
  be_value (a ++ b) = be_value a * 256 ^ N.of_nat (List.length b) + be_value b.
Proof.
  induction a as [|x a IH]; cbn [be_value app]; [lia|].
  rewrite IH, app_length, Nat2N.inj_add, N.pow_add_r. lia.
Qed.

Lemma be_value_lt l : is_bytes l -> be_value l < 256 ^ N.of_nat (List.length l).
Proof.
  induction 1 as [|b l Hb _ IH]; cbn [be_value List.length]; [rewrite N.pow_0_r; lia|].
  replace (N.of_nat (S (List.length l))) with (1 + N.of_nat (List.length l)) by lia.
  rewrite N.pow_add_r, N.pow_1_r. set (P := 256 ^ N.of_nat (List.length l)) in *.
  assert ((b + 1) * P <= 256 * P) by (apply N.mul_le_mono_r; lia). lia.
Qed.

Lemma be_value_be n x : be_value (to_be_bytes n x) = x mod 256 ^ N.of_nat n.
Proof.
  unfold to_be_bytes. revert x. induction n as [|n IH]; intros x.
  - cbn. rewrite N.mod_1_r. reflexivity.
  - cbn [to_le_bytes rev]. rewrite be_value_app, IH. cbn [be_value List.length].
    rewrite N.pow_0_r, N.add_0_r, N.mul_1_r. change (256 ^ N.of_nat 1) with 256.
    replace (N.of_nat (S n)) with (1 + N.of_nat n) by lia.
    rewrite N.pow_add_r, N.pow_1_r, N.mod_mul_r; [|lia|apply N.pow_nonzero; lia].
    lia.
Qed.

Lemma pow256 n : 256 ^ n = 2 ^ (8 * n).
Proof. rewrite N.pow_mul_r. reflexivity. Qed.

Lemma be_inj a b :
  is_bytes a -> is_bytes b -> List.length a = List.length b -> be_value a = be_value b -> a = b.
Proof.
  intros Ha. revert b. induction Ha as [|x a Hx Ha IH]; intros b Hb Hl Hv.
  - destruct b; [reflexivity|discriminate].
  - destruct b as [|y b]; [discriminate|]. inversion Hb as [|? ? Hy Hb']; subst.
    cbn in Hl. injection Hl as Hl. cbn [be_value] in Hv. rewrite Hl in Hv.
    assert (La := be_value_lt a Ha). assert (Lb := be_value_lt b Hb'). rewrite Hl in La.
    set (P := 256 ^ N.of_nat (List.length b)) in *.
    assert (x = y) by (destruct (N.lt_trichotomy x y) as [H|[H|H]]; [|exact H|];
      exfalso; [assert ((x + 1) * P <= y * P) by (apply N.mul_le_mono_r; lia)
               |assert ((y + 1) * P <= x * P) by (apply N.mul_le_mono_r; lia)]; lia).
    subst y. f_equal. apply IH; try assumption. lia.
Qed.

Lemma encode_bytes_eq m bld d :
  encode_as_bytes (mode_impl m) bld d =
  let* w := encode_as_integer (mode_impl m) bld d in Ok (to_be_bytes (mode_bytes m) w).
Proof. destruct m; reflexivity. Qed.

Lemma mode_bytes_bits m : 256 ^ N.of_nat (mode_bytes m) = 2 ^ mode_word_bits m.
Proof. destruct m; reflexivity. Qed.

Lemma bytes_spec m bld d :
  typed (mode_imm_bits m) d ->
  match serialize_as_bytes (mode_impl m) bld d, serialize_as_integer (mode_impl m) bld d with
  | Panic, Panic => True
  | Ok b, Ok w => List.length b = mode_bytes m /\ is_bytes b /\ be_value b = w
  | _, _ => False
  end.
Proof.
  intros Ht. unfold serialize_as_bytes, serialize_as_integer. rewrite encode_bytes_eq.
  destruct (encode_as_integer (mode_impl m) bld d) as [w|] eqn:E; cbn [bind]; [|exact I].
  destruct (encode_lt m bld d w Ht E) as (_ & Hw & _).
  split; [apply be_length|]. split; [apply be_bytes|].
  rewrite be_value_be, mode_bytes_bits. apply N.mod_small, Hw.
Qed.

(** ** Fetching *)

Lemma split_pc_spec m pc :
  let '(w, s) := split_pc (mode_impl m) pc in
  pc = mode_per_word m * w + s /\ s < mode_per_word m.
Proof.
  destruct m; cbn [mode_impl split_pc EncodingModeProduction EncodingModeTesting
                   prod_split_pc test_split_pc mode_per_word];
    unfold prod_split_pc, test_split_pc; rewrite shr_div.
  - change 3 with (N.ones 2). rewrite N.land_ones. change (2 ^ 2) with 4. split.
    + apply N.div_mod. lia.
    + apply N.mod_lt. lia.
  - change (N.land pc 1) with (N.land pc (N.ones 1)). rewrite N.land_ones.
    change (2 ^ 1) with 2. split.
    + apply N.div_mod. lia.
    + apply N.mod_lt. lia.
Qed.

Lemma select_spec m v s :
  u256_typed v -> s < mode_per_word m ->
  integer_representaiton_from_u256 (mode_impl m) v s
  = Ok (bits (u256_value v) (256 - mode_word_bits m * (s + 1)) (mode_word_bits m)).
Proof.
  intros (H0 & H1 & H2 & H3) Hs.
  assert (E : u256_value v = limb0 v + 2 ^ 64 * (limb1 v + 2 ^ 64 * (limb2 v + 2 ^ 64 * limb3 v))).
  { unfold u256_value. change (2 ^ 64) with 18446744073709551616.
    change (2 ^ 128) with 340282366920938463463374607431768211456.
    change (2 ^ 192) with 6277101735386680763835789423207666416102355444464034512896. lia. }
  rewrite E.
  destruct m; cbn [mode_impl integer_representaiton_from_u256 EncodingModeProduction
                   EncodingModeTesting mode_word_bits mode_per_word] in *.
  - assert (C : s = 0 \/ s = 1 \/ s = 2 \/ s = 3) by lia.
    destruct C as [-> |[-> |[-> | ->]]]; cbn [prod_integer_from_u256]; f_equal.
    + change (256 - 64 * (0 + 1)) with (64 + (64 + (64 + 0))).
      rewrite !bits_high by assumption. symmetry. apply bits_all, H3.
    + change (256 - 64 * (1 + 1)) with (64 + (64 + 0)).
      rewrite !bits_high by assumption. symmetry. apply bits_head, H2.
    + change (256 - 64 * (2 + 1)) with (64 + 0).
      rewrite !bits_high by assumption. symmetry. apply bits_head, H1.
    + change (256 - 64 * (3 + 1)) with 0. symmetry. apply bits_head, H0.
  - assert (F : forall a b, a < 2 ^ 64 -> b < 2 ^ 64 -> a + shl 128 b 64 = a + 2 ^ 64 * b).
    { intros a b Ha Hb. f_equal. rewrite shl_small; [apply N.mul_comm|].
      change 128 with (64 + 64). rewrite N.pow_add_r. apply N.mul_lt_mono_pos_r; [apply pow2_pos|].
      exact Hb. }
    assert (G : forall a b, a < 2 ^ 64 -> b < 2 ^ 64 -> a + 2 ^ 64 * b < 2 ^ 128).
    { intros a b Ha Hb. change (2 ^ 64) with 18446744073709551616 in *.
      change (2 ^ 128) with 340282366920938463463374607431768211456. lia. }
    assert (C : s = 0 \/ s = 1) by lia.
    destruct C as [->| ->]; cbn [test_integer_from_u256]; f_equal; rewrite F by assumption.
    + change (256 - 128 * (0 + 1)) with (64 + (64 + 0)).
      rewrite !bits_high by assumption. symmetry. apply bits_all, G; assumption.
    + change (256 - 128 * (1 + 1)) with 0.
      replace (limb0 v + 2 ^ 64 * (limb1 v + 2 ^ 64 * (limb2 v + 2 ^ 64 * limb3 v)))
        with (limb0 v + 2 ^ 64 * limb1 v + 2 ^ 128 * (limb2 v + 2 ^ 64 * limb3 v)).
      * symmetry. apply bits_head, G; assumption.
      * change (2 ^ 64) with 18446744073709551616.
        change (2 ^ 128) with 340282366920938463463374607431768211456. lia.
Qed.

(** The slice of a big-endian string is a bit field of its value. *)
Lemma be_slice a x c :
  is_bytes x -> is_bytes c ->
  bits (be_value (a ++ x ++ c)) (8 * N.of_nat (List.length c)) (8 * N.of_nat (List.length x))
  = be_value x.
Proof.
  intros Hx Hc. rewrite !be_value_app.
  rewrite app_length, Nat2N.inj_add, N.pow_add_r.
  assert (Lx := be_value_lt x Hx). assert (Lc := be_value_lt c Hc).
  rewrite !pow256 in *.
  set (X := 2 ^ (8 * N.of_nat (List.length x))) in *.
  set (C := 2 ^ (8 * N.of_nat (List.length c))) in *.
  replace (be_value a * (X * C) + (be_value x * C + be_value c))
    with (be_value c + C * (be_value x + X * be_value a)) by lia.
  unfold C. rewrite <- (N.add_0_r (8 * N.of_nat (List.length c))) at 2.
  rewrite bits_high by exact Lc. unfold X. apply bits_head, Lx.
Qed.

Lemma bytes_firstn l n : is_bytes l -> is_bytes (firstn n l).
Proof.
  intros H. apply Forall_forall. intros x Hx. rewrite <- (firstn_skipn n l) in H.
  unfold is_bytes in H. rewrite Forall_app in H. destruct H as [H _].
  rewrite Forall_forall in H. apply H, Hx.
Qed.

Lemma bytes_skipn l n : is_bytes l -> is_bytes (skipn n l).
Proof.
  intros H. apply Forall_forall. intros x Hx. rewrite <- (firstn_skipn n l) in H.
  unfold is_bytes in H. rewrite Forall_app in H. destruct H as [_ H].
  rewrite Forall_forall in H. apply H, Hx.
Qed.

Lemma skipn_skipn {A} a b (l : list A) : skipn a (skipn b l) = skipn (a + b) l.
Proof.
  revert l. induction b as [|b IH]; intros l; [rewrite Nat.add_0_r; reflexivity|].
  rewrite Nat.add_succ_r. destruct l; [rewrite skipn_nil; reflexivity|]. apply IH.
Qed.

Lemma skipn_firstn_skipn {A} (l : list A) a b n :
  (a + n <= b)%nat -> firstn n (skipn a (firstn b l)) = firstn n (skipn a l).
Proof.
  intros H. rewrite skipn_firstn_comm, firstn_firstn. f_equal. lia.
Qed.

Lemma skipn_concat {A} (f : A -> list N) (nb : nat) (l : list A) r k x :
  (forall a, In a l -> List.length (f a) = nb) ->
  nth_error l k = Some x ->
  firstn nb (skipn (nb * k) (flat_map f l ++ r)) = f x.
Proof.
  revert k. induction l as [|a l IH]; intros k Hf Hk; [destruct k; discriminate|].
  cbn [flat_map]. rewrite <- app_assoc.
  assert (Ha : List.length (f a) = nb) by (apply Hf; left; reflexivity).
  destruct k as [|k].
  - cbn in Hk. injection Hk as ->. rewrite Nat.mul_0_r. cbn [skipn].
    rewrite firstn_app, Ha, Nat.sub_diag, firstn_O, app_nil_r. rewrite <- Ha. apply firstn_all.
  - cbn in Hk. rewrite skipn_app.
    rewrite (skipn_all2 (f a)) by lia. cbn [app].
    replace (nb * S k - List.length (f a))%nat with (nb * k)%nat by lia.
    apply IH; [|exact Hk]. intros b Hb. apply Hf. right. exact Hb.
Qed.

Lemma mode_word_bytes m : mode_word_bits m = 8 * N.of_nat (mode_bytes m).
Proof. destruct m; reflexivity. Qed.

Lemma mode_per_word_bytes m : (N.to_nat (mode_per_word m) * mode_bytes m = 32)%nat.
Proof. destruct m; reflexivity. Qed.

(** One memory word: selecting sub-index [s] reads the bytes at offset [s * width]. *)
Lemma select_bytes m v s l :
  u256_typed v -> s < mode_per_word m ->
  is_bytes l -> List.length l = 32%nat -> u256_value v = be_value l ->
  integer_representaiton_from_u256 (mode_impl m) v s
  = Ok (be_value (firstn (mode_bytes m) (skipn (mode_bytes m * N.to_nat s) l))).
Proof.
  intros Hv Hs Hl Hlen E. rewrite select_spec by assumption. f_equal. rewrite E.
  set (nb := mode_bytes m).
  assert (Hnb : (nb * N.to_nat s + nb <= 32)%nat).
  { assert (P := mode_per_word_bytes m). fold nb in P.
    destruct m; cbn in *; unfold nb in *; lia. }
  set (x := firstn nb (skipn (nb * N.to_nat s) l)).
  set (c := skipn (nb * N.to_nat s + nb) l).
  assert (El : l = firstn (nb * N.to_nat s) l ++ x ++ c).
  { unfold x, c. rewrite <- (firstn_skipn (nb * N.to_nat s) l) at 1. f_equal.
    rewrite <- (firstn_skipn nb (skipn (nb * N.to_nat s) l)) at 1. f_equal.
    rewrite skipn_skipn. f_equal. lia. }
  assert (Lx : List.length x = nb).
  { unfold x. rewrite firstn_length, skipn_length, Hlen. lia. }
  assert (Lc : List.length c = (32 - nb * N.to_nat s - nb)%nat).
  { unfold c. rewrite skipn_length, Hlen. lia. }
  rewrite El at 1.
  rewrite mode_word_bytes. fold nb.
  replace (256 - 8 * N.of_nat nb * (s + 1)) with (8 * N.of_nat (List.length c)).
  - assert (B := fun hx hc => be_slice (firstn (nb * N.to_nat s) l) x c hx hc).
    rewrite Lx in B. apply B.
    + apply bytes_firstn, bytes_skipn, Hl.
    + apply bytes_skipn, Hl.
  - rewrite Lc. replace (N.of_nat nb * (s + 1)) with (N.of_nat (nb * N.to_nat s + nb)) by lia.
    lia.
Qed.

Lemma fetch_bytes m page bytes pc :
  is_bytes bytes -> page_holds page bytes ->
  32 * (pc / mode_per_word m + 1) <= N.of_nat (List.length bytes) ->
  fetch m page pc
  = Ok (be_value (firstn (mode_bytes m) (skipn (mode_bytes m * N.to_nat pc) bytes))).
Proof.
  intros Hb Hp Hk. unfold fetch.
  assert (S := split_pc_spec m pc). destruct (split_pc (mode_impl m) pc) as [k s].
  destruct S as [E Hs].
  assert (Hpk : pc / mode_per_word m = k).
  { symmetry. apply (N.div_unique pc (mode_per_word m) k s); [exact Hs|].
    rewrite E. reflexivity. }
  rewrite Hpk in Hk. destruct (Hp k Hk) as [Hv Ev].
  rewrite (select_bytes m _ s (firstn 32 (skipn (32 * N.to_nat k) bytes)));
    [|exact Hv|exact Hs|apply bytes_firstn, bytes_skipn, Hb| |exact Ev].
  - f_equal. f_equal. rewrite skipn_firstn_skipn.
    + rewrite skipn_skipn. f_equal. f_equal.
      assert (P := mode_per_word_bytes m). rewrite E.
      rewrite N2Nat.inj_add, N2Nat.inj_mul. nia.
    + destruct m; cbn in *; lia.
  - rewrite firstn_length, skipn_length. lia.
Qed.

(** A program laid out as consecutive big-endian words, padded to whole memory words. *)
Lemma fetch_program m page prog pad pc w :
  Forall (fun x => x < 2 ^ mode_word_bits m) prog -> is_bytes pad ->
  let bytes := flat_map (to_be_bytes (mode_bytes m)) prog ++ pad in
  (List.length bytes mod 32 = 0)%nat ->
  page_holds page bytes ->
  nth_error prog (N.to_nat pc) = Some w ->
  fetch m page pc = Ok w.
Proof.
  intros Hprog Hpad bytes Hlen Hp Hw.
  assert (Hb : is_bytes bytes).
  { unfold bytes, is_bytes. apply Forall_app. split; [|exact Hpad].
    apply Forall_forall. intros x Hx. apply in_flat_map in Hx as (y & _ & Hx).
    assert (B := be_bytes (mode_bytes m) y). unfold is_bytes in B.
    rewrite Forall_forall in B. apply B, Hx. }
  assert (Hpc : (N.to_nat pc < List.length prog)%nat) by (apply nth_error_Some; congruence).
  assert (L : List.length (flat_map (to_be_bytes (mode_bytes m)) prog)
              = (mode_bytes m * List.length prog)%nat).
  { clear. induction prog; cbn [flat_map List.length]; [lia|].
    rewrite app_length, be_length, IHprog. lia. }
  rewrite (fetch_bytes m page bytes) by
    (try assumption;
     unfold bytes in *; rewrite app_length, L in *;
     assert (P := mode_per_word_bytes m);
     destruct m; cbn [mode_bytes mode_per_word] in *; lia).
  f_equal. unfold bytes.
  rewrite (skipn_concat _ _ _ _ _ w); [|intros; apply be_length|exact Hw].
  rewrite be_value_be, mode_bytes_bits. apply N.mod_small.
  rewrite Forall_forall in Hprog. apply Hprog. eapply nth_error_In, Hw.
Qed.

(** ** Masks and distinguished encodings *)

Definition nop_variant : OpcodeVariant :=
  mkOpcodeVariant (Op_Nop nopOpcode) (Full UseRegOnly) (Full UseRegOnly) (false, false).
Definition panic_variant : OpcodeVariant :=
  mkOpcodeVariant (Op_Ret RetOpcode_Panic) RegOnly RegOnly (false, false).

Lemma nop_number : spec_number nop_variant = Some 1.
Proof. reflexivity. Qed.
Lemma panic_number : spec_number panic_variant = Some 1073.
Proof. reflexivity. Qed.

Lemma NOP_VARIANT_eq : NOP_OPCODE_VARIANT = Ok nop_variant.
Proof.
  unfold NOP_OPCODE_VARIANT. destruct canonical_map_defined as (m & -> & Hm).
  cbn [bind]. unfold contains_key. rewrite Hm. fold nop_variant. rewrite nop_number. reflexivity.
Qed.
Lemma PANIC_VARIANT_eq : PANIC_OPCODE_VARIANT = Ok panic_variant.
Proof.
  unfold PANIC_OPCODE_VARIANT. destruct canonical_map_defined as (m & -> & Hm).
  cbn [bind]. unfold contains_key. rewrite Hm. fold panic_variant. rewrite panic_number.
  reflexivity.
Qed.

Lemma plain_encoding m bld v n i j :
  spec_number v = Some n -> i < 2 ^ mode_imm_bits m -> j < 2 ^ mode_imm_bits m ->
  let d := mkDecodedOpcode v Always 0 0 0 0 i j in
  encode_as_integer (mode_impl m) bld d = Ok (n + 2 ^ 32 * i + 2 ^ (32 + mode_imm_bits m) * j) /\
  parse_preliminary_variant_and_absolute_number (mode_impl m)
    (n + 2 ^ 32 * i + 2 ^ (32 + mode_imm_bits m) * j) = Ok (d, mkVariantMonotonicNumber n).
Proof.
  intros Hn Hi Hj d.
  assert (Ht : typed (mode_imm_bits m) d).
  { unfold typed, d; cbn [src0_reg_idx src1_reg_idx dst0_reg_idx dst1_reg_idx imm_0 imm_1].
    change (2 ^ 8) with 256. repeat split; try assumption; lia. }
  assert (Hr : regs_in_range d) by (unfold regs_in_range, d; cbn; lia).
  assert (E : spec_word (mode_imm_bits m) n d
              = n + 2 ^ 32 * i + 2 ^ (32 + mode_imm_bits m) * j).
  { unfold spec_word, d; cbn [src0_reg_idx src1_reg_idx dst0_reg_idx dst1_reg_idx imm_0 imm_1
      condition spec_cond_number]. rewrite !N.mul_0_r, !N.add_0_r. reflexivity. }
  rewrite <- E. apply roundtrip_decode; assumption.
Qed.

Lemma nop_encoding_eq m bld : nop_encoding (mode_impl m) bld = Ok 1.
Proof.
  destruct (plain_encoding m bld nop_variant 1 0 0 nop_number (pow2_pos _) (pow2_pos _)) as [H _].
  rewrite !N.mul_0_r in H. cbn [N.add] in H. rewrite <- H.
  destruct m; cbn [mode_impl nop_encoding EncodingModeProduction EncodingModeTesting];
    unfold prod_nop_encoding, test_nop_encoding; rewrite NOP_VARIANT_eq; reflexivity.
Qed.

Lemma panic_encoding_eq m bld : exception_revert_encoding (mode_impl m) bld = Ok 1073.
Proof.
  destruct (plain_encoding m bld panic_variant 1073 0 0 panic_number (pow2_pos _) (pow2_pos _))
    as [H _].
  rewrite !N.mul_0_r in H. change (1073 + 0 + 0) with 1073 in H. rewrite <- H.
  destruct m; cbn [mode_impl exception_revert_encoding EncodingModeProduction
                   EncodingModeTesting];
    unfold prod_exception_revert_encoding, test_exception_revert_encoding;
    rewrite PANIC_VARIANT_eq; reflexivity.
Qed.

Lemma invalid_at k :
  k < 2048 ->
  (spec_variant_at k = spec_invalid <-> k = 0 \/ spec_assigned <= k) /\
  (OpcodeVariant_is_explicit_panic (spec_variant_at k) = true <->
   spec_variant_at k = spec_invalid).
Proof.
  intros H.
  assert (S : forallb (fun k =>
     eqb (OpcodeVariant_eqb (spec_variant_at k) spec_invalid) ((k =? 0) || (spec_assigned <=? k))
     && eqb (OpcodeVariant_is_explicit_panic (spec_variant_at k))
            (OpcodeVariant_eqb (spec_variant_at k) spec_invalid))
     (map N.of_nat (seq 0 2048)) = true) by (vm_compute; reflexivity).
  assert (P := range_sweep _ _ S k H). cbn beta in P.
  apply andb_true_iff in P as [P1 P2]. apply eqb_prop in P1, P2.
  rewrite <- eqb_iff. rewrite P2, P1. split; lia.
Qed.
