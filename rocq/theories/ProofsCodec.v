(** * Proofs of the codec properties (C01-C11, C24-C26).
    [pf_X] proves the theorem [X] of PropsCodec.v. *)

From Coq Require Import Arith NArith Lia ZArith List Bool String.
From Coq Require Import ZifyBool ZifyNat ZifyN.
From Verif Require Import Machine Constants Operands OpcodeTrait Opcodes AllOpcodes Tables
  Decoding SpecIsa SpecCodec.
From Verif Require Import BitLemmas TableProofs TableProofs2 CodecProofs CodecProofs2.
Import ListNotations.
Open Scope N_scope.

(** A witness used by the examples: sub.s stack[..] -> register, conditional. *)
Definition example_d : DecodedOpcode :=
  mkDecodedOpcode
    (mkOpcodeVariant (Op_Sub SubOpcode_Sub) (Full UseStackWithOffset) (Full UseRegOnly)
       (true, true)) Le_ 3 15 7 0 65535 1.

Lemma example_in_table : in_table (variant example_d).
Proof. apply in_table_wf. reflexivity. Qed.

Lemma example_typed : typed 16 example_d /\ regs_in_range example_d.
Proof. repeat split. Qed.

(** ** Generic forms *)

Lemma number_is_first_index v n :
  spec_number v = Some n <->
  exists t, OPCODES_TABLE = Ok t /\ nth_error t (N.to_nat n) = Some v /\
            forall j, j < n -> nth_error t (N.to_nat j) <> Some v.
Proof.
  rewrite OPCODES_TABLE_eq, <- padded_first_index, first_index_Some. split.
  - intros H. exists padded_table. split; [reflexivity|exact H].
  - intros (t & Ht & H). injection Ht as <-. exact H.
Qed.

Lemma mode_decode_encode m bld d :
  in_table (variant d) -> typed (mode_imm_bits m) d -> regs_in_range d ->
  exists w n t,
    encode_as_integer (mode_impl m) bld d = Ok w /\
    OPCODES_TABLE = Ok t /\ nth_error t (N.to_nat n) = Some (variant d) /\
    (forall j, j < n -> nth_error t (N.to_nat j) <> Some (variant d)) /\
    w = spec_word (mode_imm_bits m) n d /\
    w < 2 ^ mode_word_bits m /\
    parse_preliminary_variant_and_absolute_number (mode_impl m) w
    = Ok (d, mkVariantMonotonicNumber n).
Proof.
  intros Hin Ht Hr. apply in_table_iff in Hin as [n Hn].
  destruct (roundtrip_decode m bld d n Hn Ht Hr) as [He Hp].
  destruct (encode_lt m bld d _ Ht He) as (_ & Hw & _).
  apply number_is_first_index in Hn as (t & Ht' & Hnt & Hf).
  exists (spec_word (mode_imm_bits m) n d), n, t. auto 10.
Qed.

Lemma mode_injective m bld1 bld2 d1 d2 w :
  typed (mode_imm_bits m) d1 -> typed (mode_imm_bits m) d2 ->
  regs_in_range d1 -> regs_in_range d2 ->
  encode_as_integer (mode_impl m) bld1 d1 = Ok w ->
  encode_as_integer (mode_impl m) bld2 d2 = Ok w -> d1 = d2.
Proof.
  intros T1 T2 R1 R2 E1 E2.
  destruct (encode_then_parse m bld1 d1 w T1 E1) as (n1 & _ & _ & P1).
  destruct (encode_then_parse m bld2 d2 w T2 E2) as (n2 & _ & _ & P2).
  rewrite wrap_id in P1, P2 by assumption. congruence.
Qed.

(** The word of a concrete instruction. *)
Lemma concrete_word m bld d n w :
  spec_number (variant d) = Some n -> typed (mode_imm_bits m) d -> regs_in_range d ->
  spec_word (mode_imm_bits m) n d = w -> encode_as_integer (mode_impl m) bld d = Ok w.
Proof. intros Hn Ht Hr <-. apply roundtrip_decode; assumption. Qed.

Lemma concrete_bytes m bld d n w l :
  spec_number (variant d) = Some n -> typed (mode_imm_bits m) d -> regs_in_range d ->
  spec_word (mode_imm_bits m) n d = w -> to_be_bytes (mode_bytes m) w = l ->
  serialize_as_bytes (mode_impl m) bld d = Ok l.
Proof.
  intros Hn Ht Hr Hw <-. unfold serialize_as_bytes. rewrite encode_bytes_eq.
  rewrite (concrete_word m bld d n w Hn Ht Hr Hw). reflexivity.
Qed.

(** ** C01 *)

(** Encoding then decoding gives the instruction back, numbered by its first table
    position. *)
Lemma pf_C01_decode_encode :
  forall bld d,
  in_table (variant d) -> typed 16 d -> regs_in_range d ->
  exists w n t,
    encode_as_integer EncodingModeProduction bld d = Ok w /\
    OPCODES_TABLE = Ok t /\ nth_error t (N.to_nat n) = Some (variant d) /\
    (forall j, j < n -> nth_error t (N.to_nat j) <> Some (variant d)) /\
    w < 2 ^ 64 /\
    parse_preliminary_variant_and_absolute_number EncodingModeProduction w
    = Ok (d, mkVariantMonotonicNumber n).
Proof.
  intros bld d Hin Ht Hr.
  destruct (mode_decode_encode ProductionMode bld d Hin Ht Hr)
    as (w & n & t & H1 & H2 & H3 & H4 & _ & H5 & H6).
  exists w, n, t. auto 10.
Qed.

Lemma pf_C01_injective :
  forall bld1 bld2 d1 d2 w,
  typed 16 d1 -> typed 16 d2 -> regs_in_range d1 -> regs_in_range d2 ->
  encode_as_integer EncodingModeProduction bld1 d1 = Ok w ->
  encode_as_integer EncodingModeProduction bld2 d2 = Ok w -> d1 = d2.
Proof. exact (mode_injective ProductionMode). Qed.

Example pf_C01_example :
  in_table (variant example_d) /\ typed 16 example_d /\ regs_in_range example_d /\
  encode_as_integer EncodingModeProduction Release example_d = Ok 0x0001FFFF07F3A06C.
Proof.
  split; [apply example_in_table|]. split; [apply example_typed|].
  split; [apply example_typed|].
  apply (concrete_word ProductionMode _ _ 108); try apply example_typed; reflexivity.
Qed.

(** ** C02 *)

(** Decoding then encoding always succeeds and gives the word with the gap cleared and
    unassigned numbers replaced by 0. *)
Lemma pf_C02_encode_decode :
  forall bld w, w < 2 ^ 64 ->
  exists d n,
    parse_preliminary_variant_and_absolute_number EncodingModeProduction w = Ok (d, n) /\
    encode_as_integer EncodingModeProduction bld d
    = Ok ((if bits w 0 11 <? 1093 then bits w 0 11 else 0) + 2 ^ 13 * bits w 13 51).
Proof.
  intros bld w _. destruct (roundtrip_encode ProductionMode bld w) as (d & Hp & He).
  exists d, (mkVariantMonotonicNumber (bits w 0 11)). split; [exact Hp|exact He].
Qed.

(** A word survives exactly when its gap bits are zero and its low 11 bits are zero or name
    a table entry other than Invalid. *)
Lemma pf_C02_fixed_points :
  forall bld w t, w < 2 ^ 64 -> OPCODES_TABLE = Ok t ->
  exists d n,
    parse_preliminary_variant_and_absolute_number EncodingModeProduction w = Ok (d, n) /\
    (encode_as_integer EncodingModeProduction bld d = Ok w <->
     bits w 11 2 = 0 /\
     (bits w 0 11 = 0 \/ nth_error t (N.to_nat (bits w 0 11)) <> Some spec_invalid)).
Proof.
  intros bld w t Hw Ht. destruct (roundtrip_encode ProductionMode bld w) as (d & Hp & He).
  exists d, (mkVariantMonotonicNumber (bits w 0 11)). split; [exact Hp|].
  assert (Hb := bits_lt w 0 11). change (2 ^ 11) with 2048 in Hb.
  rewrite OPCODES_TABLE_eq in Ht. injection Ht as <-.
  assert (Hi := index_padded _ Hb). unfold index in Hi.
  destruct (nth_error padded_table (N.to_nat (bits w 0 11))) as [x|]; [|discriminate].
  injection Hi as ->.
  destruct (invalid_at _ Hb) as [Hinv _].
  change (mode_impl ProductionMode) with EncodingModeProduction in He.
  change (mode_imm_bits ProductionMode) with 16 in He. rewrite He.
  assert (F := prod_normalise_fixed w Hw).
  split.
  - intros H. injection H as H. apply F in H as [H1 H2]. split; [exact H1|].
    destruct (N.eq_dec (bits w 0 11) 0) as [E|E]; [left; exact E|right].
    intros H. injection H as H. apply Hinv in H. lia.
  - intros [H1 H2]. f_equal. apply F. split; [exact H1|].
    destruct H2 as [->|H2]; [reflexivity|].
    destruct (N.lt_ge_cases (bits w 0 11) spec_assigned) as [L|L]; [exact L|].
    exfalso. apply H2. f_equal. apply Hinv. right. exact L.
Qed.

(** [is_canonical_encoding] is not enough: this word is accepted and does not survive. *)
Lemma pf_C02_canonical_refuted :
  exists w d n,
    w < 2 ^ 64 /\
    is_canonical_encoding EncodingModeProduction w = true /\
    parse_preliminary_variant_and_absolute_number EncodingModeProduction w = Ok (d, n) /\
    forall bld, encode_as_integer EncodingModeProduction bld d <> Ok w.
Proof.
  destruct (roundtrip_encode ProductionMode Debug 2047) as (d & Hp & _).
  exists 2047, d, (mkVariantMonotonicNumber (bits 2047 0 11)).
  split; [reflexivity|]. split; [reflexivity|]. split; [exact Hp|].
  intros bld H.
  destruct (roundtrip_encode ProductionMode bld 2047) as (d' & Hp' & He').
  rewrite Hp in Hp'. injection Hp' as <-.
  change (encode_as_integer EncodingModeProduction bld d = Ok (spec_normalise 16 2047)) in He'.
  rewrite H in He'. injection He' as He'. symmetry in He'. apply prod_normalise_fixed in He'; [|reflexivity].
  destruct He' as [_ L]. vm_compute in L. discriminate.
Qed.

Example pf_C02_example : exists t, OPCODES_TABLE = Ok t /\ 0x0001FFFF07F3A06C < 2 ^ 64 /\
  bits 0x0001FFFF07F3A06C 11 2 = 0 /\
  nth_error t (N.to_nat (bits 0x0001FFFF07F3A06C 0 11)) = Some (variant example_d).
Proof.
  exists padded_table. split; [apply OPCODES_TABLE_eq|]. split; [reflexivity|].
  split; [reflexivity|].
  assert (H : spec_number (variant example_d) = Some 108) by reflexivity.
  rewrite <- padded_first_index, first_index_Some in H. apply H.
Qed.

(** ** C03 *)

(** Decoding never panics and reads fixed bit fields. *)
Lemma pf_C03_fields :
  forall w, w < 2 ^ 64 ->
  exists d t,
    parse_preliminary_variant_and_absolute_number EncodingModeProduction w
    = Ok (d, mkVariantMonotonicNumber (bits w 0 11)) /\
    OPCODES_TABLE = Ok t /\
    nth_error t (N.to_nat (bits w 0 11)) = Some (variant d) /\
    nth_error [Always; Gt_; Lt_; Eq_; Ge_; Le_; Ne_; GtOrLt] (N.to_nat (bits w 13 3))
    = Some (condition d) /\
    src0_reg_idx d = bits w 16 4 /\ src1_reg_idx d = bits w 20 4 /\
    dst0_reg_idx d = bits w 24 4 /\ dst1_reg_idx d = bits w 28 4 /\
    imm_0 d = bits w 32 16 /\ imm_1 d = bits w 48 16.
Proof.
  intros w _. destruct (mode_parse_fields ProductionMode w) as (d & Hp & Hv & Hc & Hrest).
  exists d, padded_table. split; [exact Hp|]. split; [exact OPCODES_TABLE_eq|].
  split; [|split; [exact Hc|exact Hrest]].
  assert (Hb := bits_lt w 0 11). change (2 ^ 11) with 2048 in Hb.
  assert (Hi := index_padded _ Hb). unfold index in Hi.
  destruct (nth_error padded_table (N.to_nat (bits w 0 11))) as [x|]; [|discriminate].
  injection Hi as ->. f_equal. symmetry. exact Hv.
Qed.

(** The gap bits do not influence the result. *)
Lemma pf_C03_gap_ignored :
  forall w w', w < 2 ^ 64 -> w' < 2 ^ 64 ->
  bits w 0 11 = bits w' 0 11 -> bits w 13 51 = bits w' 13 51 ->
  parse_preliminary_variant_and_absolute_number EncodingModeProduction w
  = parse_preliminary_variant_and_absolute_number EncodingModeProduction w'.
Proof.
  intros w w' _ _ H1 H2.
  destruct (mode_parse_fields ProductionMode w) as (d & Hp & Hf).
  destruct (mode_parse_fields ProductionMode w') as (d' & Hp' & Hf').
  change (mode_impl ProductionMode) with EncodingModeProduction in *.
  rewrite Hp, Hp', H1. f_equal. f_equal.
  apply (fields_unique 16 w); [exact Hf|].
  assert (S : forall lo n, 13 <= lo -> lo + n <= 64 -> bits w lo n = bits w' lo n).
  { intros lo n Ha Hb. replace lo with (13 + (lo - 13)) by lia.
    rewrite <- (bits_sub w 13 51), <- (bits_sub w' 13 51) by lia.
    rewrite H2. reflexivity. }
  unfold spec_fields in *. cbn [mode_imm_bits] in *.
  change (32 + 16) with 48 in *.
  rewrite H1, !S by lia. exact Hf'.
Qed.

(** The public function that reads only the variant and the condition. *)
Lemma pf_C03_variant_and_condition :
  forall w, w < 2 ^ 64 ->
  exists t v c,
    variant_and_condition_from_u64_word w = Ok (v, c, bits w 0 11) /\
    OPCODES_TABLE = Ok t /\ nth_error t (N.to_nat (bits w 0 11)) = Some v /\
    nth_error [Always; Gt_; Lt_; Eq_; Ge_; Le_; Ne_; GtOrLt] (N.to_nat (bits w 13 3)) = Some c.
Proof.
  intros w _. destruct (u64_word_fields w) as (c & Hc & H).
  exists padded_table, (spec_variant_at (bits w 0 11)), c.
  split; [exact H|]. split; [exact OPCODES_TABLE_eq|]. split; [|exact Hc].
  assert (I := index_padded (bits w 0 11) (bits_lt w 0 11)). unfold index in I.
  destruct (nth_error padded_table (N.to_nat (bits w 0 11))) as [x|]; [|discriminate].
  injection I as ->. reflexivity.
Qed.

Example pf_C03_example :
  0x0001FFFF07F3B86C < 2 ^ 64 /\ 0x0001FFFF07F3A06C < 2 ^ 64 /\
  bits 0x0001FFFF07F3B86C 0 11 = bits 0x0001FFFF07F3A06C 0 11 /\
  bits 0x0001FFFF07F3B86C 13 51 = bits 0x0001FFFF07F3A06C 13 51 /\
  bits 0x0001FFFF07F3B86C 11 2 <> bits 0x0001FFFF07F3A06C 11 2.
Proof. repeat split; vm_compute; discriminate. Qed.

(** ** C04 *)

Lemma pf_C04_panics_release :
  forall m d, typed (mode_imm_bits m) d ->
  (encode_as_integer (mode_impl m) Release d = Panic <-> ~ in_table (variant d)).
Proof. exact encode_panics_release. Qed.

Lemma pf_C04_panics_debug :
  forall m d, typed (mode_imm_bits m) d ->
  (encode_as_integer (mode_impl m) Debug d = Panic <->
   ~ in_table (variant d) \/ ~ regs_in_range d).
Proof. exact encode_panics_debug. Qed.

(** In a release build a register index of 16 or more goes unnoticed: the word decodes to
    the instruction with other registers (exactly those of [spec_wrap]). *)
Lemma pf_C04_release_wrong_registers :
  forall m d, typed (mode_imm_bits m) d -> in_table (variant d) -> ~ regs_in_range d ->
  exists w d' n,
    encode_as_integer (mode_impl m) Release d = Ok w /\
    parse_preliminary_variant_and_absolute_number (mode_impl m) w = Ok (d', n) /\
    d' = spec_wrap d /\
    ~ (src0_reg_idx d' = src0_reg_idx d /\ src1_reg_idx d' = src1_reg_idx d /\
       dst0_reg_idx d' = dst0_reg_idx d /\ dst1_reg_idx d' = dst1_reg_idx d).
Proof.
  intros m d Ht Hin Hr.
  destruct (encode_as_integer (mode_impl m) Release d) as [w|] eqn:E.
  - destruct (encode_then_parse m Release d w Ht E) as (n & _ & _ & Hp).
    exists w, (spec_wrap d), (mkVariantMonotonicNumber n).
    split; [reflexivity|]. split; [exact Hp|]. split; [reflexivity|].
    intros (A & B & C & D). apply Hr. destruct (wrap_typed _ _ Ht) as [_ R].
    unfold regs_in_range in *. rewrite A, B, C, D in R. exact R.
  - apply encode_panics_release in E; [contradiction|exact Ht].
Qed.

Example pf_C04_example :
  let d := mkDecodedOpcode (variant example_d) Always 0x21 0x50 0 0 7 9 in
  typed 16 d /\ in_table (variant d) /\ ~ regs_in_range d /\
  spec_wrap d = mkDecodedOpcode (variant example_d) Always 1 2 0 0 7 9.
Proof.
  cbv zeta. split; [repeat split|]. split; [apply example_in_table|].
  split; [intros [H _]; vm_compute in H; discriminate|]. reflexivity.
Qed.

(** ** C05 *)

(** The exact word, in terms of the variant's number in the ISA. *)
Lemma pf_C05_layout :
  forall bld d w, typed 16 d -> regs_in_range d ->
  encode_as_integer EncodingModeProduction bld d = Ok w ->
  exists number,
    spec_number (variant d) = Some number /\
    w = number + 2 ^ 13 * spec_cond_number (condition d)
        + 2 ^ 16 * src0_reg_idx d + 2 ^ 20 * src1_reg_idx d
        + 2 ^ 24 * dst0_reg_idx d + 2 ^ 28 * dst1_reg_idx d
        + 2 ^ 32 * imm_0 d + 2 ^ 48 * imm_1 d /\
    w < 2 ^ 64 /\ bits w 11 2 = 0 /\
    is_canonical_encoding EncodingModeProduction w = true.
Proof.
  intros bld d w Ht Hr He.
  destruct (encode_then_parse ProductionMode bld d w Ht He) as (n & Hn & Hw & _).
  destruct (encode_lt ProductionMode bld d w Ht He) as (_ & Hlt & Hg).
  exists n. split; [exact Hn|]. rewrite wrap_id in Hw by exact Hr.
  split; [exact Hw|]. split; [exact Hlt|]. split; [exact Hg|].
  apply (canonical_iff ProductionMode). exact Hg.
Qed.

Example pf_C05_example :
  typed 16 example_d /\ regs_in_range example_d /\
  spec_number (variant example_d) = Some 108 /\
  encode_as_integer EncodingModeProduction Debug example_d = Ok 0x0001FFFF07F3A06C.
Proof.
  split; [apply example_typed|]. split; [apply example_typed|].
  split; [reflexivity|].
  apply (concrete_word ProductionMode _ _ 108); try apply example_typed; reflexivity.
Qed.

(** ** C06 *)

Lemma pf_C06_decode_encode :
  forall bld d,
  in_table (variant d) -> typed 32 d -> regs_in_range d ->
  exists w n t,
    encode_as_integer EncodingModeTesting bld d = Ok w /\
    OPCODES_TABLE = Ok t /\ nth_error t (N.to_nat n) = Some (variant d) /\
    (forall j, j < n -> nth_error t (N.to_nat j) <> Some (variant d)) /\
    w = n + 2 ^ 13 * spec_cond_number (condition d)
        + 2 ^ 16 * src0_reg_idx d + 2 ^ 20 * src1_reg_idx d
        + 2 ^ 24 * dst0_reg_idx d + 2 ^ 28 * dst1_reg_idx d
        + 2 ^ 32 * imm_0 d + 2 ^ 64 * imm_1 d /\
    w < 2 ^ 128 /\
    parse_preliminary_variant_and_absolute_number EncodingModeTesting w
    = Ok (d, mkVariantMonotonicNumber n).
Proof. exact (mode_decode_encode TestingMode). Qed.

Lemma pf_C06_injective :
  forall bld1 bld2 d1 d2 w,
  typed 32 d1 -> typed 32 d2 -> regs_in_range d1 -> regs_in_range d2 ->
  encode_as_integer EncodingModeTesting bld1 d1 = Ok w ->
  encode_as_integer EncodingModeTesting bld2 d2 = Ok w -> d1 = d2.
Proof. exact (mode_injective TestingMode). Qed.

Lemma pf_C06_fields :
  forall w, w < 2 ^ 128 ->
  exists d t,
    parse_preliminary_variant_and_absolute_number EncodingModeTesting w
    = Ok (d, mkVariantMonotonicNumber (bits w 0 11)) /\
    OPCODES_TABLE = Ok t /\
    nth_error t (N.to_nat (bits w 0 11)) = Some (variant d) /\
    nth_error [Always; Gt_; Lt_; Eq_; Ge_; Le_; Ne_; GtOrLt] (N.to_nat (bits w 13 3))
    = Some (condition d) /\
    src0_reg_idx d = bits w 16 4 /\ src1_reg_idx d = bits w 20 4 /\
    dst0_reg_idx d = bits w 24 4 /\ dst1_reg_idx d = bits w 28 4 /\
    imm_0 d = bits w 32 32 /\ imm_1 d = bits w 64 32.
Proof.
  intros w _. destruct (mode_parse_fields TestingMode w) as (d & Hp & Hv & Hc & Hrest).
  exists d, padded_table. split; [exact Hp|]. split; [exact OPCODES_TABLE_eq|].
  split; [|split; [exact Hc|exact Hrest]].
  assert (Hb := bits_lt w 0 11). change (2 ^ 11) with 2048 in Hb.
  assert (Hi := index_padded _ Hb). unfold index in Hi.
  destruct (nth_error padded_table (N.to_nat (bits w 0 11))) as [x|]; [|discriminate].
  injection Hi as ->. f_equal. symmetry. exact Hv.
Qed.

(** The public function that reads only the variant and the condition. *)
Lemma pf_C06_variant_and_condition :
  forall w, w < 2 ^ 128 ->
  exists t v c,
    variant_and_condition_from_u128_word w = Ok (v, c, bits w 0 11) /\
    OPCODES_TABLE = Ok t /\ nth_error t (N.to_nat (bits w 0 11)) = Some v /\
    nth_error [Always; Gt_; Lt_; Eq_; Ge_; Le_; Ne_; GtOrLt] (N.to_nat (bits w 13 3)) = Some c.
Proof.
  intros w _. destruct (pf_C03_variant_and_condition (as_u64 w)) as (t & v & c & H);
    [apply N.mod_lt; discriminate|]. exists t, v, c. rewrite u128_word_is_u64_word.
  rewrite as_u64_bits in H |- *. rewrite !bits_sub in H by lia. cbn [N.add] in H. exact H.
Qed.

Example pf_C06_example :
  let d := mkDecodedOpcode (variant example_d) Ne_ 1 2 3 15 0xFFFFFFFF 0x12345678 in
  in_table (variant d) /\ typed 32 d /\ regs_in_range d /\
  encode_as_integer EncodingModeTesting Debug d = Ok 0x12345678FFFFFFFFF321C06C.
Proof.
  cbv zeta. split; [apply example_in_table|]. split; [repeat split|].
  split; [repeat split|].
  apply (concrete_word TestingMode _ _ 108); try reflexivity; repeat split.
Qed.

(** ** C07 *)

Lemma pf_C07_encode_decode :
  forall bld w, w < 2 ^ 128 ->
  exists d n,
    parse_preliminary_variant_and_absolute_number EncodingModeTesting w = Ok (d, n) /\
    encode_as_integer EncodingModeTesting bld d
    = Ok ((if bits w 0 11 <? 1093 then bits w 0 11 else 0) + 2 ^ 13 * bits w 13 83) /\
    (encode_as_integer EncodingModeTesting bld d = Ok w <->
     bits w 11 2 = 0 /\ bits w 96 32 = 0 /\ bits w 0 11 < 1093).
Proof.
  intros bld w Hw. destruct (roundtrip_encode TestingMode bld w) as (d & Hp & He).
  exists d, (mkVariantMonotonicNumber (bits w 0 11)). split; [exact Hp|].
  split; [exact He|].
  change (mode_impl TestingMode) with EncodingModeTesting in He.
  change (mode_imm_bits TestingMode) with 32 in He.
  rewrite He. assert (F := test_normalise_fixed w Hw). change 1093 with spec_assigned.
  rewrite <- F. split; [intros H; injection H as H; exact H|congruence].
Qed.

(** Expected: an accepted word with an assigned number survives.  It need not. *)
Lemma pf_C07_canonical_refuted :
  exists w d n,
    w < 2 ^ 128 /\
    is_canonical_encoding EncodingModeTesting w = true /\
    0 < bits w 0 11 < 1093 /\
    parse_preliminary_variant_and_absolute_number EncodingModeTesting w = Ok (d, n) /\
    forall bld, encode_as_integer EncodingModeTesting bld d <> Ok w.
Proof.
  set (w := 1 + 2 ^ 96).
  destruct (pf_C07_encode_decode Debug w) as (d & n & Hp & _); [reflexivity|].
  exists w, d, n.
  split; [reflexivity|]. split; [reflexivity|]. split; [split; reflexivity|].
  split; [exact Hp|]. intros bld H.
  destruct (pf_C07_encode_decode bld w) as (d' & n' & Hp' & _ & F); [reflexivity|].
  rewrite Hp in Hp'. injection Hp' as <- <-. apply F in H as (_ & H & _).
  vm_compute in H. discriminate.
Qed.

Example pf_C07_example :
  0x12345678FFFFFFFFF321C06C < 2 ^ 128 /\ bits 0x12345678FFFFFFFFF321C06C 11 2 = 0 /\
  bits 0x12345678FFFFFFFFF321C06C 96 32 = 0 /\ bits 0x12345678FFFFFFFFF321C06C 0 11 = 108.
Proof. repeat split. Qed.

(** ** C08 *)

Lemma pf_C08_encoders_agree :
  forall bld d, typed 16 d ->
  match encode_as_integer EncodingModeProduction bld d,
        encode_as_integer EncodingModeTesting bld d with
  | Panic, Panic => True
  | Ok wp, Ok wt =>
      bits wp 0 48 = bits wt 0 48 /\
      bits wt 64 16 = bits wp 48 16 /\
      bits wt 48 16 = 0 /\ bits wt 80 48 = 0 /\
      parse_preliminary_variant_and_absolute_number EncodingModeProduction wp
      = parse_preliminary_variant_and_absolute_number EncodingModeTesting wt
  | _, _ => False
  end.
Proof. exact modes_agree. Qed.

Lemma pf_C08_decoders_agree :
  forall wp wt, wp < 2 ^ 64 -> wt < 2 ^ 128 ->
  bits wt 0 48 = bits wp 0 48 -> bits wt 48 16 = 0 -> bits wt 64 32 = bits wp 48 16 ->
  parse_preliminary_variant_and_absolute_number EncodingModeProduction wp
  = parse_preliminary_variant_and_absolute_number EncodingModeTesting wt.
Proof.
  intros wp wt _ _ H1 H2 H3.
  destruct (mode_parse_fields ProductionMode wp) as (d & Hp & Hf).
  destruct (mode_parse_fields TestingMode wt) as (d' & Hp' & Hf').
  change (mode_impl ProductionMode) with EncodingModeProduction in *.
  change (mode_impl TestingMode) with EncodingModeTesting in *.
  rewrite Hp, Hp'.
  assert (S : forall lo n, lo + n <= 48 -> bits wt lo n = bits wp lo n).
  { intros lo n Hb. change lo with (0 + lo).
    rewrite <- (bits_sub wt 0 48 lo n), <- (bits_sub wp 0 48 lo n) by lia.
    rewrite H1. reflexivity. }
  rewrite (S 0 11) by lia. f_equal. f_equal.
  apply (fields_unique 16 wp); [exact Hf|].
  unfold spec_fields in *. cbn [mode_imm_bits] in *.
  change (32 + 16) with 48 in *. change (32 + 32) with 64 in *.
  assert (I : bits wt 32 32 = bits wp 32 16).
  { change (bits wt 32 32) with (bits wt 32 (16 + 16)). rewrite bits_split.
    change (32 + 16) with 48. rewrite H2, (S 32 16) by lia. lia. }
  rewrite I, H3, !S in Hf' by lia. exact Hf'.
Qed.

Example pf_C08_example :
  let wp := 0x0001FFFF07F3A06C in let wt := 0x010000FFFF07F3A06C mod 2 ^ 48 + 2 ^ 64 in
  wp < 2 ^ 64 /\ wt < 2 ^ 128 /\ bits wt 0 48 = bits wp 0 48 /\ bits wt 48 16 = 0 /\
  bits wt 64 32 = bits wp 48 16 /\
  encode_as_integer EncodingModeTesting Debug example_d = Ok wt.
Proof.
  cbv zeta. do 5 (split; [reflexivity|]).
  apply (concrete_word TestingMode _ _ 108); try reflexivity; repeat split.
Qed.

(** ** C09 *)

Lemma pf_C09_canonical :
  forall m w,
  (is_canonical_encoding (mode_impl m) w = true <->
   N.testbit w 11 = false /\ N.testbit w 12 = false).
Proof.
  intros m w. rewrite canonical_iff. unfold bits.
  rewrite <- N.shiftr_div_pow2, <- N.land_ones. split.
  - intros H.
    assert (A : forall i, i < 2 -> N.testbit w (i + 11) = false).
    { intros i Hi. rewrite <- N.shiftr_spec by lia.
      assert (T : N.testbit (N.land (N.shiftr w 11) (N.ones 2)) i = false)
        by (rewrite H; apply N.bits_0).
      rewrite N.land_spec, N.ones_spec_low, andb_true_r in T by exact Hi. exact T. }
    split; [apply (A 0)|apply (A 1)]; lia.
  - intros [H1 H2]. apply N.bits_inj_0. intros i. rewrite N.land_spec.
    destruct (N.lt_ge_cases i 2) as [L|L].
    + rewrite N.shiftr_spec by lia.
      assert (C : i = 0 \/ i = 1) by lia. destruct C as [->| ->].
      * change (0 + 11) with 11. rewrite H1. reflexivity.
      * change (1 + 11) with 12. rewrite H2. reflexivity.
    + rewrite N.ones_spec_high by exact L. apply andb_false_r.
Qed.

Lemma pf_C09_encoded_canonical :
  forall m bld d w, typed (mode_imm_bits m) d ->
  encode_as_integer (mode_impl m) bld d = Ok w -> is_canonical_encoding (mode_impl m) w = true.
Proof.
  intros m bld d w Ht He. apply canonical_iff. apply (encode_lt m bld d w Ht He).
Qed.

Example pf_C09_example :
  is_canonical_encoding EncodingModeProduction 2047 = true /\
  is_canonical_encoding EncodingModeProduction 2048 = false /\
  is_canonical_encoding EncodingModeTesting (2 ^ 127 + 4096) = false.
Proof. repeat split. Qed.

(** ** C10 *)

Lemma pf_C10_bytes :
  forall m bld d, typed (mode_imm_bits m) d ->
  match serialize_as_bytes (mode_impl m) bld d, serialize_as_integer (mode_impl m) bld d with
  | Panic, Panic => True
  | Ok b, Ok w => List.length b = mode_bytes m /\ is_bytes b /\ be_value b = w
  | _, _ => False
  end.
Proof. exact bytes_spec. Qed.

(** Equal bytes mean equal words: no information is lost. *)
Lemma pf_C10_lossless :
  forall m bld1 bld2 d1 d2 b w1 w2,
  typed (mode_imm_bits m) d1 -> typed (mode_imm_bits m) d2 ->
  serialize_as_bytes (mode_impl m) bld1 d1 = Ok b ->
  serialize_as_bytes (mode_impl m) bld2 d2 = Ok b ->
  serialize_as_integer (mode_impl m) bld1 d1 = Ok w1 ->
  serialize_as_integer (mode_impl m) bld2 d2 = Ok w2 -> w1 = w2.
Proof.
  intros m bld1 bld2 d1 d2 b w1 w2 T1 T2 B1 B2 W1 W2.
  assert (S1 := bytes_spec m bld1 d1 T1). assert (S2 := bytes_spec m bld2 d2 T2).
  rewrite B1, W1 in S1. rewrite B2, W2 in S2.
  destruct S1 as (_ & _ & <-). destruct S2 as (_ & _ & <-). reflexivity.
Qed.

Example pf_C10_example :
  typed 16 example_d /\
  serialize_as_bytes EncodingModeProduction Debug example_d
  = Ok [0x00; 0x01; 0xFF; 0xFF; 0x07; 0xF3; 0xA0; 0x6C].
Proof.
  split; [apply example_typed|].
  apply (concrete_bytes ProductionMode _ _ 108 0x0001FFFF07F3A06C);
    try apply example_typed; reflexivity.
Qed.

(** ** C11 *)

Lemma pf_C11_split_pc :
  forall m pc,
  let '(word, sub) := split_pc (mode_impl m) pc in
  pc = mode_per_word m * word + sub /\ sub < mode_per_word m.
Proof. exact split_pc_spec. Qed.

(** Selecting sub-word [s] of a 32-byte big-endian word reads its bytes
    [s*width .. (s+1)*width-1], and never reaches the [unreachable!()] arm. *)
Lemma pf_C11_select :
  forall m v s l,
  u256_typed v -> s < mode_per_word m ->
  is_bytes l -> List.length l = 32%nat -> u256_value v = be_value l ->
  integer_representaiton_from_u256 (mode_impl m) v s
  = Ok (be_value (firstn (mode_bytes m) (skipn (mode_bytes m * N.to_nat s) l))).
Proof. exact select_bytes. Qed.

Lemma pf_C11_select_panics :
  forall m v s, mode_per_word m <= s ->
  integer_representaiton_from_u256 (mode_impl m) v s = Panic.
Proof.
  intros m v s Hs.
  destruct m; cbn [mode_impl integer_representaiton_from_u256 EncodingModeProduction
                   EncodingModeTesting mode_per_word] in *;
    destruct s as [|[[p|p|]|[p|p|]|]]; try lia; reflexivity.
Qed.

(** Fetching from a code page that holds a program (of any length, padded to whole memory
    words) gives the instruction word with that index. *)
Lemma pf_C11_fetch_program :
  forall m page prog pad pc w,
  Forall (fun x => x < 2 ^ mode_word_bits m) prog -> is_bytes pad ->
  let bytes := flat_map (to_be_bytes (mode_bytes m)) prog ++ pad in
  (List.length bytes mod 32 = 0)%nat ->
  page_holds page bytes ->
  nth_error prog (N.to_nat pc) = Some w ->
  fetch m page pc = Ok w.
Proof. exact fetch_program. Qed.

Lemma room m pc n pad :
  (N.to_nat pc < n)%nat -> ((mode_bytes m * n + pad) mod 32 = 0)%nat ->
  32 * (pc / mode_per_word m + 1) <= N.of_nat (mode_bytes m * n + pad).
Proof.
  intros H E. apply Nat.mod_divides in E as [q E]; [|discriminate]. rewrite E.
  assert (Q : mode_per_word m * (pc / mode_per_word m) <= pc)
    by (apply N.mul_div_le; destruct m; discriminate).
  revert Q. generalize (pc / mode_per_word m). intros k Q.
  destruct m; cbn [mode_bytes mode_per_word] in *; lia.
Qed.

(** End to end: serialize a list of instructions, lay the bytes out, fetch and decode. *)
Lemma pf_C11_end_to_end :
  forall m bld page prog pad chunks pc d,
  Forall (fun d => typed (mode_imm_bits m) d /\ regs_in_range d) prog -> is_bytes pad ->
  Forall2 (fun d b => serialize_as_bytes (mode_impl m) bld d = Ok b) prog chunks ->
  let bytes := List.concat chunks ++ pad in
  (List.length bytes mod 32 = 0)%nat ->
  page_holds page bytes ->
  nth_error prog (N.to_nat pc) = Some d ->
  exists w n, fetch m page pc = Ok w /\
    parse_preliminary_variant_and_absolute_number (mode_impl m) w = Ok (d, n).
Proof.
  intros m bld page prog pad chunks pc d Hty Hpad Hch bytes Hlen Hpage Hd.
  assert (Hbytes : is_bytes bytes /\ Forall (fun b => List.length b = mode_bytes m) chunks).
  { unfold bytes, is_bytes. split.
    - apply Forall_app. split; [|exact Hpad]. clear -Hty Hch.
      induction Hch as [|x b xs bs Hb _ IH]; [constructor|]. inversion Hty; subst.
      cbn [List.concat]. apply Forall_app. split; [|apply IH; assumption].
      assert (S := bytes_spec m bld x (proj1 H1)). rewrite Hb in S.
      destruct (serialize_as_integer (mode_impl m) bld x); [|contradiction].
      apply S.
    - clear -Hty Hch. induction Hch as [|x b xs bs Hb _ IH]; [constructor|].
      inversion Hty; subst. constructor; [|apply IH; assumption].
      assert (S := bytes_spec m bld x (proj1 H1)). rewrite Hb in S.
      destruct (serialize_as_integer (mode_impl m) bld x); [|contradiction].
      apply S. }
  destruct Hbytes as [Hbytes Hwidth].
  assert (Hb : exists b, nth_error chunks (N.to_nat pc) = Some b /\
                         serialize_as_bytes (mode_impl m) bld d = Ok b).
  { clear -Hch Hd. revert Hd. generalize (N.to_nat pc). intros k. revert k.
    induction Hch as [|x b xs bs Hb _ IH]; intros k Hk; [destruct k; discriminate|].
    destruct k; cbn in *; [injection Hk as <-; exists b; auto|apply IH, Hk]. }
  destruct Hb as (b & Hnb & Hsb).
  assert (Hdt : typed (mode_imm_bits m) d /\ regs_in_range d).
  { rewrite Forall_forall in Hty. apply Hty. eapply nth_error_In, Hd. }
  assert (L : List.length (List.concat chunks) = (mode_bytes m * List.length chunks)%nat).
  { clear -Hwidth. induction Hwidth as [|c cs Hc _ IH]; cbn [List.concat List.length]; [lia|].
    rewrite app_length, Hc, IH. lia. }
  assert (Hpc : (N.to_nat pc < List.length chunks)%nat) by (apply nth_error_Some; congruence).
  assert (Hf : fetch m page pc
               = Ok (be_value (firstn (mode_bytes m)
                        (skipn (mode_bytes m * N.to_nat pc) bytes)))).
  { apply fetch_bytes; [exact Hbytes|exact Hpage|].
    unfold bytes in *. rewrite app_length, L in *. apply room; assumption. }
  assert (E : firstn (mode_bytes m) (skipn (mode_bytes m * N.to_nat pc) bytes) = b).
  { unfold bytes. rewrite <- (map_id chunks), <- flat_map_concat_map.
    apply (skipn_concat (fun x => x)); [|exact Hnb].
    intros c Hc. rewrite Forall_forall in Hwidth. apply Hwidth, Hc. }
  rewrite E in Hf.
  assert (S := bytes_spec m bld d (proj1 Hdt)). rewrite Hsb in S.
  destruct (serialize_as_integer (mode_impl m) bld d) as [w|] eqn:Ew; [|contradiction].
  destruct S as (_ & _ & Hv).
  destruct (encode_then_parse m bld d w (proj1 Hdt) Ew) as (n & _ & _ & Hp).
  rewrite wrap_id in Hp by apply Hdt.
  exists w, (mkVariantMonotonicNumber n). split; [rewrite Hf, Hv; reflexivity|exact Hp].
Qed.

(** A five-instruction program padded to two memory words. *)
Example pf_C11_example :
  let prog := [1; 0x0001FFFF07F3A06C; 3; 4; 5] in
  let bytes := flat_map (to_be_bytes 8) prog ++ repeat 0 24 in
  let page := fun k => if k =? 0 then mkU256 4 3 0x0001FFFF07F3A06C 1 else mkU256 0 0 0 5 in
  Forall (fun x => x < 2 ^ 64) prog /\ is_bytes (repeat 0 24) /\
  (List.length bytes mod 32 = 0)%nat /\ page_holds page bytes /\
  fetch ProductionMode page 4 = Ok 5.
Proof.
  cbv zeta. split; [repeat constructor|]. split; [repeat constructor|].
  split; [reflexivity|]. split; [|reflexivity].
  intros k Hk.
  assert (C : k = 0 \/ k = 1).
  { change (N.of_nat _) with 64 in Hk. lia. }
  destruct C as [->| ->]; (split; [repeat split|vm_compute; reflexivity]).
Qed.

(** Two instructions and a 16-byte pad, in production mode. *)
Example pf_C11_end_to_end_example :
  let nop := mkOpcodeVariant (Op_Nop nopOpcode) (Full UseRegOnly) (Full UseRegOnly)
               (false, false) in
  let prog := [mkDecodedOpcode nop Always 0 0 0 0 0 0; example_d] in
  let chunks := [[0; 0; 0; 0; 0; 0; 0; 1]; [0; 1; 0xFF; 0xFF; 7; 0xF3; 0xA0; 0x6C]] in
  let page := fun _ => mkU256 0 0 0x0001FFFF07F3A06C 1 in
  Forall (fun d => typed 16 d /\ regs_in_range d) prog /\ is_bytes (repeat 0 16) /\
  Forall2 (fun d b => serialize_as_bytes EncodingModeProduction Debug d = Ok b) prog chunks /\
  (List.length (List.concat chunks ++ repeat 0%N 16) mod 32 = 0)%nat /\
  page_holds page (List.concat chunks ++ repeat 0 16) /\
  nth_error prog (N.to_nat 1) = Some example_d.
Proof.
  cbv zeta. split; [repeat constructor|]. split; [repeat constructor|].
  split; [constructor; [|constructor; [|constructor]]|].
  { apply (concrete_bytes ProductionMode _ _ 1 1); try reflexivity; repeat split. }
  { apply (concrete_bytes ProductionMode _ _ 108 0x0001FFFF07F3A06C);
      try apply example_typed; reflexivity. }
  split; [reflexivity|]. split; [|reflexivity].
  intros k Hk. change (N.of_nat _) with 32 in Hk. replace k with 0 by lia.
  split; [repeat split|vm_compute; reflexivity].
Qed.

(** ** C24 *)

(** [mask_into_panic] turns any instruction into the exception-revert instruction with its
    immediates kept. *)
Lemma pf_C24_panic :
  forall m bld d, imm_0 d < 2 ^ mode_imm_bits m -> imm_1 d < 2 ^ mode_imm_bits m ->
  exists w e v,
    PANIC_OPCODE_VARIANT = Ok v /\
    mask_into_panic d = mkDecodedOpcode v Always 0 0 0 0 (imm_0 d) (imm_1 d) /\
    opcode v = Op_Ret RetOpcode_Panic /\ flags v = (false, false) /\
    exception_revert_encoding (mode_impl m) bld = Ok e /\
    serialize_as_integer (mode_impl m) bld (mask_into_panic d) = Ok w /\
    w = e + 2 ^ 32 * imm_0 d + 2 ^ (32 + mode_imm_bits m) * imm_1 d.
Proof.
  intros m bld d Hi Hj.
  destruct (plain_encoding m bld panic_variant 1073 _ _ panic_number Hi Hj) as [He _].
  exists (1073 + 2 ^ 32 * imm_0 d + 2 ^ (32 + mode_imm_bits m) * imm_1 d), 1073, panic_variant.
  split; [apply PANIC_VARIANT_eq|]. split; [reflexivity|]. split; [reflexivity|].
  split; [reflexivity|]. split; [apply panic_encoding_eq|]. split; [exact He|reflexivity].
Qed.

Lemma pf_C24_nop :
  forall m bld d, imm_0 d < 2 ^ mode_imm_bits m -> imm_1 d < 2 ^ mode_imm_bits m ->
  exists w e v,
    NOP_OPCODE_VARIANT = Ok v /\
    mask_into_nop d = mkDecodedOpcode v Always 0 0 0 0 (imm_0 d) (imm_1 d) /\
    opcode v = Op_Nop nopOpcode /\ flags v = (false, false) /\
    nop_encoding (mode_impl m) bld = Ok e /\
    serialize_as_integer (mode_impl m) bld (mask_into_nop d) = Ok w /\
    w = e + 2 ^ 32 * imm_0 d + 2 ^ (32 + mode_imm_bits m) * imm_1 d.
Proof.
  intros m bld d Hi Hj.
  destruct (plain_encoding m bld nop_variant 1 _ _ nop_number Hi Hj) as [He _].
  exists (1 + 2 ^ 32 * imm_0 d + 2 ^ (32 + mode_imm_bits m) * imm_1 d), 1, nop_variant.
  split; [apply NOP_VARIANT_eq|]. split; [reflexivity|]. split; [reflexivity|].
  split; [reflexivity|]. split; [apply nop_encoding_eq|]. split; [exact He|reflexivity].
Qed.

(** Any sequence of masks has the effect of its last one. *)
Lemma pf_C24_last_mask_wins :
  forall (masks : list bool) d,
  let apply := fun d (to_panic : bool) => if to_panic then mask_into_panic d else mask_into_nop d in
  forall last, fold_left apply (masks ++ [last]) d = apply d last.
Proof.
  intros masks d apply last. rewrite fold_left_app. cbn [fold_left].
  assert (E : forall d', imm_0 (fold_left apply masks d') = imm_0 d' /\
                         imm_1 (fold_left apply masks d') = imm_1 d').
  { induction masks as [|x l IH]; intros d'; [split; reflexivity|]. cbn [fold_left].
    destruct (IH (apply d' x)) as [-> ->]. destruct x; split; reflexivity. }
  destruct (E d) as [E0 E1].
  destruct last; unfold apply at 1 3; unfold mask_into_panic, mask_into_nop;
    rewrite E0, E1; reflexivity.
Qed.

(** The property bitmask of a masked instruction is the exported constant. *)
Lemma pf_C24_bitspread :
  forall d bld,
  exists p n, PANIC_BITSPREAD_U64 = Ok p /\ NOP_BITSPREAD_U64 = Ok n /\
    opcode_as_integer_bitmask bld (variant (mask_into_panic d)) DEFAULT_ISA_VERSION = Ok p /\
    opcode_as_integer_bitmask bld (variant (mask_into_nop d)) DEFAULT_ISA_VERSION = Ok n.
Proof.
  intros d bld. exists (mask_value panic_variant), (mask_value nop_variant).
  rewrite !bitmask_eq. unfold PANIC_BITSPREAD_U64, NOP_BITSPREAD_U64.
  rewrite PANIC_VARIANT_eq, NOP_VARIANT_eq.
  split; [exact (bitspread_of panic_variant 1073 panic_number)|].
  split; [exact (bitspread_of nop_variant 1 nop_number)|]. split; reflexivity.
Qed.

Example pf_C24_example :
  let d := mkDecodedOpcode spec_invalid Lt_ 255 17 3 99 0xABCD 5 in
  imm_0 d < 2 ^ 16 /\ imm_1 d < 2 ^ 16 /\
  serialize_as_integer EncodingModeProduction Debug (mask_into_panic d) = Ok 0x0005ABCD00000431.
Proof.
  cbv zeta. split; [reflexivity|]. split; [reflexivity|].
  apply (concrete_word ProductionMode _ _ 1073); try apply panic_number; try reflexivity;
    repeat split.
Qed.

(** ** C25 *)

Lemma pf_C25_nop_encoding :
  forall m bld, exists w v n,
    nop_encoding (mode_impl m) bld = Ok w /\ NOP_OPCODE_VARIANT = Ok v /\
    opcode v = Op_Nop nopOpcode /\ flags v = (false, false) /\
    parse_preliminary_variant_and_absolute_number (mode_impl m) w
    = Ok (mkDecodedOpcode v Always 0 0 0 0 0 0, n) /\
    is_canonical_encoding (mode_impl m) w = true /\ w <> 0.
Proof.
  intros m bld.
  destruct (plain_encoding m bld nop_variant 1 0 0 nop_number (pow2_pos _) (pow2_pos _))
    as [_ Hp].
  rewrite !N.mul_0_r in Hp. change (1 + 0 + 0) with 1 in Hp.
  exists 1, nop_variant, (mkVariantMonotonicNumber 1).
  split; [apply nop_encoding_eq|]. split; [apply NOP_VARIANT_eq|].
  split; [reflexivity|]. split; [reflexivity|]. split; [exact Hp|].
  split; [apply canonical_iff; reflexivity|discriminate].
Qed.

Lemma pf_C25_exception_encoding :
  forall m bld, exists w v n,
    exception_revert_encoding (mode_impl m) bld = Ok w /\ PANIC_OPCODE_VARIANT = Ok v /\
    opcode v = Op_Ret RetOpcode_Panic /\ flags v = (false, false) /\
    parse_preliminary_variant_and_absolute_number (mode_impl m) w
    = Ok (mkDecodedOpcode v Always 0 0 0 0 0 0, n) /\
    is_canonical_encoding (mode_impl m) w = true /\ w <> 0.
Proof.
  intros m bld.
  destruct (plain_encoding m bld panic_variant 1073 0 0 panic_number (pow2_pos _) (pow2_pos _))
    as [_ Hp].
  rewrite !N.mul_0_r in Hp. change (1073 + 0 + 0) with 1073 in Hp.
  exists 1073, panic_variant, (mkVariantMonotonicNumber 1073).
  split; [apply panic_encoding_eq|]. split; [apply PANIC_VARIANT_eq|].
  split; [reflexivity|]. split; [reflexivity|]. split; [exact Hp|].
  split; [apply canonical_iff; reflexivity|discriminate].
Qed.

(** Exactly the words with zero or unassigned low 11 bits decode to an explicit panic, and
    then to Invalid. *)
Lemma pf_C25_explicit_panic :
  forall m w, w < 2 ^ mode_word_bits m ->
  exists d n,
    parse_preliminary_variant_and_absolute_number (mode_impl m) w = Ok (d, n) /\
    (OpcodeVariant_is_explicit_panic (variant d) = true <->
     bits w 0 11 = 0 \/ 1093 <= bits w 0 11) /\
    (variant d = spec_invalid <-> bits w 0 11 = 0 \/ 1093 <= bits w 0 11).
Proof.
  intros m w _. destruct (mode_parse_fields m w) as (d & Hp & Hv & _).
  exists d, (mkVariantMonotonicNumber (bits w 0 11)). split; [exact Hp|].
  assert (Hb := bits_lt w 0 11). change (2 ^ 11) with 2048 in Hb.
  destruct (invalid_at _ Hb) as [A B]. rewrite Hv, B. split; exact A.
Qed.

Example pf_C25_example :
  0xFFFF0000000007FF < 2 ^ 64 /\ 1093 <= bits 0xFFFF0000000007FF 0 11 /\
  0 < bits 0x0001FFFF07F3A06C 0 11 < 1093.
Proof. repeat split; discriminate. Qed.

(** ** C26 *)

(** The default instruction cannot be serialized in any mode or build, although it is unconditional
    and all its registers and immediates are zero, as in a NOP. *)
Lemma pf_C26_default_refuted :
  forall m bld,
  (condition DecodedOpcode_default = Always /\
   forall field, In field [src0_reg_idx; src1_reg_idx; dst0_reg_idx; dst1_reg_idx; imm_0; imm_1] ->
     field DecodedOpcode_default = 0) /\
  serialize_as_integer (mode_impl m) bld DecodedOpcode_default = Panic /\
  serialize_as_bytes (mode_impl m) bld DecodedOpcode_default = Panic /\
  ~ in_table (variant DecodedOpcode_default) /\
  serialize_as_integer (mode_impl m) bld (mask_into_nop DecodedOpcode_default)
  = nop_encoding (mode_impl m) bld.
Proof.
  intros m bld.
  assert (T : typed (mode_imm_bits m) DecodedOpcode_default) by (destruct m; repeat split).
  assert (P : serialize_as_integer (mode_impl m) bld DecodedOpcode_default = Panic).
  { unfold serialize_as_integer. rewrite encode_complete by exact T. reflexivity. }
  split; [split; [reflexivity|intros f F; repeat (destruct F as [<-|F]; [reflexivity|]); contradiction]|].
  split; [exact P|]. split; [|split].
  - assert (S := bytes_spec m bld _ T). rewrite P in S.
    destruct (serialize_as_bytes (mode_impl m) bld DecodedOpcode_default);
      [contradiction|reflexivity].
  - apply not_in_table. reflexivity.
  - destruct (pf_C24_nop m bld DecodedOpcode_default) as (w & e & v & _ & _ & _ & _ & -> & -> & ->);
      [apply pow2_pos|apply pow2_pos|]. cbn [imm_0 imm_1 DecodedOpcode_default].
    rewrite !N.mul_0_r, !N.add_0_r. reflexivity.
Qed.

Example pf_C26_example :
  DecodedOpcode_default <> mask_into_nop DecodedOpcode_default /\
  exists w, serialize_as_integer EncodingModeTesting Debug (mask_into_nop DecodedOpcode_default) = Ok w.
Proof.
  destruct (pf_C26_default_refuted TestingMode Debug) as (_ & P & _ & _ & E). split.
  - intros H. rewrite <- H in E. destruct (pf_C25_nop_encoding TestingMode Debug) as (w & v & n & E' & _).
    rewrite P, E' in E. discriminate E.
  - destruct (pf_C25_nop_encoding TestingMode Debug) as (w & v & n & E' & _). exists w.
    rewrite <- E'. exact E.
Qed.
