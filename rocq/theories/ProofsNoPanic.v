(** * Proofs about the instructions a machine comes by (C93) *)

From Coq Require Import NArith List Bool Lia.
From Verif Require Import Machine Operands OpcodeTrait Opcodes AllOpcodes Tables Decoding SpecIsa SpecFamilies
  SpecCodec SpecNoPanic TableProofs TableProofs2 CodecProofs CodecProofs2 ProofsCodec ProofsTables ProofsFamilies ProofsLayout.
Import ListNotations.
Open Scope N_scope.

Lemma select_ok m v s : u256_typed v -> s < mode_per_word m ->
  exists w, integer_representaiton_from_u256 (mode_impl m) v s = Ok w /\ w < 2 ^ mode_word_bits m.
Proof.
  intros (A & B & C & D) S. destruct m; cbn [mode_per_word] in S.
  - assert (K : s = 0 \/ s = 1 \/ s = 2 \/ s = 3) by lia.
    destruct K as [->|[->|[->| ->]]]; eexists; (split; [reflexivity|assumption]).
  - assert (K : s = 0 \/ s = 1) by lia.
    assert (G : forall a b, a < 2 ^ 64 -> b < 2 ^ 64 -> a + shl 128 b 64 < 2 ^ 128).
    { intros a b Ha Hb. unfold shl. rewrite N.shiftl_mul_pow2, N.mod_small by (clear - Hb; lia).
      clear - Ha Hb. lia. }
    destruct K as [->| ->]; eexists; (split; [reflexivity|apply G; assumption]).
Qed.

Lemma fetch_ok m page pc : (forall k, u256_typed (page k)) ->
  exists w, fetch m page pc = Ok w /\ w < 2 ^ mode_word_bits m.
Proof.
  intros T. unfold fetch. assert (S := pf_C11_split_pc m pc).
  destruct (split_pc (mode_impl m) pc) as [a b]. apply select_ok; [apply T|apply S].
Qed.

(** Whatever the memory holds, fetching and decoding return at every program counter. *)
Lemma pf_C93_fetch :
  forall m page pc, (forall k, u256_typed (page k)) ->
  exists w d n, fetch m page pc = Ok w /\ w < 2 ^ mode_word_bits m /\
    parse_preliminary_variant_and_absolute_number (mode_impl m) w = Ok (d, n).
Proof.
  intros m page pc T. destruct (fetch_ok m page pc T) as (w & F & L).
  destruct (mode_parse_fields m w) as (d & P & _). exists w, d. eexists. eauto.
Qed.

(** Every word of the right width is fetched from some page. *)
Lemma fetched m w : w < 2 ^ mode_word_bits m ->
  exists page, (forall k, u256_typed (page k)) /\ fetch m page 0 = Ok w.
Proof.
  intros L. destruct m; cbn [mode_word_bits] in L.
  - exists (fun _ => mkU256 0 0 0 w). split; [|reflexivity]. intros k. repeat split; try exact L; reflexivity.
  - exists (fun _ => mkU256 0 0 (w mod 2 ^ 64) (w / 2 ^ 64)). split.
    + intros k. assert (w / 2 ^ 64 < 2 ^ 64) by (apply N.div_lt_upper_bound; [discriminate|exact L]).
      assert (w mod 2 ^ 64 < 2 ^ 64) by (apply N.mod_lt; discriminate).
      repeat split; try assumption; reflexivity.
    + change (fetch TestingMode (fun _ => mkU256 0 0 (w mod 2 ^ 64) (w / 2 ^ 64)) 0)
        with (Ok (w mod 2 ^ 64 + shl 128 (w / 2 ^ 64) 64)). f_equal. unfold shl.
      rewrite N.shiftl_mul_pow2. assert (E := N.div_mod w (2 ^ 64)).
      assert (w / 2 ^ 64 < 2 ^ 64) by (apply N.div_lt_upper_bound; [discriminate|exact L]).
      assert (2 ^ 64 <> 0) by discriminate. specialize (E H0).
      rewrite (N.mod_small (w / 2 ^ 64 * 2 ^ 64))
        by (change (2 ^ 128) with (2 ^ 64 * 2 ^ 64); apply N.mul_lt_mono_pos_r; [reflexivity|exact H]).
      rewrite E at 3. rewrite N.add_comm, N.mul_comm. reflexivity.
Qed.

Lemma variant_at_in_table k : in_table (spec_variant_at k).
Proof.
  apply in_table_wf. unfold spec_variant_at.
  destruct (nth_error spec_table_v1 (N.to_nat k)) as [v|] eqn:E; [|reflexivity].
  apply in_table_wf. exists padded_table. split; [apply OPCODES_TABLE_eq|].
  apply nth_error_In in E. unfold padded_table. apply in_or_app. left. exact E.
Qed.

(** They are the instructions with a variant of the table, sixteen registers and immediates of the
    right width, and each is decoded from some word: masking and patching lead to no others. *)
Lemma pf_C93_exact :
  forall m d,
    (obtained m d <-> in_table (variant d) /\ typed (mode_imm_bits m) d /\ regs_in_range d) /\
    (obtained m d <-> exists w n, w < 2 ^ mode_word_bits m /\
       parse_preliminary_variant_and_absolute_number (mode_impl m) w = Ok (d, n)).
Proof.
  intros m d.
  assert (A : obtained m d -> in_table (variant d) /\ typed (mode_imm_bits m) d /\ regs_in_range d).
  { induction 1 as [page pc w d n T L F P|d O (I & T & R)|d O (I & T & R)|d c a b e f i j O (I & T & R)].
    - destruct (mode_parse_fields m w) as (d' & P' & S). rewrite P in P'. injection P' as <- _.
      split; [|apply (fields_typed _ _ _ S)]. destruct S as (-> & _). apply variant_at_in_table.
    - destruct T as (_ & _ & _ & _ & T5 & T6). split; [|repeat split; assumption].
      apply in_table_wf. reflexivity.
    - destruct T as (_ & _ & _ & _ & T5 & T6). split; [|repeat split; assumption].
      apply in_table_wf. reflexivity.
    - split; [exact I|]. unfold typed, regs_in_range. cbn. change (2 ^ 8) with 256.
      repeat split; try assumption; lia. }
  assert (B : in_table (variant d) /\ typed (mode_imm_bits m) d /\ regs_in_range d ->
    exists w n, w < 2 ^ mode_word_bits m /\
       parse_preliminary_variant_and_absolute_number (mode_impl m) w = Ok (d, n)).
  { intros (I & T & R). apply in_table_iff in I as (n & N).
    destruct (roundtrip_decode m Debug d n N T R) as [E P].
    exists (spec_word (mode_imm_bits m) n d). eexists. split; [|exact P].
    apply (encode_lt m Debug d _ T E). }
  assert (C : (exists w n, w < 2 ^ mode_word_bits m /\
       parse_preliminary_variant_and_absolute_number (mode_impl m) w = Ok (d, n)) -> obtained m d).
  { intros (w & n & L & P). destruct (fetched m w L) as (page & T & F).
    apply (Ob_fetched m page 0 w d n T); [apply N.le_0_l|exact F|exact P]. }
  split; split; auto.
Qed.

(** No function of the crate panics on them: serializing, decoding the result, the lookups, the
    properties the circuits read and the queries about operands. *)
Lemma pf_C93_safe :
  forall m d, obtained m d ->
    (forall bld, exists w b,
       serialize_as_integer (mode_impl m) bld d = Ok w /\
       serialize_as_bytes (mode_impl m) bld d = Ok b /\
       (exists n, parse_preliminary_variant_and_absolute_number (mode_impl m) w = Ok (d, n)) /\
       is_canonical_encoding (mode_impl m) w = true) /\
    (exists canonical monotonic n t p q price mask,
       OPCODE_TO_CANONICAL_INDEX_LOOKUP_MAP = Ok canonical /\ map_get canonical (variant d) = Some n /\
       OPCODE_TO_MONOTONIC_INDEX_NUMBER_MAP = Ok monotonic /\
       map_get monotonic (variant d) = Some (mkVariantMonotonicNumber n) /\
       OPCODES_TABLE = Ok t /\ nth_error t (N.to_nat n) = Some (variant d) /\
       OPCODES_PRICES = Ok p /\ nth_error p (N.to_nat n) = Some price /\
       OPCODES_PROPS_INTEGER_BITMASKS = Ok q /\ nth_error q (N.to_nat n) = Some mask) /\
    (forall bld v, v <= 1 ->
       returns (opcode_as_integer_bitmask bld (variant d) v) /\
       returns (Opcode_can_have_src0_from_mem (opcode (variant d)) v) /\
       returns (Opcode_can_write_dst0_into_memory (opcode (variant d)) v) /\
       returns (Opcode_input_operands (opcode (variant d)) v) /\
       returns (Opcode_output_operands (opcode (variant d)) v)).
Proof.
  intros m d O. destruct (pf_C93_exact m d) as [X _]. apply X in O as (I & T & R). clear X.
  assert (I' := I). apply in_table_iff in I' as (n & N). split; [|split].
  - intros bld. destruct (roundtrip_decode m bld d n N T R) as [E P].
    exists (spec_word (mode_imm_bits m) n d). assert (S := bytes_spec m bld d T).
    unfold serialize_as_integer in *. rewrite E in S.
    destruct (serialize_as_bytes (mode_impl m) bld d) as [b|]; [|contradiction].
    exists b. split; [exact E|]. split; [reflexivity|]. split; [eauto|].
    exact (pf_C09_encoded_canonical m bld d _ T E).
  - destruct (roundtrip_decode m Debug d n N T R) as [E P].
    destruct (pf_C63_tables m (spec_word (mode_imm_bits m) n d))
      as (d' & n' & t & p & q & mm & P' & HT & HP & HQ & HM & _ & NT & NP & (mask & NQ & _) & _).
    rewrite P in P'. injection P' as <- <-.
    destruct pf_C13_canonical as (t' & canonical & _ & HC & _ & _ & HN).
    destruct pf_C14_agree as (c' & mono & HC' & HM' & HA & _). rewrite HC in HC'. injection HC' as <-.
    exists canonical, mono, n, t, p, q. do 2 eexists.
    split; [exact HC|]. split; [rewrite HN; exact N|]. split; [exact HM'|]. split.
    + specialize (HA (variant d)). rewrite HN, N in HA.
      destruct (map_get mono (variant d)) as [[z]|]; [|discriminate HA]. cbn in HA. congruence.
    + eauto 8.
  - intros bld v L. destruct (pf_C21_bits bld (variant d) v) as [A _].
    destruct (A L) as (k & K & _). destruct (pf_C33_actual (opcode (variant d)) v) as [B C].
    assert (V : 1 <? v = false) by (apply N.ltb_ge; exact L). rewrite V, andb_false_r in B.
    split; [eexists; exact K|]. split; [eexists; exact B|]. split; [eexists; exact C|].
    unfold returns.
    assert (W : v = 0 \/ v = 1) by lia. clear - W.
    destruct (opcode (variant d)) as [o|o|o|o|o|o|o|o|o|o|o|o|o|o|o|o]; destruct W as [-> | ->]; try destruct o;
      (split; eexists; reflexivity).
Qed.

(** No larger class is safe: with overflow checks everything else of the right types panics. *)
Lemma pf_C93_largest :
  forall m d, typed (mode_imm_bits m) d ->
    (returns (serialize_as_integer (mode_impl m) Debug d) <-> obtained m d) /\
    (returns (serialize_as_bytes (mode_impl m) Debug d) <-> obtained m d).
Proof.
  intros m d T.
  assert (G : returns (serialize_as_integer (mode_impl m) Debug d) <-> obtained m d).
  { split.
    - intros [w E]. apply (proj1 (pf_C93_exact _ _)). assert (P := encode_panics_debug m d T).
      unfold serialize_as_integer in E. rewrite E in P.
      assert (Q : ~ (~ in_table (variant d) \/ ~ regs_in_range d)) by (intros Q; apply P in Q; discriminate Q).
      split; [|split; [exact T|]].
      + destruct (spec_number (variant d)) as [n|] eqn:N; [apply in_table_iff; eauto|].
        exfalso. apply Q. left. apply not_in_table, N.
      + apply in_range_b_iff. destruct (in_range_b d) eqn:B; [reflexivity|].
        exfalso. apply Q. right. intros R. apply in_range_b_iff in R. congruence.
    - intros O. destruct (proj1 (pf_C93_safe m d O) Debug) as (w & _ & E & _). exists w. exact E. }
  split; [exact G|]. rewrite <- G. assert (S := bytes_spec m Debug d T). unfold returns.
  destruct (serialize_as_bytes (mode_impl m) Debug d) as [b|],
    (serialize_as_integer (mode_impl m) Debug d) as [w|]; try contradiction;
    split; intros [x X]; try discriminate X; eexists; reflexivity.
Qed.

(** A patched instruction that was fetched, one whose register does not exist, and the default. *)
Example pf_C93_example :
  obtained ProductionMode example_d /\
  obtained TestingMode (mask_into_panic example_d) /\
  ~ obtained ProductionMode (mkDecodedOpcode (variant example_d) Always 16 0 0 0 0 0) /\
  forall m, ~ obtained m DecodedOpcode_default.
Proof.
  destruct pf_C01_example as (I & T & R & _).
  split; [apply (proj1 (pf_C93_exact _ _)); auto|]. split; [|split].
  - apply (proj1 (pf_C93_exact _ _)). split; [apply in_table_wf; reflexivity|]. repeat split; reflexivity.
  - intros O. apply (proj1 (pf_C93_exact _ _)) in O as (_ & _ & R' & _). discriminate R'.
  - intros m O. apply (proj1 (pf_C93_exact _ _)) in O as (I' & _).
    destruct (pf_C26_default_refuted m Debug) as (_ & _ & _ & N & _). contradiction.
Qed.
