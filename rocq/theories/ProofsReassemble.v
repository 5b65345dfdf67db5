(** * Proofs about reassembling a bytecode. *)

From Coq Require Import Arith NArith Lia ZArith List Bool String.
From Verif Require Import Machine Operands OpcodeTrait Opcodes AllOpcodes Tables Decoding Abi
  VersionedHash Constants SpecIsa SpecCodec SpecAbi SpecCompose SpecReassemble.
From Coq Require Import ZifyBool ZifyNat ZifyN.
From Verif Require Import BitLemmas TableProofs CodecProofs CodecProofs2 ProofsAbi ProofsCompose.
Import ListNotations.
Open Scope N_scope.

(** ** Words of a page *)

Definition slice (n i : nat) (l : list N) : list N := firstn n (skipn (n * i) l).
Definition word_at (m : mode) (ws : list (list N)) (i : N) : N :=
  be_value (slice (mode_bytes m) (N.to_nat i) (List.concat ws)).

Lemma arrays_lengths ws : Forall (byte_array 32) ws -> Forall (fun w => List.length w = 32%nat) ws.
Proof. apply Forall_impl. intros w H. apply H. Qed.

Lemma arrays_bytes ws : Forall (byte_array 32) ws -> is_bytes (List.concat ws).
Proof.
  induction 1 as [|w ws [_ H] _ IH]; [constructor|]. cbn [List.concat]. apply Forall_app.
  split; assumption.
Qed.

Lemma per_word_bytes m : (mode_bytes m * N.to_nat (mode_per_word m) = 32)%nat.
Proof. destruct m; reflexivity. Qed.

Lemma slice_bytes n i l : is_bytes l -> is_bytes (slice n i l).
Proof. intros H. apply bytes_firstn, bytes_skipn, H. Qed.

Lemma word_of_index m i k s : k = i / mode_per_word m -> s = i mod mode_per_word m ->
  (mode_bytes m * N.to_nat i = 32 * N.to_nat k + mode_bytes m * N.to_nat s)%nat /\
  s < mode_per_word m.
Proof.
  intros -> ->.
  assert (E := N.div_mod i (mode_per_word m) ltac:(destruct m; discriminate)).
  assert (R := N.mod_lt i (mode_per_word m) ltac:(destruct m; discriminate)).
  split; [|exact R]. destruct m; cbn [mode_per_word mode_bytes] in *; lia.
Qed.

Lemma word_lt m ws i : Forall (byte_array 32) ws -> word_at m ws i < 2 ^ mode_word_bits m.
Proof.
  intros F. unfold word_at.
  assert (L := be_value_lt _ (slice_bytes (mode_bytes m) (N.to_nat i) _ (arrays_bytes ws F))).
  rewrite <- mode_bytes_bits. eapply N.lt_le_trans; [exact L|].
  apply N.pow_le_mono_r; [lia|]. unfold slice. rewrite firstn_length. lia.
Qed.

Lemma nth_word_eq m page ws i :
  Forall (byte_array 32) ws -> code_page page ws ->
  nth_word m page i = Ok (word_at m ws i).
Proof.
  intros F C. assert (F' := arrays_lengths ws F). unfold nth_word, word_at, slice.
  destruct (word_of_index m i _ _ eq_refl eq_refl) as [E Hs].
  set (k := i / mode_per_word m) in *. set (s := i mod mode_per_word m) in *.
  rewrite E. destruct (C k) as [T V].
  assert (Hm : (mode_bytes m * N.to_nat s + mode_bytes m <= 32)%nat)
    by (destruct m; cbn [mode_per_word mode_bytes] in *; lia).
  destruct (nth_error ws (N.to_nat k)) as [x|] eqn:Ek.
  - assert (Hx := proj1 (Forall_forall _ _) F x (nth_error_In _ _ Ek)). destruct Hx as [Lx Bx].
    rewrite (select_bytes m _ s x) by assumption. f_equal. f_equal.
    rewrite (Nat.add_comm (32 * _)), <- skipn_skipn.
    rewrite <- (concat_word ws (N.to_nat k) x F' Ek).
    set (r := skipn (32 * N.to_nat k) (List.concat ws)).
    rewrite skipn_firstn_comm, firstn_firstn. f_equal. lia.
  - rewrite (select_bytes m _ s (repeat 0 32)); [|exact T|exact Hs|apply zeros_bytes
      |apply repeat_length|rewrite be_value_zeros; exact V].
    apply nth_error_None in Ek. rewrite skipn_zeros, firstn_zeros by lia. f_equal.
    rewrite skipn_all2 by (rewrite (concat_length_32 ws F'); lia).
    rewrite firstn_nil. apply be_value_zeros.
Qed.

Lemma fetch_nth m page pc : fetch m page pc = nth_word m page pc.
Proof.
  unfold fetch, nth_word. assert (S := split_pc_spec m pc).
  destruct (split_pc (mode_impl m) pc) as [k s]. destruct S as [E Hs].
  assert (H := N.div_unique pc (mode_per_word m) k s Hs E).
  assert (H' := N.mod_unique pc (mode_per_word m) k s Hs E). subst k s. reflexivity.
Qed.

(** ** Decoding and encoding one word *)

Lemma normal_word m bld w :
  exists d n n', parse_preliminary_variant_and_absolute_number (mode_impl m) w = Ok (d, n) /\
    encode_as_integer (mode_impl m) bld d = Ok (spec_normalise (mode_imm_bits m) w) /\
    parse_preliminary_variant_and_absolute_number (mode_impl m)
      (spec_normalise (mode_imm_bits m) w) = Ok (d, n') /\
    typed (mode_imm_bits m) d /\ regs_in_range d.
Proof.
  destruct (mode_parse_fields m w) as (d & Hp & Hf).
  destruct (fields_typed _ _ _ Hf) as [Ht Hr].
  destruct (roundtrip_encode m bld w) as (d' & Hp' & He).
  assert (d' = d) by congruence. subst d'.
  exists d, (mkVariantMonotonicNumber (bits w 0 11)),
    (mkVariantMonotonicNumber (if bits w 0 11 <? spec_assigned then bits w 0 11 else 0)).
  destruct (roundtrip_decode m bld d
              (if bits w 0 11 <? spec_assigned then bits w 0 11 else 0)) as [He' Hd];
    try assumption.
  - destruct Hf as [-> _]. apply number_at, (bits_lt w 0 11).
  - split; [exact Hp|]. split; [exact He|]. split; [|split; assumption].
    assert (E : spec_word (mode_imm_bits m)
                  (if bits w 0 11 <? spec_assigned then bits w 0 11 else 0) d
                = spec_normalise (mode_imm_bits m) w) by congruence.
    rewrite <- E. exact Hd.
Qed.

Lemma normal_lt m w : spec_normalise (mode_imm_bits m) w < 2 ^ mode_word_bits m /\
  bits (spec_normalise (mode_imm_bits m) w) 11 2 = 0.
Proof.
  destruct (normal_word m Release w) as (d & n & n' & _ & E & _ & T & _).
  destruct (encode_lt m Release d _ T E) as (_ & H & G). auto.
Qed.

Lemma normal_bytes m bld page i w d b :
  nth_word m page i = Ok w -> nth_instruction m page i d ->
  serialize_as_bytes (mode_impl m) bld d = Ok b ->
  b = to_be_bytes (mode_bytes m) (spec_normalise (mode_imm_bits m) w).
Proof.
  intros Hw (w' & n & Hw' & Hd) Hb. assert (w' = w) by congruence. subst w'.
  destruct (normal_word m bld w) as (d' & n1 & n2 & Hp & He & _).
  assert (d' = d) by congruence. subst d'.
  unfold serialize_as_bytes in Hb. rewrite encode_bytes_eq, He in Hb. cbn [bind] in Hb. congruence.
Qed.

Lemma lossless_iff m w : w < 2 ^ mode_word_bits m ->
  (spec_normalise (mode_imm_bits m) w = w <-> lossless m w).
Proof.
  intros H. unfold lossless. destruct m; cbn [mode_imm_bits mode_word_bits] in *.
  - rewrite prod_normalise_fixed by exact H. tauto.
  - rewrite test_normalise_fixed by exact H. tauto.
Qed.

(** ** Bytes and pieces *)

Lemma slice_concat n (cs : list (list N)) i :
  Forall (fun c => List.length c = n) cs ->
  slice n i (List.concat cs) = match nth_error cs i with Some c => c | None => [] end.
Proof.
  unfold slice. intros F. revert i. induction F as [|c cs Hc F IH]; intros i.
  - cbn [List.concat]. rewrite skipn_nil, firstn_nil. destruct i; reflexivity.
  - destruct i; cbn [nth_error List.concat].
    + rewrite Nat.mul_0_r. cbn [skipn]. rewrite firstn_app, Hc, Nat.sub_diag, firstn_O, app_nil_r.
      apply firstn_all2. lia.
    + rewrite skipn_app, Hc, (skipn_all2 c) by lia. cbn [app].
      replace (n * S i - n)%nat with (n * i)%nat by lia. apply IH.
Qed.

Lemma concat_length_n n (cs : list (list N)) : Forall (fun c => List.length c = n) cs ->
  List.length (List.concat cs) = (n * List.length cs)%nat.
Proof.
  induction 1 as [|w ws Hw _ IH]; cbn [List.concat List.length]; [lia|].
  rewrite app_length, Hw, IH. lia.
Qed.

Lemma slices_eq n k (a b : list N) : (0 < n)%nat ->
  List.length a = (n * k)%nat -> List.length b = (n * k)%nat ->
  (forall i, (i < k)%nat -> slice n i a = slice n i b) -> a = b.
Proof.
  intros Hn. revert a b. induction k as [|k IH]; intros a b Ha Hb H.
  - destruct a; [|cbn in Ha; lia]. destruct b; [reflexivity|cbn in Hb; lia].
  - rewrite <- (firstn_skipn n a), <- (firstn_skipn n b).
    assert (H0 := H 0%nat ltac:(lia)). unfold slice in H0. rewrite Nat.mul_0_r in H0.
    cbn [skipn] in H0. rewrite H0. f_equal. apply IH; [rewrite skipn_length; lia..|].
    intros i Hi. assert (K := H (S i) ltac:(lia)). unfold slice in *.
    rewrite !skipn_skipn. replace (n * i + n)%nat with (n * S i)%nat by lia. exact K.
Qed.

Lemma concat_inj (ws ws' : list (list N)) :
  Forall (fun w => List.length w = 32%nat) ws -> Forall (fun w => List.length w = 32%nat) ws' ->
  List.concat ws = List.concat ws' -> ws = ws'.
Proof.
  intros F. revert ws'. induction F as [|w ws Hw F IH]; intros [|w' ws'] F' E.
  - reflexivity.
  - inversion F' as [|? ? Hw' _]; subst. cbn [List.concat] in E. destruct w'; discriminate.
  - cbn [List.concat] in E. destruct w; discriminate.
  - inversion F' as [|? ? Hw' F'']; subst. cbn [List.concat] in E.
    assert (w = w').
    { assert (K := f_equal (firstn 32) E).
      rewrite !firstn_app, Hw, Hw', Nat.sub_diag, !firstn_O, !app_nil_r in K.
      rewrite !firstn_all2 in K by lia. exact K. }
    subst w'. f_equal. apply IH; [exact F''|]. eapply app_inv_head, E.
Qed.

Lemma slice_length m ws i : Forall (byte_array 32) ws ->
  (i < N.to_nat (mode_per_word m) * List.length ws)%nat ->
  List.length (slice (mode_bytes m) i (List.concat ws)) = mode_bytes m.
Proof.
  intros F Hi. unfold slice. rewrite firstn_length, skipn_length.
  rewrite concat_length_32 by (apply arrays_lengths, F).
  destruct m; cbn [mode_per_word mode_bytes] in *; lia.
Qed.

Lemma words_eq m ws ws' :
  Forall (byte_array 32) ws -> Forall (byte_array 32) ws' -> List.length ws = List.length ws' ->
  (forall i, i < mode_per_word m * N.of_nat (List.length ws) -> word_at m ws i = word_at m ws' i) ->
  ws = ws'.
Proof.
  intros F F' L H. apply concat_inj; [apply arrays_lengths; assumption..|].
  apply (slices_eq (mode_bytes m) (N.to_nat (mode_per_word m) * List.length ws)).
  - destruct m; cbn; lia.
  - rewrite concat_length_32 by (apply arrays_lengths, F). destruct m; cbn [mode_per_word mode_bytes]; lia.
  - rewrite concat_length_32 by (apply arrays_lengths, F'). destruct m; cbn [mode_per_word mode_bytes]; lia.
  - intros i Hi. assert (K := H (N.of_nat i) ltac:(lia)). unfold word_at in K.
    rewrite Nat2N.id in K. apply be_inj; try (apply slice_bytes, arrays_bytes; assumption).
    + rewrite !slice_length; [reflexivity|exact F'|lia|exact F|lia].
    + exact K.
Qed.

(** ** What reassembling does *)

Lemma reassembled_words m bld page ws ws' :
  Forall (byte_array 32) ws -> code_page page ws ->
  reassembled m bld page (List.length ws) ws' ->
  List.length ws' = List.length ws /\
  forall i, i < mode_per_word m * N.of_nat (List.length ws) ->
    word_at m ws' i = spec_normalise (mode_imm_bits m) (word_at m ws i).
Proof.
  intros F C (F' & chunks & E & L & H).
  assert (P := per_word_bytes m).
  assert (B : forall i b, nth_error chunks i = Some b ->
            b = to_be_bytes (mode_bytes m)
                  (spec_normalise (mode_imm_bits m) (word_at m ws (N.of_nat i)))).
  { intros i b Hb. assert (K := H (N.of_nat i) b). rewrite Nat2N.id in K.
    destruct (K Hb) as (d & Hd & Hs).
    exact (normal_bytes m bld page _ _ d b (nth_word_eq m page ws _ F C) Hd Hs). }
  assert (W : Forall (fun c => List.length c = mode_bytes m) chunks).
  { apply Forall_forall. intros c Hc. apply In_nth_error in Hc as [i Hc]. rewrite (B i c Hc).
    apply be_length. }
  split.
  - assert (K := f_equal (@List.length N) E).
    rewrite concat_length_32 in K by (apply arrays_lengths, F').
    rewrite (concat_length_n (mode_bytes m) chunks W) in K.
    destruct m; cbn [mode_per_word mode_bytes] in *; lia.
  - intros i Hi. unfold word_at at 1. rewrite E, slice_concat by exact W.
    destruct (nth_error chunks (N.to_nat i)) as [b|] eqn:Eb;
      [|apply nth_error_None in Eb; lia].
    rewrite (B _ _ Eb), N2Nat.id, be_value_be, mode_bytes_bits.
    apply N.mod_small, normal_lt.
Qed.

Lemma seq_nth_error n i : nth_error (seq 0 n) i = if (i <? n)%nat then Some i else None.
Proof.
  destruct (i <? n)%nat eqn:E.
  - rewrite nth_error_nth' with (d := 0%nat) by (rewrite seq_length; lia).
    rewrite seq_nth by lia. reflexivity.
  - apply nth_error_None. rewrite seq_length. lia.
Qed.

Lemma reassembled_exists m bld page ws :
  Forall (byte_array 32) ws -> code_page page ws ->
  exists ws', reassembled m bld page (List.length ws) ws'.
Proof.
  intros F C. assert (P := per_word_bytes m).
  set (n := (N.to_nat (mode_per_word m) * List.length ws)%nat).
  set (piece := fun i => to_be_bytes (mode_bytes m)
                 (spec_normalise (mode_imm_bits m) (word_at m ws (N.of_nat i)))).
  set (chunks := map piece (seq 0 n)).
  assert (W : Forall (fun c => List.length c = mode_bytes m) chunks).
  { apply Forall_forall. intros c Hc. apply in_map_iff in Hc as (i & <- & _). apply be_length. }
  destruct (cut_words (List.length ws) (List.concat chunks)) as (ws' & F' & L' & E).
  { rewrite (concat_length_n (mode_bytes m) chunks W). unfold chunks.
    rewrite map_length, seq_length. unfold n.
    destruct m; cbn [mode_per_word mode_bytes]; lia. }
  exists ws'. split.
  - assert (Bc : is_bytes (List.concat chunks)).
    { apply Forall_concat, Forall_forall. intros c Hc. apply in_map_iff in Hc as (i & <- & _).
      apply be_bytes. }
    apply Forall_forall. intros w Hw. split; [exact (proj1 (Forall_forall _ _) F' w Hw)|].
    rewrite <- E in Bc. apply Forall_forall. intros x Hx.
    apply (proj1 (Forall_forall _ _) Bc). apply in_concat. exists w. auto.
  - exists chunks. split; [exact E|]. split.
    + unfold chunks. rewrite map_length, seq_length. unfold n.
      destruct m; cbn [mode_per_word]; lia.
    + intros i b Hb. unfold chunks in Hb. rewrite nth_error_map, seq_nth_error in Hb.
      destruct (N.to_nat i <? n)%nat; [|discriminate Hb]. cbn [option_map] in Hb.
      injection Hb as <-. unfold piece. rewrite N2Nat.id.
      destruct (normal_word m bld (word_at m ws i)) as (d & k & _ & Hp & He & _).
      exists d. split.
      * exists (word_at m ws i), k. split; [apply nth_word_eq; assumption|exact Hp].
      * unfold serialize_as_bytes. rewrite encode_bytes_eq, He. reflexivity.
Qed.

Lemma word_beyond m ws i : Forall (byte_array 32) ws ->
  mode_per_word m * N.of_nat (List.length ws) <= i -> word_at m ws i = 0.
Proof.
  intros F Hi. unfold word_at, slice. rewrite skipn_all2; [rewrite firstn_nil; reflexivity|].
  rewrite concat_length_32 by (apply arrays_lengths, F).
  destruct m; cbn [mode_per_word mode_bytes] in *; lia.
Qed.

Lemma normal_zero m : spec_normalise (mode_imm_bits m) 0 = 0.
Proof. destruct m; vm_compute; reflexivity. Qed.

Lemma reassembled_all m bld page ws ws' i :
  Forall (byte_array 32) ws -> code_page page ws ->
  reassembled m bld page (List.length ws) ws' ->
  word_at m ws' i = spec_normalise (mode_imm_bits m) (word_at m ws i).
Proof.
  intros F C R. destruct (reassembled_words m bld page ws ws' F C R) as [L W].
  destruct (N.lt_ge_cases i (mode_per_word m * N.of_nat (List.length ws))) as [H|H].
  - apply W, H.
  - rewrite (word_beyond m ws i F H), normal_zero. apply word_beyond; [apply R|].
    rewrite L. exact H.
Qed.

(** ** C86 *)

Lemma u256_of_value v : v < 2 ^ 256 ->
  let x := mkU256 (bits v 0 64) (bits v 64 64) (bits v 128 64) (bits v 192 64) in
  u256_typed x /\ SpecCodec.u256_value x = v.
Proof.
  intros V x. split; [repeat split; apply bits_lt|].
  unfold SpecCodec.u256_value, x. cbn [limb0 limb1 limb2 limb3].
  rewrite <- (bits_all v 256 V) at 5. change 256 with (64 + (64 + (64 + 64))).
  rewrite !bits_split. change (0 + 64) with 64. change (64 + 64) with 128.
  change (128 + 64) with 192. change (2 ^ 128) with (2 ^ 64 * 2 ^ 64).
  change (2 ^ 192) with (2 ^ 64 * (2 ^ 64 * 2 ^ 64)).
  set (b := 2 ^ 64). ring.
Qed.

(** Every bytecode is in some page, and can be reassembled in exactly one way; nothing fails. *)
Lemma pf_C86_total :
  forall ws, Forall (byte_array 32) ws ->
    (exists page, code_page page ws) /\
    forall m bld page, code_page page ws ->
      exists ws', reassembled m bld page (List.length ws) ws' /\
        List.length ws' = List.length ws /\
        forall bld' page' ws'', code_page page' ws ->
          reassembled m bld' page' (List.length ws) ws'' -> ws'' = ws'.
Proof.
  intros ws F. split.
  - exists (fun k => let v := match nth_error ws (N.to_nat k) with Some w => be_value w | None => 0 end in
             mkU256 (bits v 0 64) (bits v 64 64) (bits v 128 64) (bits v 192 64)).
    intros k. set (v := match nth_error ws (N.to_nat k) with Some w => be_value w | None => 0 end).
    assert (V : v < 2 ^ 256).
    { unfold v. destruct (nth_error ws (N.to_nat k)) as [w|] eqn:E.
      - destruct (proj1 (Forall_forall _ _) F w (nth_error_In _ _ E)) as [L B].
        assert (K := be_value_lt w B). rewrite L in K. exact K.
      - apply N.neq_0_lt_0, N.pow_nonzero. discriminate. }
    exact (u256_of_value v V).
  - intros m bld page C. destruct (reassembled_exists m bld page ws F C) as [ws' R].
    exists ws'. split; [exact R|]. destruct (reassembled_words m bld page ws ws' F C R) as [L W].
    split; [exact L|]. intros bld' page' ws'' C' R'.
    destruct (reassembled_words m bld' page' ws ws'' F C' R') as [L' W'].
    apply (words_eq m); [apply R'|apply R|congruence|].
    rewrite L'. intros i Hi. rewrite W, W' by exact Hi. reflexivity.
Qed.

(** The new bytecode means the same at every place, also after the end, and all its words are
    canonical. *)
Lemma pf_C86_meaning :
  forall m bld ws page ws' page',
    Forall (byte_array 32) ws -> code_page page ws ->
    reassembled m bld page (List.length ws) ws' -> code_page page' ws' ->
    forall i, exists d w',
      nth_instruction m page i d /\ nth_instruction m page' i d /\
      nth_word m page' i = Ok w' /\ is_canonical_encoding (mode_impl m) w' = true /\
      lossless m w' /\ fetch m page' i = Ok w'.
Proof.
  intros m bld ws page ws' page' F C R C' i. assert (F' : Forall (byte_array 32) ws') by apply R.
  assert (E := reassembled_all m bld page ws ws' i F C R).
  assert (Hw := nth_word_eq m page ws i F C). assert (Hw' := nth_word_eq m page' ws' i F' C').
  destruct (normal_word m bld (word_at m ws i)) as (d & n & n' & Hp & He & Hp' & Ht & _).
  rewrite <- E in Hp', He.
  exists d, (word_at m ws' i). split; [exists (word_at m ws i), n; auto|].
  split; [exists (word_at m ws' i), n'; auto|]. split; [exact Hw'|].
  assert (Q : spec_normalise (mode_imm_bits m) (word_at m ws' i) = word_at m ws' i).
  { destruct (normal_word m bld (word_at m ws' i)) as (d2 & k & k' & Hp2 & He2 & _).
    assert (d2 = d) by congruence. subst d2. congruence. }
  assert (Ll : lossless m (word_at m ws' i)) by (apply lossless_iff; [apply word_lt, F'|exact Q]).
  split; [|split; [exact Ll|rewrite fetch_nth; exact Hw']].
  apply canonical_iff. apply Ll.
Qed.

(** A bytecode is unchanged exactly if all its instruction words are read without loss. *)
Lemma pf_C86_fixed :
  forall m bld ws page, Forall (byte_array 32) ws -> code_page page ws ->
    (reassembled m bld page (List.length ws) ws <->
     forall i w, nth_word m page i = Ok w -> lossless m w).
Proof.
  intros m bld ws page F C. split.
  - intros R i w Hw. rewrite (nth_word_eq m page ws i F C) in Hw. injection Hw as <-.
    apply lossless_iff; [apply word_lt, F|]. symmetry.
    exact (reassembled_all m bld page ws ws i F C R).
  - intros H. destruct (reassembled_exists m bld page ws F C) as [ws' R].
    assert (E : ws' = ws); [|subst ws'; exact R].
    destruct (reassembled_words m bld page ws ws' F C R) as [L W].
    apply (words_eq m); [apply R|exact F|exact L|]. rewrite L. intros i Hi. rewrite W by exact Hi.
    apply lossless_iff; [apply word_lt, F|]. apply (H i). apply nth_word_eq; assumption.
Qed.

(** Reassembling once more changes nothing. *)
Lemma pf_C86_idempotent :
  forall m bld bld' ws page ws' page',
    Forall (byte_array 32) ws -> code_page page ws ->
    reassembled m bld page (List.length ws) ws' -> code_page page' ws' ->
    reassembled m bld' page' (List.length ws') ws'.
Proof.
  intros m bld bld' ws page ws' page' F C R C'. apply pf_C86_fixed; [apply R|exact C'|].
  intros i w Hw. destruct (pf_C86_meaning m bld ws page ws' page' F C R C' i)
    as (d & w' & _ & _ & K & _ & Ll & _). congruence.
Qed.

(** Two bytecodes of the same length become the same exactly if they mean the same. *)
Lemma pf_C86_normal_form :
  forall m bld bld' ws1 ws2 page1 page2 ws1' ws2',
    Forall (byte_array 32) ws1 -> Forall (byte_array 32) ws2 ->
    List.length ws1 = List.length ws2 -> code_page page1 ws1 -> code_page page2 ws2 ->
    reassembled m bld page1 (List.length ws1) ws1' ->
    reassembled m bld' page2 (List.length ws2) ws2' ->
    (ws1' = ws2' <->
     forall i, exists d, nth_instruction m page1 i d /\ nth_instruction m page2 i d).
Proof.
  intros m bld bld' ws1 ws2 page1 page2 ws1' ws2' F1 F2 L C1 C2 R1 R2. split.
  - intros E i. assert (E1 := reassembled_all m bld page1 ws1 ws1' i F1 C1 R1).
    assert (E2 := reassembled_all m bld' page2 ws2 ws2' i F2 C2 R2). rewrite E in E1.
    destruct (normal_word m bld (word_at m ws1 i)) as (d & n & n' & Hp & _ & Hp' & _).
    destruct (normal_word m bld (word_at m ws2 i)) as (e & k & k' & Hq & _ & Hq' & _).
    rewrite <- E1 in Hp'. rewrite <- E2 in Hq'. assert (e = d) by congruence. subst e.
    exists d. split; [exists (word_at m ws1 i), n|exists (word_at m ws2 i), k];
      (split; [apply nth_word_eq|]; assumption).
  - intros H. destruct (reassembled_words m bld page1 ws1 ws1' F1 C1 R1) as [L1 W1].
    destruct (reassembled_words m bld' page2 ws2 ws2' F2 C2 R2) as [L2 W2].
    apply (words_eq m); [apply R1|apply R2|congruence|]. rewrite L1. intros i Hi.
    rewrite W1, W2 by (rewrite <- ?L; exact Hi).
    destruct (H i) as (d & (w1 & n1 & A1 & B1) & (w2 & n2 & A2 & B2)).
    rewrite (nth_word_eq m page1 ws1 i F1 C1) in A1. injection A1 as <-.
    rewrite (nth_word_eq m page2 ws2 i F2 C2) in A2. injection A2 as <-.
    destruct (normal_word m bld (word_at m ws1 i)) as (d1 & k1 & _ & P1 & Q1 & _).
    destruct (normal_word m bld (word_at m ws2 i)) as (d2 & k2 & _ & P2 & Q2 & _).
    congruence.
Qed.

(** The code hash is defined for both or for neither, and it changes with the bytecode, unless
    two messages of the same length share the last 28 bytes of their digest. *)
Lemma pf_C86_hash :
  forall m bld sha256 ws page ws', digest_function sha256 -> len ws < 2 ^ 64 ->
    Forall (byte_array 32) ws -> code_page page ws ->
    reassembled m bld page (List.length ws) ws' ->
    ((exists b, bytecode_to_code_hash sha256 ws = Ok (Some b)) <->
     (exists b, bytecode_to_code_hash sha256 ws' = Ok (Some b))) /\
    (forall b, bytecode_to_code_hash sha256 ws = Ok (Some b) ->
       bytecode_to_code_hash sha256 ws' = Ok (Some b) ->
       (forall i w, nth_word m page i = Ok w -> lossless m w) \/
       List.concat ws <> List.concat ws' /\
       List.length (List.concat ws) = List.length (List.concat ws') /\
       skipn 4 (sha256 (List.concat ws)) = skipn 4 (sha256 (List.concat ws'))).
Proof.
  intros m bld sha256 ws page ws' D B F C R.
  destruct (reassembled_words m bld page ws ws' F C R) as [L _].
  assert (L' : len ws' = len ws) by (unfold len; rewrite L; reflexivity).
  split.
  - destruct (pf_C47_hash sha256 ws D B) as [H1 H2].
    destruct (pf_C47_hash sha256 ws' D ltac:(rewrite L'; exact B)) as [H1' H2'].
    rewrite L' in *. destruct (N.even (len ws)) eqn:Ev.
    + rewrite H1, H1' by auto. split; intros [b K]; discriminate K.
    + assert (Od : N.odd (len ws) = true) by (rewrite <- N.negb_even, Ev; reflexivity).
      destruct (N.le_gt_cases (len ws) 65535) as [Le|Gt].
      * destruct (H2 Od Le) as [-> _]. destruct (H2' Od Le) as [-> _].
        split; intros _; eexists; reflexivity.
      * rewrite H1, H1' by auto. split; intros [b K]; discriminate K.
  - intros b Hb Hb'.
    destruct (list_eq_dec (list_eq_dec N.eq_dec) ws ws') as [E|E].
    + left. rewrite <- E in R. exact (proj1 (pf_C86_fixed m bld ws page F C) R).
    + right. apply (pf_C47_distinct sha256 ws ws' b); try assumption; [rewrite L'; exact B|apply R].
Qed.

(** A bytecode of one word whose second instruction has a gap bit set and whose third has an
    unassigned number. *)
Example pf_C86_example :
  let ws := [to_be_bytes 8 1 ++ to_be_bytes 8 (0x0001FFFF07F3A06C + 2 ^ 11)
             ++ to_be_bytes 8 (1093 + 2 ^ 32) ++ to_be_bytes 8 0] in
  let ws' := [to_be_bytes 8 1 ++ to_be_bytes 8 0x0001FFFF07F3A06C
              ++ to_be_bytes 8 (2 ^ 32) ++ to_be_bytes 8 0] in
  let page := fun k => if k =? 0 then mkU256 0 (1093 + 2 ^ 32) (0x0001FFFF07F3A06C + 2 ^ 11) 1
                       else mkU256 0 0 0 0 in
  Forall (byte_array 32) ws /\ code_page page ws /\
  reassembled ProductionMode Debug page 1 ws' /\ ws <> ws' /\
  nth_word ProductionMode page 1 = Ok (0x0001FFFF07F3A06C + 2 ^ 11) /\
  ~ lossless ProductionMode (0x0001FFFF07F3A06C + 2 ^ 11) /\
  nth_word ProductionMode page 2 = Ok (1093 + 2 ^ 32) /\
  ~ lossless ProductionMode (1093 + 2 ^ 32) /\ lossless ProductionMode 0x0001FFFF07F3A06C.
Proof.
  intros ws ws' page.
  assert (W : forall i w, nth_word ProductionMode page i = Ok w ->
            exists d, nth_instruction ProductionMode page i d /\
              serialize_as_bytes (mode_impl ProductionMode) Debug d
              = Ok (to_be_bytes 8 (spec_normalise 16 w))).
  { intros i w Hw. destruct (normal_word ProductionMode Debug w) as (d & n & _ & Hp & He & _).
    exists d. split; [exists w, n; auto|].
    unfold serialize_as_bytes. rewrite encode_bytes_eq, He. reflexivity. }
  assert (F : forall w, In w (ws ++ ws') -> byte_array 32 w).
  { intros w Hw. cbn [app In ws ws'] in Hw.
    destruct Hw as [<-|[<-|[]]]; (split; [reflexivity|]);
      unfold is_bytes; rewrite !Forall_app; repeat split; apply be_bytes. }
  split; [constructor; [|constructor]; apply F; left; reflexivity|].
  split.
  { intros k. unfold page. destruct (N.eqb_spec k 0) as [->|Hk].
    - split; [repeat split|]; vm_compute; reflexivity.
    - split; [repeat split; vm_compute; reflexivity|].
      destruct (N.to_nat k) as [|n] eqn:E; [lia|]. destruct n; reflexivity. }
  split.
  { split; [constructor; [|constructor]; apply F; right; left; reflexivity|].
    exists [to_be_bytes 8 1; to_be_bytes 8 0x0001FFFF07F3A06C; to_be_bytes 8 (2 ^ 32);
            to_be_bytes 8 0].
    split; [vm_compute; reflexivity|]. split; [reflexivity|].
    intros i b Hb.
    assert (Hi : i = 0 \/ i = 1 \/ i = 2 \/ i = 3).
    { assert (K : (N.to_nat i < 4)%nat)
        by (apply (nth_error_Some [to_be_bytes 8 1; to_be_bytes 8 0x0001FFFF07F3A06C;
                                   to_be_bytes 8 (2 ^ 32); to_be_bytes 8 0]);
            rewrite Hb; discriminate). lia. }
    destruct Hi as [->|[->|[->| ->]]]; injection Hb as <-.
    - destruct (W 0 1 eq_refl) as (d & H1 & H2). exists d. split; [exact H1|].
      etransitivity; [exact H2|]. vm_compute. reflexivity.
    - destruct (W 1 (0x0001FFFF07F3A06C + 2 ^ 11) eq_refl) as (d & H1 & H2). exists d.
      split; [exact H1|].
      etransitivity; [exact H2|]. vm_compute. reflexivity.
    - destruct (W 2 (1093 + 2 ^ 32) eq_refl) as (d & H1 & H2). exists d. split; [exact H1|].

      etransitivity; [exact H2|]. vm_compute. reflexivity.
    - destruct (W 3 0 eq_refl) as (d & H1 & H2). exists d. split; [exact H1|].
      etransitivity; [exact H2|]. vm_compute. reflexivity. }
  split; [vm_compute; discriminate|]. split; [reflexivity|].
  split; [intros (H & _); vm_compute in H; discriminate H|]. split; [reflexivity|].
  split; [intros (_ & H & _); vm_compute in H; discriminate H|].
  repeat split; vm_compute; reflexivity.
Qed.
