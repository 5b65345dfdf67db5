(** * Proofs about building register words, patching instruction words and laying out whole
    programs (C70-C72).  [pf_X] proves the theorem [X] of PropsCompose.v. *)

From Coq Require Import Arith NArith Lia ZArith List Bool.
From Coq Require Import ZifyBool ZifyNat ZifyN.
From Verif Require Import Machine Operands OpcodeTrait Opcodes AllOpcodes Tables Decoding Abi
  VersionedHash Constants SpecIsa SpecCodec SpecAbi SpecCompose.
From Verif Require Import BitLemmas TableProofs TableProofs2 TableProofs3 CodecProofs CodecProofs2
  ProofsCodec ProofsAbi.
Import ListNotations.
Open Scope N_scope.

(** Two instructions used by the examples: sub.s with a stack operand, and nop. *)
Definition example_sub : DecodedOpcode :=
  mkDecodedOpcode
    (mkOpcodeVariant (Op_Sub SubOpcode_Sub) (Full UseStackWithOffset) (Full UseRegOnly)
       (true, true)) Le_ 3 15 7 0 65535 1.
Definition example_nop : OpcodeVariant :=
  mkOpcodeVariant (Op_Nop nopOpcode) (Full UseRegOnly) (Full UseRegOnly) (false, false).

(** ** C70 *)

Lemma le_bytes4 a b c d : a < 256 -> b < 256 -> c < 256 -> d < 256 ->
  to_le_bytes 4 (a + 256 * b + 65536 * c + 16777216 * d) = [a; b; c; d].
Proof.
  intros Ha Hb Hc Hd. cbn [to_le_bytes].
  assert (E : forall x y, x < 256 -> (x + 256 * y) mod 256 = x /\ (x + 256 * y) / 256 = y).
  { intros x y Hx. split.
    - rewrite N.mul_comm, N.mod_add by discriminate. apply N.mod_small, Hx.
    - rewrite N.mul_comm, N.div_add by discriminate. rewrite N.div_small by exact Hx. lia. }
  replace (a + 256 * b + 65536 * c + 16777216 * d) with (a + 256 * (b + 256 * (c + 256 * d)))
    by lia.
  destruct (E a (b + 256 * (c + 256 * d)) Ha) as [-> ->].
  destruct (E b (c + 256 * d) Hb) as [-> ->]. destruct (E c d Hc) as [-> ->].
  rewrite N.mod_small by exact Hd. reflexivity.
Qed.

Lemma b2n_byte b : N.b2n b < 256.
Proof. destruct b; reflexivity. Qed.
Lemma b2n_test b : negb (N.b2n b =? 0) = b.
Proof. destruct b; reflexivity. Qed.

(** Every far-call request has a register word, which reads back as that request. *)
Lemma pf_C70_far_call :
  (forall a, far_call_ok a ->
     exists v, u256_ok v /\ u256_value v = far_call_word a /\ FarCallABI_from_u256 v = a) /\
  (forall v, u256_ok v -> far_call_ok (FarCallABI_from_u256 v)).
Proof.
  split.
  - intros [[o g s l] e sh t c y] ((Ho & Hg & Hs & Hl) & He & Hsh).
    cbn [fc_memory_quasi_fat_pointer fc_ergs_passed fc_shard_id fc_forwarding_mode
         fc_constructor_call fc_to_system fp_offset fp_memory_page fp_start fp_length] in *.
    set (mb := far_call_mode_byte t).
    assert (Hmb : mb < 256) by (destruct t; reflexivity).
    assert (Hc := b2n_byte c). assert (Hy := b2n_byte y).
    change (2 ^ 8) with 256 in Hsh.
    assert (Hx : mb + 256 * sh + 65536 * N.b2n c + 16777216 * N.b2n y < 2 ^ 32)
      by (change (2 ^ 32) with 4294967296; lia).
    exists (mkU256 (o + g * 2 ^ 32) (s + l * 2 ^ 32) 0
              (e + (mb + 256 * sh + 65536 * N.b2n c + 16777216 * N.b2n y) * 2 ^ 32)).
    split; [|split].
    + unfold u256_ok. lim.
      assert (J := join_lt o g Ho Hg). assert (J' := join_lt s l Hs Hl).
      assert (J'' := join_lt e _ He Hx). repeat split; assumption || reflexivity.
    + unfold u256_value, far_call_word, pointer_word. lim.
      cbn [fc_memory_quasi_fat_pointer fc_ergs_passed fc_shard_id fc_forwarding_mode
         fc_constructor_call fc_to_system fp_offset fp_memory_page fp_start fp_length].
      fold mb. lia.
    + unfold FarCallABI_from_u256, FatPointer_from_u256. lim.
      rewrite !low_join, !high_join by assumption.
      rewrite le_bytes4 by assumption. cbn [nth].
      rewrite !b2n_test. f_equal. destruct t; reflexivity.
  - intros v H. destruct (pf_C40_layout v H) as (E & E1 & _ & E2 & _).
    unfold far_call_ok. rewrite E1, E2.
    split; [|split; [apply mod_pow2_lt|apply le_byte_lt]].
    rewrite E. unfold fat_pointer_ok.
    cbn [fp_offset fp_memory_page fp_start fp_length].
    repeat split; apply mod_pow2_lt.
Qed.

(** The same for returns. *)
Lemma pf_C70_ret :
  (forall a, ret_ok a ->
     exists v, u256_ok v /\ u256_value v = ret_word a /\ RetABI_from_u256 v = a) /\
  (forall v, u256_ok v -> ret_ok (RetABI_from_u256 v)).
Proof.
  split.
  - intros [[o g s l] t] (Ho & Hg & Hs & Hl).
    cbn [ret_memory_quasi_fat_pointer ret_page_forwarding_mode fp_offset fp_memory_page fp_start
         fp_length] in *.
    set (mb := ret_mode_byte t).
    assert (Hmb : mb < 256) by (destruct t; reflexivity).
    assert (Hx : mb + 256 * 0 + 65536 * 0 + 16777216 * 0 < 2 ^ 32)
      by (change (2 ^ 32) with 4294967296; lia).
    exists (mkU256 (o + g * 2 ^ 32) (s + l * 2 ^ 32) 0
              (0 + (mb + 256 * 0 + 65536 * 0 + 16777216 * 0) * 2 ^ 32)).
    split; [|split].
    + unfold u256_ok. lim.
      assert (J := join_lt o g Ho Hg). assert (J' := join_lt s l Hs Hl).
      assert (J'' := join_lt 0 _ ltac:(reflexivity) Hx).
      repeat split; assumption || reflexivity.
    + unfold u256_value, ret_word, pointer_word. lim.
      cbn [ret_memory_quasi_fat_pointer ret_page_forwarding_mode fp_offset fp_memory_page fp_start
         fp_length].
      fold mb. lia.
    + unfold RetABI_from_u256, FatPointer_from_u256. lim.
      rewrite !low_join, !high_join by (assumption || reflexivity).
      rewrite le_bytes4 by (assumption || reflexivity). cbn [nth].
      f_equal. destruct t; reflexivity.
  - intros v H. destruct (pf_C41_layout v H) as (E & _). unfold ret_ok. rewrite E.
    unfold fat_pointer_ok. cbn [fp_offset fp_memory_page fp_start fp_length].
    repeat split; apply mod_pow2_lt.
Qed.

(** The same for near calls and precompile calls. *)
Lemma pf_C70_calls :
  (forall e, e < 2 ^ 32 -> forall v, u256_ok v -> u256_value v = e ->
     NearCallABI_from_u256 v = mkNearCallABI e) /\
  (forall v, u256_ok v -> nc_ergs_passed (NearCallABI_from_u256 v) < 2 ^ 32) /\
  (forall a, precompile_ok a ->
     exists v, u256_ok v /\ u256_value v = precompile_word a /\
       PrecompileCallABI_from_u256 v = a) /\
  (forall v, u256_ok v -> precompile_ok (PrecompileCallABI_from_u256 v)).
Proof.
  split; [|split; [|split]].
  - intros e He v H E. assert (K := pf_C42_layout v H). rewrite E, N.mod_small in K by exact He.
    destruct (NearCallABI_from_u256 v) as [x]. cbn in K. rewrite K. reflexivity.
  - intros v H. rewrite pf_C42_layout by exact H. apply mod_pow2_lt.
  - intros [a b c d e] (Ha & Hb & Hc & Hd & He).
    cbn [pc_input_memory_offset pc_input_memory_length pc_output_memory_offset
         pc_output_memory_length pc_per_precompile_interpreted] in *.
    exists (mkU256 (a + b * 2 ^ 32) (c + d * 2 ^ 32) 0 e).
    split; [|split].
    + unfold u256_ok. lim.
      assert (J := join_lt a b Ha Hb). assert (J' := join_lt c d Hc Hd).
      repeat split; assumption || reflexivity.
    + unfold u256_value, precompile_word. lim.
      cbn [pc_input_memory_offset pc_input_memory_length pc_output_memory_offset
         pc_output_memory_length pc_per_precompile_interpreted]. lia.
    + unfold PrecompileCallABI_from_u256. lim.
      rewrite !low_join, !high_join by assumption. reflexivity.
  - intros v H. rewrite (proj1 (proj2 pf_C43_outer)) by exact H. unfold precompile_ok.
    cbn [pc_input_memory_offset pc_input_memory_length pc_output_memory_offset
         pc_output_memory_length pc_per_precompile_interpreted].
    repeat split; apply mod_pow2_lt.
Qed.

Lemma lower_half v v' : u256_ok v -> u256_ok v' ->
  (FatPointer_from_u256 v = FatPointer_from_u256 v' <->
   bit_field (u256_value v) 0 128 = bit_field (u256_value v') 0 128).
Proof.
  intros H H'. unfold bit_field. rewrite !N.div_1_r. apply (proj1 pf_C38_injective); assumption.
Qed.

(** Exactly which words read alike. *)
Lemma pf_C70_alike :
  forall v v', u256_ok v -> u256_ok v' ->
  let x := u256_value v in let x' := u256_value v' in
  (FarCallABI_from_u256 v = FarCallABI_from_u256 v' <->
     bit_field x 0 128 = bit_field x' 0 128 /\ bit_field x 192 32 = bit_field x' 192 32 /\
     same_forwarding (le_byte x 28) (le_byte x' 28) /\ le_byte x 29 = le_byte x' 29 /\
     (le_byte x 30 = 0 <-> le_byte x' 30 = 0) /\ (le_byte x 31 = 0 <-> le_byte x' 31 = 0)) /\
  (RetABI_from_u256 v = RetABI_from_u256 v' <->
     bit_field x 0 128 = bit_field x' 0 128 /\ same_forwarding (le_byte x 28) (le_byte x' 28)) /\
  (NearCallABI_from_u256 v = NearCallABI_from_u256 v' <->
     bit_field x 0 32 = bit_field x' 0 32) /\
  (PrecompileCallABI_from_u256 v = PrecompileCallABI_from_u256 v' <->
     bit_field x 0 128 = bit_field x' 0 128 /\ bit_field x 192 64 = bit_field x' 192 64).
Proof.
  intros v v' H H' x x'. assert (P := lower_half v v' H H'). fold x x' in P.
  split; [|split; [|split]].
  - destruct (pf_C40_layout v H) as (_ & A1 & A2 & A3 & A4 & A5).
    destruct (pf_C40_layout v' H') as (_ & B1 & B2 & B3 & B4 & B5).
    fold x in A1, A2, A3, A4, A5. fold x' in B1, B2, B3, B4, B5.
    change FAR_CALL_FORWARDING_MODE_BYTE_IDX with 28 in *.
    change FAR_CALL_SHARD_ID_BYTE_IDX with 29 in *.
    change FAR_CALL_CONSTRUCTOR_CALL_BYTE_IDX with 30 in *.
    change FAR_CALL_SYSTEM_CALL_BYTE_IDX with 31 in *.
    assert (Q : FarCallABI_from_u256 v = FarCallABI_from_u256 v' <->
      FatPointer_from_u256 v = FatPointer_from_u256 v' /\
      fc_ergs_passed (FarCallABI_from_u256 v) = fc_ergs_passed (FarCallABI_from_u256 v') /\
      fc_forwarding_mode (FarCallABI_from_u256 v) = fc_forwarding_mode (FarCallABI_from_u256 v') /\
      fc_shard_id (FarCallABI_from_u256 v) = fc_shard_id (FarCallABI_from_u256 v') /\
      fc_constructor_call (FarCallABI_from_u256 v) = fc_constructor_call (FarCallABI_from_u256 v') /\
      fc_to_system (FarCallABI_from_u256 v) = fc_to_system (FarCallABI_from_u256 v')).
    { change (FatPointer_from_u256 v) with (fc_memory_quasi_fat_pointer (FarCallABI_from_u256 v)).
      change (FatPointer_from_u256 v') with (fc_memory_quasi_fat_pointer (FarCallABI_from_u256 v')).
      destruct (FarCallABI_from_u256 v) as [z0 z1 z2 z3 z4 z5],
        (FarCallABI_from_u256 v') as [y0 y1 y2 y3 y4 y5].
      cbn [fc_memory_quasi_fat_pointer fc_ergs_passed fc_shard_id fc_forwarding_mode
         fc_constructor_call fc_to_system].
      split; [intros E; injection E as -> -> -> -> -> ->; repeat split|].
      intros (-> & -> & -> & -> & -> & ->). reflexivity. }
    rewrite Q, P, A1, B1, A2, B2, A3, B3. clear Q P A1 B1 A2 B2 A3 B3.
    assert (C : forall b b' : bool, b = b' <-> (b = true <-> b' = true)).
    { intros [] []; intuition congruence. }
    rewrite (C (fc_constructor_call (FarCallABI_from_u256 v))),
      (C (fc_to_system (FarCallABI_from_u256 v))), A4, A5, B4, B5. clear A4 A5 B4 B5 C.
    assert (M : forall b b',
      (if b =? 1 then FarCall_ForwardFatPointer else if b =? 2 then FarCall_UseAuxHeap
       else FarCall_UseHeap) =
      (if b' =? 1 then FarCall_ForwardFatPointer else if b' =? 2 then FarCall_UseAuxHeap
       else FarCall_UseHeap) <-> same_forwarding b b').
    { intros b b'. unfold same_forwarding.
      destruct (N.eqb_spec b 1), (N.eqb_spec b' 1), (N.eqb_spec b 2), (N.eqb_spec b' 2);
        split; intros K; try discriminate K; try reflexivity; lia. }
    rewrite M. clear M.
    generalize (le_byte x 30), (le_byte x' 30), (le_byte x 31), (le_byte x' 31).
    intros p q r s. assert (T : forall a b : N, (a <> 0 <-> b <> 0) <-> (a = 0 <-> b = 0)) by lia.
    rewrite !T. tauto.
  - destruct (pf_C41_layout v H) as (_ & A & _). destruct (pf_C41_layout v' H') as (_ & B & _).
    fold x in A. fold x' in B. change RET_FORWARDING_MODE_BYTE_IDX with 28 in *.
    assert (Q : RetABI_from_u256 v = RetABI_from_u256 v' <->
      FatPointer_from_u256 v = FatPointer_from_u256 v' /\
      ret_page_forwarding_mode (RetABI_from_u256 v)
      = ret_page_forwarding_mode (RetABI_from_u256 v')).
    { change (FatPointer_from_u256 v) with (ret_memory_quasi_fat_pointer (RetABI_from_u256 v)).
      change (FatPointer_from_u256 v') with (ret_memory_quasi_fat_pointer (RetABI_from_u256 v')).
      destruct (RetABI_from_u256 v) as [z0 z1], (RetABI_from_u256 v') as [y0 y1].
      cbn [ret_memory_quasi_fat_pointer ret_page_forwarding_mode].
      split; [intros E; injection E as -> ->; repeat split|].
      intros (-> & ->). reflexivity. }
    rewrite Q, P, A, B.
    assert (M : forall b b',
      (if b =? 1 then Ret_ForwardFatPointer else if b =? 2 then Ret_UseAuxHeap
       else Ret_UseHeap) =
      (if b' =? 1 then Ret_ForwardFatPointer else if b' =? 2 then Ret_UseAuxHeap
       else Ret_UseHeap) <-> same_forwarding b b').
    { intros b b'. unfold same_forwarding.
      destruct (N.eqb_spec b 1), (N.eqb_spec b' 1), (N.eqb_spec b 2), (N.eqb_spec b' 2);
        split; intros K; try discriminate K; try reflexivity; lia. }
    rewrite M. reflexivity.
  - assert (A := pf_C42_layout v H). assert (B := pf_C42_layout v' H').
    fold x in A. fold x' in B. unfold bit_field. rewrite !N.div_1_r, <- A, <- B.
    destruct (NearCallABI_from_u256 v) as [z], (NearCallABI_from_u256 v') as [y]. cbn [nc_ergs_passed].
    split; congruence.
  - rewrite !(proj1 (proj2 pf_C43_outer)) by assumption. fold x x'. rewrite <- P.
    destruct (pf_C38_unpack v H) as (_ & A0 & A1 & A2 & A3 & _).
    destruct (pf_C38_unpack v' H') as (_ & B0 & B1 & B2 & B3 & _).
    fold x in A0, A1, A2, A3. fold x' in B0, B1, B2, B3.
    rewrite <- A0, <- A1, <- A2, <- A3, <- B0, <- B1, <- B2, <- B3.
    destruct (FatPointer_from_u256 v) as [z0 z1 z2 z3], (FatPointer_from_u256 v') as [y0 y1 y2 y3].
    cbn [fp_offset fp_memory_page fp_start fp_length]. split.
    + intros E. injection E as -> -> -> -> ->. split; reflexivity.
    + intros [E ->]. injection E as -> -> -> ->. reflexivity.
Qed.

(** A far call of the empty page with 1000 ergs, shard 7, to the system; and two words that
    differ in ignored bits, in an unknown forwarding byte and in a flag byte. *)
Example pf_C70_example :
  let a := mkFarCallABI (mkFatPointer 3 0 64 32) 1000 7 FarCall_UseAuxHeap false true in
  let v := mkU256 3 0 99 (1000 + 2 ^ 32 * (3 + 256 * 7 + 65536 * 1 + 16777216 * 9)) in
  let v' := mkU256 3 0 5 (1000 + 2 ^ 32 * (255 + 256 * 7 + 65536 * 2 + 16777216 * 1)) in
  far_call_ok a /\ ret_ok (mkRetABI (mkFatPointer 3 0 64 32) Ret_UseAuxHeap) /\
  precompile_ok (mkPrecompileCallABI 1 2 3 4 5) /\
  u256_ok v /\ u256_ok v' /\ v <> v' /\ FarCallABI_from_u256 v = FarCallABI_from_u256 v'.
Proof. cbv zeta. repeat split. discriminate. Qed.

(** ** C71 *)

Lemma overwrite_split w lo n x a b c :
  w = a + 2 ^ lo * b + 2 ^ (lo + n) * c -> a < 2 ^ lo -> b < 2 ^ n ->
  overwrite w lo n x = a + 2 ^ lo * x + 2 ^ (lo + n) * c.
Proof.
  intros E Ha Hb. unfold overwrite.
  assert (P : 2 ^ (lo + n) = 2 ^ lo * 2 ^ n) by apply N.pow_add_r.
  assert (L : a + 2 ^ lo * b < 2 ^ (lo + n)) by (rewrite P; nia).
  f_equal; [f_equal|f_equal].
  - symmetry. apply (N.mod_unique w (2 ^ lo) (b + 2 ^ n * c)); [exact Ha|]. rewrite E, P. lia.
  - symmetry. apply (N.div_unique w (2 ^ (lo + n)) c (a + 2 ^ lo * b)); [exact L|].
    rewrite E. lia.
Qed.

Lemma overwrite_bit w lo n x i : x < 2 ^ n ->
  N.testbit (overwrite w lo n x) i =
  if (lo <=? i) && (i <? lo + n) then N.testbit x (i - lo) else N.testbit w i.
Proof.
  intros Hx.
  assert (T : forall a b k j, a < 2 ^ k ->
    N.testbit (a + 2 ^ k * b) j = if j <? k then N.testbit a j else N.testbit b (j - k)).
  { intros a b k j Ha. rewrite N.mul_comm, <- lor_mul_pow2, N.lor_spec by exact Ha.
    destruct (N.ltb_spec j k) as [H|H].
    - rewrite N.mul_pow2_bits_low by exact H. apply orb_false_r.
    - rewrite N.mul_pow2_bits_high by exact H. rewrite (testbit_high a k j) by assumption.
      reflexivity. }
  unfold overwrite. rewrite N.pow_add_r.
  replace (w mod 2 ^ lo + 2 ^ lo * x + 2 ^ lo * 2 ^ n * (w / (2 ^ lo * 2 ^ n)))
    with (w mod 2 ^ lo + 2 ^ lo * (x + 2 ^ n * (w / (2 ^ lo * 2 ^ n)))) by lia.
  rewrite <- N.pow_add_r.
  rewrite T by apply mod_pow2_lt. rewrite T by exact Hx.
  destruct (N.ltb_spec i lo) as [H|H].
  - replace (lo <=? i) with false by lia. cbn [andb]. apply N.mod_pow2_bits_low, H.
  - replace (lo <=? i) with true by lia. cbn [andb].
    destruct (N.ltb_spec (i - lo) n), (N.ltb_spec i (lo + n)); try lia; [reflexivity|].
    rewrite N.div_pow2_bits. f_equal. lia.
Qed.

Lemma bits_bit w lo n i : N.testbit (bits w lo n) i = (i <? n) && N.testbit w (i + lo).
Proof.
  unfold bits. destruct (N.ltb_spec i n) as [H|H].
  - rewrite N.mod_pow2_bits_low, N.div_pow2_bits by exact H. reflexivity.
  - rewrite N.mod_pow2_bits_high by exact H. reflexivity.
Qed.

Lemma overwrite_same w lo n x : x < 2 ^ n -> bits (overwrite w lo n x) lo n = x.
Proof.
  intros Hx. apply N.bits_inj. intros i. rewrite bits_bit, overwrite_bit by exact Hx.
  destruct (N.ltb_spec i n) as [H|H]; cbn [andb].
  - replace (lo <=? i + lo) with true by lia. replace (i + lo <? lo + n) with true by lia.
    cbn [andb]. f_equal. lia.
  - symmetry. apply (testbit_high x n); assumption.
Qed.

Lemma overwrite_other w lo n x l k : x < 2 ^ n -> l + k <= lo \/ lo + n <= l ->
  bits (overwrite w lo n x) l k = bits w l k.
Proof.
  intros Hx D. apply N.bits_inj. intros i. rewrite !bits_bit, overwrite_bit by exact Hx.
  destruct (N.ltb_spec i k) as [H|H]; cbn [andb]; [|reflexivity].
  replace ((lo <=? i + l) && (i + l <? lo + n)) with false; [reflexivity|].
  destruct D; lia.
Qed.

(** The word of an edited instruction is the patched word. *)
Lemma patch_word iw n d e x :
  spec_number (variant d) = Some n -> typed iw d -> regs_in_range d ->
  edit_number e = Some x -> x < 2 ^ snd (edit_place iw e) ->
  exists n', spec_number (variant (apply_edit e d)) = Some n' /\
    typed iw (apply_edit e d) /\ regs_in_range (apply_edit e d) /\
    patch iw e (spec_word iw n d) = spec_word iw n' (apply_edit e d).
Proof.
  intros Hn Ht Hr He Hx. unfold patch. rewrite He.
  assert (Hb := spec_number_bound _ _ Hn). assert (Hc := cond_lt (condition d)).
  assert (P8 : 2 ^ 8 = 256) by reflexivity.
  assert (P4 : 2 ^ 4 = 16) by reflexivity.
  assert (P3 : 2 ^ 3 = 8) by reflexivity.
  assert (P11 : 2 ^ 11 = 2048) by reflexivity.
  assert (P13 : 2 ^ 13 = 8192) by reflexivity.
  assert (P16 : 2 ^ 16 = 65536) by reflexivity.
  assert (P20 : 2 ^ 20 = 1048576) by reflexivity.
  assert (P24 : 2 ^ 24 = 16777216) by reflexivity.
  assert (P28 : 2 ^ 28 = 268435456) by reflexivity.
  assert (P32 : 2 ^ 32 = 4294967296) by reflexivity.
  assert (Pi : 2 ^ (32 + iw) = 4294967296 * 2 ^ iw) by (rewrite N.pow_add_r; reflexivity).
  assert (Pii : 2 ^ (32 + iw + iw) = 4294967296 * 2 ^ iw * 2 ^ iw)
    by (rewrite !N.pow_add_r; reflexivity).
  destruct d as [v c r0 r1 q0 q1 i j].
  destruct Ht as (T0 & T1 & T2 & T3 & T4 & T5). destruct Hr as (R0 & R1 & R2 & R3).
  cbn [variant condition src0_reg_idx src1_reg_idx dst0_reg_idx dst1_reg_idx imm_0 imm_1] in *.
  unfold typed, regs_in_range.
  destruct e as [y|y|y|y|y|y|y|y]; cbn [apply_edit edit_number edit_place fst snd] in *;
    cbn [variant condition src0_reg_idx src1_reg_idx dst0_reg_idx dst1_reg_idx imm_0 imm_1];
    unfold spec_word;
    cbn [variant condition src0_reg_idx src1_reg_idx dst0_reg_idx dst1_reg_idx imm_0 imm_1].
  - exists x. split; [exact He|]. split; [repeat split; assumption|].
    split; [repeat split; assumption|].
    rewrite (overwrite_split _ 0 11 x 0 n
      (4 * (spec_cond_number c + 8 * r0 + 128 * r1 + 2048 * q0 + 32768 * q1 + 524288 * i
            + 524288 * 2 ^ iw * j)));
      change (0 + 11) with 11; change (2 ^ 0) with 1; rewrite ?Pi; lia.
  - injection He as <-. exists n. split; [exact Hn|]. split; [repeat split; assumption|].
    split; [repeat split; assumption|].
    rewrite (overwrite_split _ 13 3 _ n (spec_cond_number c)
      (r0 + 16 * r1 + 256 * q0 + 4096 * q1 + 65536 * i + 65536 * 2 ^ iw * j));
      change (13 + 3) with 16; rewrite ?Pi; lia.
  - injection He as <-. exists n. split; [exact Hn|].
    split; [repeat split; try assumption; lia|]. split; [repeat split; try assumption; lia|].
    rewrite (overwrite_split _ 16 4 _ (n + 8192 * spec_cond_number c) r0
      (r1 + 16 * q0 + 256 * q1 + 4096 * i + 4096 * 2 ^ iw * j));
      change (16 + 4) with 20; rewrite ?Pi; lia.
  - injection He as <-. exists n. split; [exact Hn|].
    split; [repeat split; try assumption; lia|]. split; [repeat split; try assumption; lia|].
    rewrite (overwrite_split _ 20 4 _ (n + 8192 * spec_cond_number c + 65536 * r0) r1
      (q0 + 16 * q1 + 256 * i + 256 * 2 ^ iw * j));
      change (20 + 4) with 24; rewrite ?Pi; lia.
  - injection He as <-. exists n. split; [exact Hn|].
    split; [repeat split; try assumption; lia|]. split; [repeat split; try assumption; lia|].
    rewrite (overwrite_split _ 24 4 _
      (n + 8192 * spec_cond_number c + 65536 * r0 + 1048576 * r1) q0
      (q1 + 16 * i + 16 * 2 ^ iw * j));
      change (24 + 4) with 28; rewrite ?Pi; lia.
  - injection He as <-. exists n. split; [exact Hn|].
    split; [repeat split; try assumption; lia|]. split; [repeat split; try assumption; lia|].
    rewrite (overwrite_split _ 28 4 _
      (n + 8192 * spec_cond_number c + 65536 * r0 + 1048576 * r1 + 16777216 * q0) q1
      (i + 2 ^ iw * j));
      change (28 + 4) with 32; rewrite ?Pi; lia.
  - injection He as <-. exists n. split; [exact Hn|].
    split; [repeat split; assumption|]. split; [repeat split; assumption|].
    rewrite (overwrite_split _ 32 iw _
      (n + 8192 * spec_cond_number c + 65536 * r0 + 1048576 * r1 + 16777216 * q0
       + 268435456 * q1) i j);
      rewrite ?Pi; lia.
  - injection He as <-. exists n. split; [exact Hn|].
    split; [repeat split; assumption|]. split; [repeat split; assumption|].
    rewrite (overwrite_split _ (32 + iw) iw _
      (n + 8192 * spec_cond_number c + 65536 * r0 + 1048576 * r1 + 16777216 * q0
       + 268435456 * q1 + 4294967296 * i) j 0);
      rewrite ?Pi, ?Pii; nia.
Qed.

(** Patching one field of an encoded instruction gives the encoding of the edited one. *)
Lemma pf_C71_patch :
  forall m bld d w e,
  typed (mode_imm_bits m) d -> regs_in_range d ->
  encode_as_integer (mode_impl m) bld d = Ok w ->
  edit_fits (mode_imm_bits m) e ->
  encode_as_integer (mode_impl m) bld (apply_edit e d) = Ok (patch (mode_imm_bits m) e w).
Proof.
  intros m bld d w e Ht Hr He (x & Hx & Lx).
  destruct (encode_then_parse m bld d w Ht He) as (n & Hn & Ew & _).
  rewrite wrap_id in Ew by exact Hr.
  destruct (patch_word _ n d e x Hn Ht Hr Hx Lx) as (n' & Hn' & Ht' & Hr' & E).
  rewrite Ew, E. apply roundtrip_decode; assumption.
Qed.

(** Patching one field of any word changes that field of the decoded instruction only. *)
Lemma pf_C71_decode :
  forall m w d n e,
  parse_preliminary_variant_and_absolute_number (mode_impl m) w = Ok (d, n) ->
  edit_fits (mode_imm_bits m) e ->
  parse_preliminary_variant_and_absolute_number (mode_impl m) (patch (mode_imm_bits m) e w)
  = Ok (apply_edit e d,
        match e with
        | SetVariant x =>
            mkVariantMonotonicNumber (match spec_number x with Some k => k | None => 0 end)
        | _ => n
        end).
Proof.
  intros m w d n e Hp (x & Hx & Lx). unfold patch. rewrite Hx.
  destruct (mode_parse_fields m w) as (d0 & Hp0 & F).
  rewrite Hp0 in Hp. injection Hp as -> <-.
  set (iw := mode_imm_bits m) in *.
  set (w' := overwrite w (fst (edit_place iw e)) (snd (edit_place iw e)) x).
  destruct (mode_parse_fields m w') as (d' & Hp' & F'). fold iw in F'.
  rewrite Hp'.
  assert (K : forall l k, l + k <= fst (edit_place iw e) \/
                fst (edit_place iw e) + snd (edit_place iw e) <= l ->
                bits w' l k = bits w l k)
    by (intros; apply overwrite_other; assumption).
  assert (S : bits w' (fst (edit_place iw e)) (snd (edit_place iw e)) = x)
    by (apply overwrite_same, Lx).
  assert (G : spec_fields iw w' (apply_edit e d)).
  { clear d' Hp' F' Hp0. clearbody w'. revert F. unfold spec_fields. clear Lx.
    destruct d as [v c r0 r1 q0 q1 i j].
    destruct e as [y|y|y|y|y|y|y|y]; cbn [edit_place edit_number fst snd] in *;
    cbn [apply_edit variant condition src0_reg_idx src1_reg_idx dst0_reg_idx dst1_reg_idx
         imm_0 imm_1];
    intros (F0 & F1 & F2 & F3 & F4 & F5 & F6 & F7);
    rewrite ?(K 0 11), ?(K 13 3), ?(K 16 4), ?(K 20 4), ?(K 24 4), ?(K 28 4), ?(K 32 iw),
      ?(K (32 + iw) iw), ?S by lia;
    repeat split; try assumption.
    - unfold spec_variant_at. rewrite <- first_index_number in Hx.
      apply first_index_Some in Hx as [-> _]. reflexivity.
    - injection Hx as <-. apply cond_of_number.
    - injection Hx as <-. reflexivity.
    - injection Hx as <-. reflexivity.
    - injection Hx as <-. reflexivity.
    - injection Hx as <-. reflexivity.
    - injection Hx as <-. reflexivity.
    - injection Hx as <-. reflexivity. }
  rewrite (fields_unique _ _ _ _ F' G). f_equal. f_equal.
  destruct e as [y|y|y|y|y|y|y|y]; cbn [edit_place edit_number fst snd] in *;
    try (rewrite (K 0 11) by lia; reflexivity).
  rewrite S, Hx. reflexivity.
Qed.

(** Any sequence of edits. *)
Lemma pf_C71_sequence :
  forall m bld es d w,
  typed (mode_imm_bits m) d -> regs_in_range d ->
  encode_as_integer (mode_impl m) bld d = Ok w ->
  Forall (edit_fits (mode_imm_bits m)) es ->
  encode_as_integer (mode_impl m) bld (fold_left (fun x e => apply_edit e x) es d)
  = Ok (fold_left (fun x e => patch (mode_imm_bits m) e x) es w).
Proof.
  intros m bld es. induction es as [|e es IH]; intros d w Ht Hr He Hes; [exact He|].
  inversion Hes as [|e' es' Hf Hfs]; subst. cbn [fold_left].
  assert (K := pf_C71_patch m bld d w e Ht Hr He Hf).
  destruct Hf as (x & Hx & Lx).
  destruct (encode_then_parse m bld d w Ht He) as (n & Hn & _ & _).
  destruct (patch_word _ n d e x Hn Ht Hr Hx Lx) as (n' & _ & Ht' & Hr' & _).
  apply IH; assumption.
Qed.

(** Relocating the first immediate of a subtraction and redirecting its second source. *)
Example pf_C71_example :
  typed 16 example_sub /\ regs_in_range example_sub /\
  encode_as_integer EncodingModeProduction Debug example_sub = Ok 0x0001FFFF07F3A06C /\
  Forall (edit_fits 16) [SetImm0 0x1234; SetSrc1 9; SetCondition Ne_; SetVariant example_nop] /\
  patch 16 (SetImm0 0x1234) 0x0001FFFF07F3A06C = 0x0001123407F3A06C /\
  apply_edit (SetImm0 0x1234) example_sub <> example_sub.
Proof.
  split; [apply example_typed|]. split; [apply example_typed|].
  split; [apply (concrete_word ProductionMode _ _ 108); try apply example_typed; reflexivity|].
  split; [|split; [reflexivity|discriminate]].
  repeat constructor.
  - exists 0x1234. split; reflexivity.
  - exists 9. split; reflexivity.
  - exists 6. split; reflexivity.
  - exists 1. split; [exact nop_number|reflexivity].
Qed.

(** ** C72 *)

Lemma be_value_zeros n : be_value (repeat 0 n) = 0.
Proof. induction n; cbn [repeat be_value]; [reflexivity|]. rewrite IHn. lia. Qed.

Lemma zeros_bytes n : is_bytes (repeat 0 n).
Proof. induction n; cbn [repeat]; constructor; [reflexivity|exact IHn]. Qed.

Lemma firstn_zeros n k : (n <= k)%nat -> firstn n (repeat (0 : N) k) = repeat 0 n.
Proof.
  revert k. induction n; intros k H; [reflexivity|].
  destruct k; [lia|]. cbn. f_equal. apply IHn. lia.
Qed.

Lemma skipn_zeros n k : skipn n (repeat (0 : N) k) = repeat 0 (k - n).
Proof.
  revert k. induction n; intros k; [cbn; f_equal; lia|].
  destruct k; cbn; [reflexivity|]. apply IHn.
Qed.

Lemma bits_zero lo n : bits 0 lo n = 0.
Proof.
  unfold bits. rewrite N.div_0_l by (apply N.pow_nonzero; discriminate).
  apply N.mod_0_l, N.pow_nonzero. discriminate.
Qed.

(** The all-zero word. *)
Lemma parse_zero m :
  parse_preliminary_variant_and_absolute_number (mode_impl m) 0
  = Ok (spec_zero_instruction, mkVariantMonotonicNumber 0).
Proof.
  destruct (mode_parse_fields m 0) as (d & Hp & F). rewrite Hp, bits_zero.
  f_equal. f_equal. apply (fields_unique _ _ _ _ F).
  unfold spec_fields, spec_zero_instruction. rewrite !bits_zero. repeat split.
Qed.

Lemma concat_length_32 (ws : list (list N)) :
  Forall (fun w => List.length w = 32%nat) ws ->
  List.length (List.concat ws) = (32 * List.length ws)%nat.
Proof.
  induction 1 as [|w ws Hw _ IH]; cbn [List.concat List.length]; [reflexivity|].
  rewrite app_length, Hw, IH. lia.
Qed.

Lemma concat_word (ws : list (list N)) k w :
  Forall (fun w => List.length w = 32%nat) ws -> nth_error ws k = Some w ->
  firstn 32 (skipn (32 * k) (List.concat ws)) = w.
Proof.
  intros F. revert k. induction F as [|x ws Hx F IH]; intros k H; [destruct k; discriminate|].
  destruct k; cbn [nth_error] in H.
  - injection H as ->. rewrite Nat.mul_0_r. cbn [skipn List.concat].
    rewrite firstn_app, Hx, Nat.sub_diag, firstn_O, app_nil_r. apply firstn_all2. lia.
  - cbn [List.concat]. rewrite skipn_app, Hx.
    rewrite (skipn_all2 x) by lia. cbn [app].
    replace (32 * S k - 32)%nat with (32 * k)%nat by lia. apply IH, H.
Qed.

Lemma code_page_holds page ws :
  Forall (fun w => List.length w = 32%nat) ws -> code_page page ws ->
  page_holds page (List.concat ws).
Proof.
  intros F C k Hk. destruct (C k) as [T E]. split; [exact T|].
  rewrite concat_length_32 in Hk by exact F.
  destruct (nth_error ws (N.to_nat k)) as [w|] eqn:N.
  - rewrite E, (concat_word ws (N.to_nat k) w F N). reflexivity.
  - apply nth_error_None in N. lia.
Qed.

Lemma chunks_width m bld prog chunks :
  Forall (fun d => typed (mode_imm_bits m) d /\ regs_in_range d) prog ->
  Forall2 (fun d b => serialize_as_bytes (mode_impl m) bld d = Ok b) prog chunks ->
  List.length (List.concat chunks) = (mode_bytes m * List.length prog)%nat /\
  is_bytes (List.concat chunks).
Proof.
  intros Hty Hch. induction Hch as [|x b xs bs Hb _ IH].
  - split; [cbn [List.concat List.length]; lia|constructor].
  - inversion Hty as [|y ys [Hy _] Hys]; subst.
    assert (S := bytes_spec m bld x Hy). rewrite Hb in S.
    destruct (serialize_as_integer (mode_impl m) bld x); [|contradiction].
    destruct S as (L & B & _). destruct (IH Hys) as [L' B']. split.
    + cbn [List.concat List.length]. rewrite app_length, L, L'. lia.
    + cbn [List.concat]. apply Forall_app. split; assumption.
Qed.

(** Running a program from a code page: the instruction at every program counter is the one
    written there, and past the end of the program it is the invalid one. *)
Lemma pf_C72_run :
  forall m bld prog chunks pad ws page,
  Forall (fun d => typed (mode_imm_bits m) d /\ regs_in_range d) prog ->
  Forall2 (fun d b => serialize_as_bytes (mode_impl m) bld d = Ok b) prog chunks ->
  Forall (fun w => List.length w = 32%nat) ws ->
  List.concat ws = List.concat chunks ++ repeat 0 pad ->
  code_page page ws ->
  forall pc, exists w n, fetch m page pc = Ok w /\
    parse_preliminary_variant_and_absolute_number (mode_impl m) w
    = Ok (match nth_error prog (N.to_nat pc) with
          | Some d => d
          | None => spec_zero_instruction
          end, n).
Proof.
  intros m bld prog chunks pad ws page Hty Hch Hws Hcat Hpage pc.
  assert (Hh := code_page_holds page ws Hws Hpage).
  destruct (chunks_width m bld prog chunks Hty Hch) as [Lc Bc].
  assert (Lw := concat_length_32 ws Hws).
  destruct (nth_error prog (N.to_nat pc)) as [d|] eqn:Ed.
  - rewrite Hcat in Hh.
    apply (pf_C11_end_to_end m bld page prog (repeat 0 pad) chunks pc d);
      try assumption; [apply zeros_bytes|].
    rewrite <- Hcat, Lw, Nat.mul_comm. apply Nat.mod_mul. discriminate.
  - apply nth_error_None in Ed.
    exists 0, (mkVariantMonotonicNumber 0). split; [|apply parse_zero].
    set (k := pc / mode_per_word m).
    destruct (nth_error ws (N.to_nat k)) as [x|] eqn:Ek.
    + assert (Hk : 32 * (k + 1) <= N.of_nat (List.length (List.concat ws))).
      { assert (N.to_nat k < List.length ws)%nat by (apply nth_error_Some; congruence).
        rewrite Lw. lia. }
      rewrite (fetch_bytes m page (List.concat ws) pc); [| |exact Hh|exact Hk].
      2:{ rewrite Hcat. apply Forall_app. split; [exact Bc|apply zeros_bytes]. }
      f_equal.
      assert (Hfit : (mode_bytes m * N.to_nat pc + mode_bytes m
                      <= List.length (List.concat ws))%nat).
      { assert (E := N.div_mod pc (mode_per_word m) ltac:(destruct m; discriminate)).
        assert (R := N.mod_lt pc (mode_per_word m) ltac:(destruct m; discriminate)).
        fold k in E. destruct m; cbn [mode_per_word mode_bytes] in *; lia. }
      rewrite Hcat, app_length, repeat_length in Hfit. rewrite Hcat.
      assert (Hge : (List.length (List.concat chunks) <= mode_bytes m * N.to_nat pc)%nat)
        by (rewrite Lc; apply Nat.mul_le_mono_l; exact Ed).
      rewrite skipn_app, (skipn_all2 (List.concat chunks)) by exact Hge.
      cbn [app]. rewrite skipn_zeros, firstn_zeros by lia. apply be_value_zeros.
    + destruct (Hpage k) as [T E]. rewrite Ek in E.
      unfold fetch. assert (S := split_pc_spec m pc).
      destruct (split_pc (mode_impl m) pc) as [k' s]. destruct S as [E' Hs].
      assert (Hk' : k = k').
      { symmetry. apply (N.div_unique pc (mode_per_word m) k' s); [exact Hs|].
        rewrite E'. reflexivity. }
      subst k'.
      rewrite (select_bytes m _ s (repeat 0 32)); [|exact T|exact Hs|apply zeros_bytes
        |apply repeat_length|rewrite E, be_value_zeros; reflexivity].
      f_equal. rewrite skipn_zeros, firstn_zeros; [apply be_value_zeros|].
      destruct m; cbn [mode_per_word mode_bytes] in *; lia.
Qed.

(** Cutting bytes into 32-byte words, with zeros up to an odd number of words. *)
Lemma cut_words n (l : list N) : List.length l = (32 * n)%nat ->
  exists ws, Forall (fun w => List.length w = 32%nat) ws /\ List.length ws = n /\
    List.concat ws = l.
Proof.
  revert l. induction n; intros l H.
  - exists []. destruct l; [repeat split; constructor|discriminate].
  - destruct (IHn (skipn 32 l)) as (ws & F & L & C); [rewrite skipn_length; lia|].
    exists (firstn 32 l :: ws). split; [|split].
    + constructor; [rewrite firstn_length; lia|exact F].
    + cbn [List.length]. lia.
    + cbn [List.concat]. rewrite C. apply firstn_skipn.
Qed.

(** Every program that fits has a bytecode with a code hash, which commits to its words. *)
Lemma pf_C72_deploy :
  forall m bld sha256 prog chunks,
  digest_function sha256 ->
  Forall (fun d => typed (mode_imm_bits m) d /\ regs_in_range d) prog ->
  Forall2 (fun d b => serialize_as_bytes (mode_impl m) bld d = Ok b) prog chunks ->
  (mode_bytes m * List.length prog <= 32 * N.to_nat 65535)%nat ->
  exists pad ws,
    Forall (fun w => List.length w = 32%nat) ws /\
    List.concat ws = List.concat chunks ++ repeat 0 pad /\ (pad <= 63)%nat /\
    bytecode_to_code_hash sha256 ws
    = Ok (Some (hash_bytes 0 (len ws)
        (skipn 4 (sha256 (List.concat chunks ++ repeat 0 pad))))).
Proof.
  intros m bld sha256 prog chunks D Hty Hch Hfit.
  destruct (chunks_width m bld prog chunks Hty Hch) as [Lc Bc]. rewrite <- Lc in Hfit.
  set (L := List.length (List.concat chunks)) in *.
  assert (Q : exists pad q, (L + pad = 32 * (2 * q + 1) /\ pad <= 63 /\
                             2 * q + 1 <= N.to_nat 65535)%nat).
  { assert (B : (N.to_nat 65535 = 2 * N.to_nat 32767 + 1)%nat).
    { change 65535 with (2 * 32767 + 1). rewrite N2Nat.inj_add, N2Nat.inj_mul. reflexivity. }
    rewrite B in *. clear B. generalize dependent (N.to_nat 32767). intros M Hfit.
    exists (32 * (2 * ((L + 31) / 64) + 1) - L)%nat, ((L + 31) / 64)%nat. lia. }
  destruct Q as (pad & q & Hl & Hpad & Hq).
  destruct (cut_words (2 * q + 1) (List.concat chunks ++ repeat 0 pad)) as (ws & F & Lw & C).
  { rewrite app_length, repeat_length. exact Hl. }
  exists pad, ws. split; [exact F|]. split; [exact C|]. split; [exact Hpad|].
  assert (N : len ws = 2 * N.of_nat q + 1) by (unfold len; rewrite Lw; lia).
  assert (Lim : len ws <= 65535) by (unfold len; rewrite Lw; lia).
  destruct (pf_C47_hash sha256 ws D) as [_ B]; [change (2 ^ 64) with 18446744073709551616; lia|].
  destruct B as (E & _); [rewrite N; apply N.odd_spec; exists (N.of_nat q); reflexivity|exact Lim|].
  rewrite E, C. reflexivity.
Qed.

(** Two instructions in one memory word, then zeros. *)
Example pf_C72_example :
  let prog := [mkDecodedOpcode example_nop Always 0 0 0 0 0 0; example_sub] in
  let chunks := [[0; 0; 0; 0; 0; 0; 0; 1]; [0; 1; 0xFF; 0xFF; 7; 0xF3; 0xA0; 0x6C]] in
  let ws := [List.concat chunks ++ repeat 0 16] in
  let page := fun k => if k =? 0 then mkU256 0 0 0x0001FFFF07F3A06C 1 else mkU256 0 0 0 0 in
  Forall (fun d => typed 16 d /\ regs_in_range d) prog /\
  Forall2 (fun d b => serialize_as_bytes EncodingModeProduction Debug d = Ok b) prog chunks /\
  Forall (fun w => List.length w = 32%nat) ws /\
  List.concat ws = List.concat chunks ++ repeat 0 16 /\ code_page page ws /\
  digest_function (fun _ => repeat 7 32) /\
  (mode_bytes ProductionMode * List.length prog <= 32 * N.to_nat 65535)%nat.
Proof.
  cbv zeta. split; [repeat constructor|].
  split; [constructor; [|constructor; [|constructor]]|].
  { apply (concrete_bytes ProductionMode _ _ 1 1); try reflexivity; repeat split. }
  { apply (concrete_bytes ProductionMode _ _ 108 0x0001FFFF07F3A06C);
      try apply example_typed; reflexivity. }
  split; [repeat constructor|]. split; [reflexivity|]. split; [|split].
  - intros k. destruct (N.eqb_spec k 0) as [->|H]; [split; [repeat split|vm_compute; reflexivity]|].
    split; [repeat split|].
    destruct (N.to_nat k) as [|[|n]] eqn:E; [lia|reflexivity|reflexivity].
  - intros x. split; [reflexivity|]. repeat constructor.
  - cbn [mode_bytes List.length]. lia.
Qed.
