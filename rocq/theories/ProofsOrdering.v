(** * Proofs about the derived orderings (C68, C69).
    [pf_X] proves the theorem [X] of PropsOrdering.v. *)

From Coq Require Import Arith NArith Lia ZArith List Bool String.
From Coq Require Import ZifyBool ZifyNat ZifyN.
From Verif Require Import Machine Operands OpcodeTrait Opcodes AllOpcodes Tables Decoding Abi
  Ordering SpecIsa SpecFamilies SpecCodec SpecAbi SpecOrdering.
From Verif Require Import BitLemmas TableProofs TableProofs2 TableProofs3 CodecProofs CodecProofs2
  ProofsTables ProofsAbi.
Import ListNotations.
Open Scope N_scope.

(** ** Orders given by an injective key *)

Lemma order_by_key {A : Type} (key : A -> N) (cmp : A -> A -> comparison) :
  (forall a b, cmp a b = (key a ?= key b)) ->
  (forall a b, key a = key b -> a = b) -> total_order cmp.
Proof.
  intros Hc Hi. split; [|split].
  - intros a b. rewrite Hc, N.compare_eq_iff. split; [apply Hi | congruence].
  - intros a b. rewrite !Hc. apply N.compare_antisym.
  - intros a b c. rewrite !Hc, !N.compare_lt_iff. lia.
Qed.

(** One more significant digit. *)
Lemma digit_cmp r a a' b b' : b < r -> b' < r ->
  (r * a + b ?= r * a' + b') = then_cmp (a ?= a') (b ?= b').
Proof.
  intros Hb Hb'. unfold then_cmp.
  destruct (N.compare_spec a a') as [->|H|H].
  - destruct (N.compare_spec b b'); [apply N.compare_eq_iff|apply N.compare_lt_iff|
      apply N.compare_gt_iff]; lia.
  - apply N.compare_lt_iff. nia.
  - apply N.compare_gt_iff. nia.
Qed.

Lemma then_cmp_assoc a b c : then_cmp (then_cmp a b) c = then_cmp a (then_cmp b c).
Proof. destruct a; reflexivity. Qed.

Lemma bool_cmp_key a b : bool_cmp a b = (N.b2n a ?= N.b2n b).
Proof. destruct a, b; reflexivity. Qed.

Lemma operand_cmp_key a b : Operand_cmp a b = (spec_operand_rank a ?= spec_operand_rank b).
Proof. destruct a as [|[]|[]], b as [|[]|[]]; reflexivity. Qed.

Lemma operand_rank_lt a : spec_operand_rank a < 9.
Proof. destruct a as [|[]|[]]; reflexivity. Qed.

Lemma operand_rank_inj a b : spec_operand_rank a = spec_operand_rank b -> a = b.
Proof. destruct a as [|[]|[]], b as [|[]|[]]; intros; try discriminate; reflexivity. Qed.

Lemma sub_lt_10 o : spec_sub o < 10.
Proof. each_opcode o; reflexivity. Qed.

Lemma opcode_cmp_key a b :
  Opcode_cmp a b
  = then_cmp (spec_family a ?= spec_family b) (spec_sub a ?= spec_sub b).
Proof. each_opcode a; each_opcode b; reflexivity. Qed.

Lemma b2n_lt b : N.b2n b < 2.
Proof. destruct b; reflexivity. Qed.

Lemma variant_cmp_key a b : OpcodeVariant_cmp a b = (spec_key a ?= spec_key b).
Proof.
  unfold OpcodeVariant_cmp, spec_key, flags_cmp.
  rewrite !digit_cmp by first [apply b2n_lt | apply operand_rank_lt | apply sub_lt_10].
  rewrite !then_cmp_assoc, opcode_cmp_key, !operand_cmp_key, !bool_cmp_key, then_cmp_assoc.
  reflexivity.
Qed.

Lemma digits_inj r a a' b b' : b < r -> b' < r -> r * a + b = r * a' + b' -> a = a' /\ b = b'.
Proof. intros. assert (a = a') by nia. split; [assumption | nia]. Qed.

Lemma key_inj x y : spec_key x = spec_key y -> x = y.
Proof.
  destruct x as [o s d [f0 f1]], y as [o' s' d' [g0 g1]].
  unfold spec_key; cbn [opcode src0_operand_type dst0_operand_type flags fst snd]. intros H.
  apply digits_inj in H; try apply b2n_lt. destruct H as [H H1].
  apply digits_inj in H; try apply b2n_lt. destruct H as [H H0].
  apply digits_inj in H; try apply operand_rank_lt. destruct H as [H Hd].
  apply digits_inj in H; try apply operand_rank_lt. destruct H as [H Hs].
  apply digits_inj in H; try apply sub_lt_10. destruct H as [Hf Hu].
  assert (o = o') by (apply opcode_by_numbers; assumption).
  apply operand_rank_inj in Hd, Hs. subst.
  destruct f0, f1, g0, g1; try discriminate; reflexivity.
Qed.

(** ** Comparing with the numbering *)

Definition numbered : list (OpcodeVariant * N * N) :=
  Eval vm_compute in
  map (fun x => (x, match spec_number x with Some n => n | None => 0 end, spec_key x))
    spec_table_v1.

Definition pair_ok (a b : OpcodeVariant * N * N) : bool :=
  let '(x, nx, kx) := a in
  let '(y, ny, ky) := b in
  if kx <? ky then eqb (ny <? nx) (spec_out_of_order x y) else true.

Lemma numbered_eq :
  numbered = map (fun x => (x, match spec_number x with Some n => n | None => 0 end, spec_key x))
               spec_table_v1.
Proof. vm_compute. reflexivity. Qed.

Lemma pair_sweep : forallb (fun a => forallb (pair_ok a) numbered) numbered = true.
Proof. vm_compute. reflexivity. Qed.

Lemma in_numbered x n : spec_number x = Some n -> In (x, n, spec_key x) numbered.
Proof.
  intros H. rewrite numbered_eq. apply in_map_iff. exists x. rewrite H. split; [reflexivity|].
  rewrite <- first_index_number in H.
  apply first_index_Some in H. destruct H as [H _]. apply nth_error_In in H. exact H.
Qed.

Lemma number_order x y nx ny :
  spec_number x = Some nx -> spec_number y = Some ny -> spec_key x < spec_key y ->
  (ny < nx <-> spec_out_of_order x y = true).
Proof.
  intros Hx Hy Hk. apply in_numbered in Hx, Hy.
  assert (S := pair_sweep). rewrite forallb_forall in S. specialize (S _ Hx).
  rewrite forallb_forall in S. specialize (S _ Hy). cbn [pair_ok] in S.
  apply N.ltb_lt in Hk. rewrite Hk in S. apply eqb_prop in S. rewrite <- S, N.ltb_lt. reflexivity.
Qed.

(** ** C68 *)

(** Variants are ordered by family, number within the family, source, destination and
    flags; this is a total order. *)
Lemma pf_C68_variants :
  total_order OpcodeVariant_cmp /\
  (forall x y, OpcodeVariant_cmp x y = Lt <-> spec_key x < spec_key y) /\
  (forall x y, spec_key x = spec_key y -> x = y).
Proof.
  split; [|split].
  - apply (order_by_key spec_key); [apply variant_cmp_key | apply key_inj].
  - intros x y. rewrite variant_cmp_key. apply N.compare_lt_iff.
  - apply key_inj.
Qed.

(** The parts of a variant: opcodes by family and number within it (the circuit bits),
    operands by kind and mode, conditions by their encoding. *)
Lemma pf_C68_parts :
  total_order Opcode_cmp /\ total_order Operand_cmp /\ total_order Condition_cmp /\
  total_order ImmMemHandlerFlags_cmp /\ total_order RegOrImmFlags_cmp /\
  (forall a b, Opcode_cmp a b = Lt <->
     Opcode_variant_idx a < Opcode_variant_idx b \/
     Opcode_variant_idx a = Opcode_variant_idx b /\
     Opcode_materialize_subvariant_idx a < Opcode_materialize_subvariant_idx b) /\
  (forall a b, Operand_cmp a b = Lt <-> spec_operand_rank a < spec_operand_rank b) /\
  (forall a b, Condition_cmp a b = Lt <-> spec_cond_number a < spec_cond_number b) /\
  (forall a b, ImmMemHandlerFlags_cmp a b = Lt <->
     ImmMemHandlerFlags_variant_index a < ImmMemHandlerFlags_variant_index b) /\
  (forall a b, RegOrImmFlags_cmp a b = Lt <->
     RegOrImmFlags_variant_index a < RegOrImmFlags_variant_index b).
Proof.
  split; [|split; [|split; [|split; [|split; [|split; [|split; [|split; [|split]]]]]]]].
  - apply (order_by_key (fun o => 10 * spec_family o + spec_sub o)).
    + intros a b. rewrite digit_cmp by apply sub_lt_10. apply opcode_cmp_key.
    + intros a b H. apply digits_inj in H; try apply sub_lt_10. destruct H.
      apply opcode_by_numbers; assumption.
  - apply (order_by_key spec_operand_rank); [apply operand_cmp_key | apply operand_rank_inj].
  - apply (order_by_key spec_cond_number); intros [] []; intros; try discriminate; reflexivity.
  - apply (order_by_key spec_mode); intros [] []; intros; try discriminate; reflexivity.
  - apply (order_by_key (fun r => spec_operand_mode (RegOrImm r)));
      intros [] []; intros; try discriminate; reflexivity.
  - intros a b. rewrite (family_eq a), (family_eq b), (sub_eq a), (sub_eq b), opcode_cmp_key.
    unfold then_cmp.
    destruct (N.compare_spec (spec_family a) (spec_family b)) as [E|E|E].
    + rewrite N.compare_lt_iff. split; [intros H; right; split; assumption|].
      intros [H|[_ H]]; [lia | exact H].
    + split; [intros _; left; exact E | reflexivity].
    + split; [discriminate|]. intros [H|[H _]]; lia.
  - intros a b. rewrite operand_cmp_key. apply N.compare_lt_iff.
  - intros [] []; vm_compute; split; congruence.
  - intros [] []; vm_compute; split; congruence.
  - intros [] []; vm_compute; split; congruence.
Qed.

(** The opcode number does not follow this order exactly for the pairs named in
    [spec_out_of_order]. *)
Lemma pf_C68_numbering :
  forall m x y nx ny,
    OPCODE_TO_CANONICAL_INDEX_LOOKUP_MAP = Ok m ->
    map_get m x = Some nx -> map_get m y = Some ny -> OpcodeVariant_cmp x y = Lt ->
    (ny < nx <-> spec_out_of_order x y = true) /\ nx <> ny.
Proof.
  intros m x y nx ny Hm Hx Hy Hlt.
  destruct pf_C13_canonical as (t & m' & Ht & Hm' & Hfirst & _ & Hn).
  rewrite Hm in Hm'. injection Hm' as <-.
  rewrite variant_cmp_key, N.compare_lt_iff in Hlt. split.
  - rewrite Hn in Hx, Hy. apply number_order; assumption.
  - intros ->. apply Hfirst in Hx, Hy. destruct Hx as [Hx _], Hy as [Hy _].
    rewrite Hx in Hy. injection Hy as ->. lia.
Qed.

(** Expected: sorting variants sorts their numbers.  False. *)
Lemma pf_C68_refuted :
  exists x y nx ny m,
    OPCODE_TO_CANONICAL_INDEX_LOOKUP_MAP = Ok m /\
    map_get m x = Some nx /\ map_get m y = Some ny /\
    OpcodeVariant_cmp x y = Lt /\ ny < nx.
Proof.
  destruct pf_C13_canonical as (t & m & Ht & Hm & _ & _ & Hn).
  exists (mkOpcodeVariant (Op_Shift ShiftOpcode_Shl) (Full UseRegOnly) (Full UseRegOnly)
            (false, false)),
         (mkOpcodeVariant (Op_Binop BinopOpcode_Xor) (Full UseRegOnly) (Full UseRegOnly)
            (false, false)), 463, 319, m.
  rewrite !Hn. split; [exact Hm|]. repeat split; reflexivity.
Qed.

(** Fat pointers are ordered by offset first; packed, the length counts most.  Both are total
    orders on pointers, and they disagree. *)
Lemma pf_C68_pointers :
  total_order FatPointer_cmp /\
  (forall p q, FatPointer_cmp p q = Lt <->
     fp_offset p < fp_offset q \/ fp_offset p = fp_offset q /\
     (fp_memory_page p < fp_memory_page q \/ fp_memory_page p = fp_memory_page q /\
      (fp_start p < fp_start q \/ fp_start p = fp_start q /\ fp_length p < fp_length q))) /\
  ~ (forall p q, fat_pointer_ok p -> fat_pointer_ok q -> FatPointer_cmp p q = Lt ->
       u256_value (FatPointer_to_u256 p) < u256_value (FatPointer_to_u256 q)) /\
  (forall p q, fat_pointer_ok p -> fat_pointer_ok q ->
     FatPointer_cmp p q = Eq <->
     u256_value (FatPointer_to_u256 p) = u256_value (FatPointer_to_u256 q)).
Proof.
  assert (L : forall p q, FatPointer_cmp p q = Lt <->
     fp_offset p < fp_offset q \/ fp_offset p = fp_offset q /\
     (fp_memory_page p < fp_memory_page q \/ fp_memory_page p = fp_memory_page q /\
      (fp_start p < fp_start q \/ fp_start p = fp_start q /\ fp_length p < fp_length q))).
  { intros p q. unfold FatPointer_cmp, then_cmp.
    destruct (N.compare_spec (fp_offset p) (fp_offset q)),
             (N.compare_spec (fp_memory_page p) (fp_memory_page q)),
             (N.compare_spec (fp_start p) (fp_start q)),
             (N.compare_spec (fp_length p) (fp_length q)); split; intros; try lia; try discriminate;
      reflexivity. }
  assert (E : forall p q, FatPointer_cmp p q = Eq <-> p = q).
  { intros p q. split.
    - unfold FatPointer_cmp, then_cmp. destruct p as [a b c d], q as [a' b' c' d'].
      cbn [fp_offset fp_memory_page fp_start fp_length].
      destruct (N.compare_spec a a'); try discriminate. destruct (N.compare_spec b b'); try discriminate.
      destruct (N.compare_spec c c'); try discriminate. destruct (N.compare_spec d d'); try discriminate.
      subst. reflexivity.
    - intros ->. unfold FatPointer_cmp. rewrite !N.compare_refl. reflexivity. }
  split; [|split; [exact L|split]].
  - split; [exact E|split].
    + intros p q. unfold FatPointer_cmp.
      rewrite (N.compare_antisym (fp_offset p)), (N.compare_antisym (fp_memory_page p)),
        (N.compare_antisym (fp_start p)), (N.compare_antisym (fp_length p)).
      destruct (fp_offset p ?= fp_offset q), (fp_memory_page p ?= fp_memory_page q),
        (fp_start p ?= fp_start q), (fp_length p ?= fp_length q); reflexivity.
    + intros p q r. rewrite !L. lia.
  - intros H. specialize (H (mkFatPointer 0 0 0 1) (mkFatPointer 1 0 0 0)).
    vm_compute in H. assert (X : Gt = Lt); [|discriminate X].
    apply H; repeat split; reflexivity.
  - intros p q Hp Hq. rewrite E. split; [congruence|]. intros H.
    destruct (pf_C38_pack p Hp) as (_ & Op & _). destruct (pf_C38_pack q Hq) as (_ & Oq & _).
    apply pf_C38_injective; try assumption.
    apply u256_inj; assumption.
Qed.

Example pf_C68_example :
  let ctx := mkOpcodeVariant (Op_Context ContextOpcode_This) RegOnly RegOnly (false, false) in
  let near := mkOpcodeVariant (Op_NearCall nearCallOpcode) RegOnly RegOnly (false, false) in
  let log := mkOpcodeVariant (Op_Log LogOpcode_Event) RegOnly RegOnly (true, false) in
  OpcodeVariant_cmp ctx near = Lt /\ spec_number ctx = Some 1040 /\ spec_number near = Some 1039 /\
  OpcodeVariant_cmp near log = Lt /\ spec_number log = Some 1055 /\
  spec_out_of_order near log = false.
Proof. repeat split. Qed.

(** ** C69 *)

(** Lexicographic comparison of lists. *)
Fixpoint lexc (a b : list N) : comparison :=
  match a, b with
  | x :: a', y :: b' => then_cmp (x ?= y) (lexc a' b')
  | _, _ => Eq
  end.

Lemma lexc_lt a : forall b, lexc a b = Lt <-> lex_before a b.
Proof.
  induction a as [|x a IH]; intros b.
  - split; [discriminate|]. intros (i & H & _). inversion H.
  - destruct b as [|y b].
    + split; [discriminate|]. intros (i & _ & H & _). inversion H.
    + cbn [lexc]. unfold then_cmp. destruct (N.compare_spec x y) as [->|H|H].
      * rewrite IH. split.
        -- intros (i & H1 & H2 & H3 & H4). exists (S i). cbn.
           split; [lia|]. split; [lia|]. split; [rewrite H3; reflexivity|exact H4].
        -- intros ([|i] & H1 & H2 & H3 & H4); cbn in *; [lia|].
           injection H3 as H3. exists i.
           split; [lia|]. split; [lia|]. split; assumption.
      * split; [|reflexivity]. intros _. exists O. cbn.
        split; [lia|]. split; [lia|]. split; [reflexivity|exact H].
      * split; [discriminate|]. intros ([|i] & H1 & H2 & H3 & H4); cbn in *; [lia|].
        injection H3 as H3 _. lia.
Qed.

Lemma lexc_antisym a : forall b, lexc b a = CompOpp (lexc a b).
Proof.
  induction a as [|x a IH]; intros [|y b]; try reflexivity. cbn [lexc].
  rewrite (IH b), (N.compare_antisym x y). destruct (x ?= y); reflexivity.
Qed.

Lemma lexc_eq a : forall b, List.length a = List.length b -> lexc a b = Eq -> a = b.
Proof.
  induction a as [|x a IH]; intros [|y b] L; try discriminate L; [reflexivity|].
  cbn [lexc]. unfold then_cmp. destruct (N.compare_spec x y) as [->|H|H]; try discriminate.
  intros H. rewrite (IH b); [reflexivity|now injection L|exact H].
Qed.

Lemma lexc_refl a : lexc a a = Eq.
Proof. induction a as [|x a IH]; [reflexivity|]. cbn. rewrite N.compare_refl. exact IH. Qed.

Lemma lexc_trans a : forall b c,
  List.length a = List.length b -> List.length b = List.length c ->
  lexc a b = Lt -> lexc b c = Lt -> lexc a c = Lt.
Proof.
  induction a as [|x a IH]; intros [|y b] [|z c] L L'; try discriminate L; try discriminate L';
    [discriminate|].
  injection L as L. injection L' as L'. cbn [lexc]. unfold then_cmp.
  destruct (N.compare_spec x y), (N.compare_spec y z), (N.compare_spec x z); try discriminate;
    try reflexivity; try lia; intros; eapply IH; eassumption.
Qed.

Lemma order_by_fields {A : Type} (cmp : A -> A -> comparison) (fields : A -> list N) :
  (forall a b, List.length (fields a) = List.length (fields b)) ->
  (forall a b, fields a = fields b -> a = b) ->
  (forall a b, cmp a b = lexc (fields a) (fields b)) -> ordered_by cmp fields.
Proof.
  intros L I C. split; [split; [|split]|].
  - intros a b. rewrite C. split.
    + intros H. apply I, lexc_eq; [apply L|exact H].
    + intros ->. apply lexc_refl.
  - intros a b. rewrite !C. apply lexc_antisym.
  - intros a b c. rewrite !C. apply lexc_trans; apply L.
  - intros a b. rewrite C. apply lexc_lt.
Qed.

Lemma then_cmp_Eq a : then_cmp a Eq = a.
Proof. destruct a; reflexivity. Qed.

(** Every comparison derived for an ABI structure, and for the variant data, is the total order
    by its fields in declaration order. *)
Lemma pf_C69_fields :
  ordered_by FatPointer_cmp fat_pointer_fields /\
  ordered_by FarCallABI_cmp far_call_fields /\
  ordered_by RetABI_cmp ret_fields /\
  ordered_by NearCallABI_cmp (fun a => [nc_ergs_passed a]) /\
  ordered_by PrecompileCallABI_cmp precompile_fields /\
  ordered_by PrecompileCallInnerABI_cmp inner_fields /\
  ordered_by VmMetaParameters_cmp meta_fields /\
  ordered_by OpcodeVariantData_cmp variant_data_fields.
Proof.
  repeat match goal with |- _ /\ _ => split end;
    (apply order_by_fields; [reflexivity| |]).
  - intros [? ? ? ?] [? ? ? ?] H. injection H as -> -> -> ->. reflexivity.
  - intros a b. cbn. rewrite then_cmp_Eq. reflexivity.
  - intros [[? ? ? ?] ? ? m c t] [[? ? ? ?] ? ? m' c' t'] H. cbn in H.
    injection H as -> -> -> -> -> -> Hm Hc Ht.
    assert (m = m') as -> by (destruct m, m'; try discriminate Hm; reflexivity).
    assert (c = c') as -> by (destruct c, c'; try discriminate Hc; reflexivity).
    assert (t = t') as -> by (destruct t, t'; try discriminate Ht; reflexivity).
    reflexivity.
  - intros [? ? ? m c t] [? ? ? m' c' t']. cbn. unfold FarCallABI_cmp, FatPointer_cmp. cbn.
    rewrite !then_cmp_assoc, then_cmp_Eq, !bool_cmp_key.
    destruct c, c', t, t', m, m'; reflexivity.
  - intros [[? ? ? ?] m] [[? ? ? ?] m'] H. cbn in H. injection H as -> -> -> -> Hm.
    assert (m = m') as -> by (destruct m, m'; try discriminate Hm; reflexivity). reflexivity.
  - intros [? m] [? m']. cbn. unfold RetABI_cmp, FatPointer_cmp. cbn.
    rewrite !then_cmp_assoc, then_cmp_Eq. destruct m, m'; reflexivity.
  - intros [?] [?] H. injection H as ->. reflexivity.
  - intros a b. cbn. rewrite then_cmp_Eq. reflexivity.
  - intros [] [] H. injection H as -> -> -> -> ->. reflexivity.
  - intros a b. cbn. rewrite then_cmp_Eq. reflexivity.
  - intros [] [] H. injection H as -> -> -> -> -> -> ->. reflexivity.
  - intros a b. cbn. rewrite then_cmp_Eq. reflexivity.
  - intros [] [] H. injection H as -> -> -> -> -> ->. reflexivity.
  - intros a b. cbn. rewrite then_cmp_Eq. reflexivity.
  - intros [] [] H. injection H as -> -> ->. reflexivity.
  - intros a b. cbn. rewrite then_cmp_Eq. reflexivity.
Qed.

Lemma digit_lex r a a' b b' : b < r -> b' < r ->
  (b + r * a ?= b' + r * a') = then_cmp (a ?= a') (b ?= b').
Proof. intros H H'. rewrite (N.add_comm b), (N.add_comm b'). apply digit_cmp; assumption. Qed.

(** Packed into a 256-bit word the same fields count in the opposite order. *)
Lemma pf_C69_packed :
  (forall p q, fat_pointer_ok p -> fat_pointer_ok q ->
     (u256_value (FatPointer_to_u256 p) < u256_value (FatPointer_to_u256 q) <->
      lex_before (rev (fat_pointer_fields p)) (rev (fat_pointer_fields q)))) /\
  (forall p q, inner_ok p -> inner_ok q ->
     (u256_value (PrecompileCallInnerABI_to_u256 p) < u256_value (PrecompileCallInnerABI_to_u256 q) <->
      lex_before (rev (inner_fields p)) (rev (inner_fields q)))) /\
  (forall p q, meta_ok p -> meta_ok q ->
     (u256_value (VmMetaParameters_to_u256 p) < u256_value (VmMetaParameters_to_u256 q) <->
      lex_before (rev (meta_fields p)) (rev (meta_fields q)))).
Proof.
  split; [|split].
  - intros p q Hp Hq.
    destruct (pf_C38_pack p Hp) as (_ & _ & -> & _). destruct (pf_C38_pack q Hq) as (_ & _ & -> & _).
    rewrite <- lexc_lt, <- N.compare_lt_iff.
    destruct Hp as (P0 & P1 & P2 & P3), Hq as (Q0 & Q1 & Q2 & Q3).
    cbn [fat_pointer_fields rev app lexc]. rewrite then_cmp_Eq.
    assert (V : forall a b c d, a + 2 ^ 32 * b + 2 ^ 64 * c + 2 ^ 96 * d
      = a + 2 ^ 32 * (b + 2 ^ 32 * (c + 2 ^ 32 * d))) by (intros; lia).
    rewrite !V, !digit_lex by assumption. rewrite !then_cmp_assoc. reflexivity.
  - intros p q Hp Hq.
    destruct (proj1 pf_C43_inner p Hp) as (_ & _ & ->). destruct (proj1 pf_C43_inner q Hq) as (_ & _ & ->).
    rewrite <- lexc_lt, <- N.compare_lt_iff.
    destruct Hp as (P0 & P1 & P2 & P3 & P4 & P5 & P6), Hq as (Q0 & Q1 & Q2 & Q3 & Q4 & Q5 & Q6).
    cbn [inner_fields rev app lexc]. rewrite then_cmp_Eq.
    assert (V : forall a b c d e f g,
      a + 2 ^ 32 * b + 2 ^ 64 * c + 2 ^ 96 * d + 2 ^ 128 * e + 2 ^ 160 * f + 2 ^ 192 * g
      = a + 2 ^ 32 * (b + 2 ^ 32 * (c + 2 ^ 32 * (d + 2 ^ 32 * (e + 2 ^ 32 * (f + 2 ^ 32 * g))))))
      by (intros; lia).
    rewrite !V, !digit_lex by assumption. rewrite !then_cmp_assoc. reflexivity.
  - intros p q Hp Hq.
    destruct (pf_C44_layout p Hp) as (_ & ->). destruct (pf_C44_layout q Hq) as (_ & ->).
    rewrite <- lexc_lt, <- N.compare_lt_iff.
    destruct Hp as (P0 & P1 & P2 & P3 & P4 & P5), Hq as (Q0 & Q1 & Q2 & Q3 & Q4 & Q5).
    cbn [meta_fields rev app lexc]. rewrite then_cmp_Eq.
    assert (V : forall a b c d e f,
      a + 2 ^ 64 * b + 2 ^ 96 * c + 2 ^ 224 * d + 2 ^ 232 * e + 2 ^ 240 * f
      = a + 2 ^ 64 * (b + 2 ^ 32 * (c + 2 ^ 128 * (d + 2 ^ 8 * (e + 2 ^ 8 * f)))))
      by (intros; lia).
    assert (W : forall a, a < 2 ^ 32 -> a < 2 ^ 64 /\ a < 2 ^ 128) by (intros; lia).
    rewrite !V, !digit_lex by (assumption || apply W; assumption).
    rewrite !then_cmp_assoc. reflexivity.
Qed.

(** Expected: packing preserves the order.  False of all three packed structures. *)
Lemma pf_C69_refuted :
  ~ (forall p q, fat_pointer_ok p -> fat_pointer_ok q -> FatPointer_cmp p q = Lt ->
       u256_value (FatPointer_to_u256 p) < u256_value (FatPointer_to_u256 q)) /\
  ~ (forall p q, inner_ok p -> inner_ok q -> PrecompileCallInnerABI_cmp p q = Lt ->
       u256_value (PrecompileCallInnerABI_to_u256 p) < u256_value (PrecompileCallInnerABI_to_u256 q)) /\
  ~ (forall p q, meta_ok p -> meta_ok q -> VmMetaParameters_cmp p q = Lt ->
       u256_value (VmMetaParameters_to_u256 p) < u256_value (VmMetaParameters_to_u256 q)).
Proof.
  split; [|split]; intros H; assert (X : Gt = Lt); try discriminate X.
  - apply (H (mkFatPointer 0 0 0 1) (mkFatPointer 1 0 0 0)); repeat split; reflexivity.
  - apply (H (mkPrecompileCallInnerABI 0 0 0 0 0 0 1) (mkPrecompileCallInnerABI 1 0 0 0 0 0 0));
      repeat split; reflexivity.
  - apply (H (mkVmMetaParameters 0 0 0 0 0 1) (mkVmMetaParameters 1 0 0 0 0 0));
      repeat split; reflexivity.
Qed.

(** Unpacked near-call parameters are ordered as the low 32 bits of the words; forwarding modes
    as their bytes, for the three defined bytes. *)
Lemma pf_C69_unpacked :
  (forall v w, u256_ok v -> u256_ok w ->
     NearCallABI_cmp (NearCallABI_from_u256 v) (NearCallABI_from_u256 w)
     = (u256_value v mod 2 ^ 32 ?= u256_value w mod 2 ^ 32)) /\
  (forall b c, b < 3 -> c < 3 ->
     FarCallForwardPageType_cmp (FarCallForwardPageType_from_u8 b) (FarCallForwardPageType_from_u8 c)
     = (b ?= c) /\
     RetForwardPageType_cmp (RetForwardPageType_from_u8 b) (RetForwardPageType_from_u8 c) = (b ?= c)) /\
  total_order FarCallForwardPageType_cmp /\ total_order RetForwardPageType_cmp.
Proof.
  split; [|split; [|split]].
  - intros v w Hv Hw. unfold NearCallABI_cmp. rewrite !pf_C42_layout by assumption. reflexivity.
  - intros b c Hb Hc.
    assert (B : b = 0 \/ b = 1 \/ b = 2) by lia. assert (C : c = 0 \/ c = 1 \/ c = 2) by lia.
    destruct B as [->|[->| ->]], C as [->|[->| ->]]; split; reflexivity.
  - apply (order_by_key FarCallForwardPageType_discriminant); [reflexivity|].
    intros [] [] H; try discriminate H; reflexivity.
  - apply (order_by_key RetForwardPageType_discriminant); [reflexivity|].
    intros [] [] H; try discriminate H; reflexivity.
Qed.

Example pf_C69_example :
  let p := mkVmMetaParameters 7 100 5 1 0 2 in
  let q := mkVmMetaParameters 7 101 4 1 0 1 in
  meta_ok p /\ meta_ok q /\ VmMetaParameters_cmp p q = Lt /\
  u256_value (VmMetaParameters_to_u256 q) < u256_value (VmMetaParameters_to_u256 p) /\
  lex_before (meta_fields p) (meta_fields q).
Proof.
  cbv zeta. do 2 (split; [repeat split; reflexivity|]). split; [reflexivity|].
  split; [reflexivity|]. exists 1%nat. cbn. repeat split; lia.
Qed.
