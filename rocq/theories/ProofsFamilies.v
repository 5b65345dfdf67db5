(** * Proofs of the family, addressing-mode and small-helper properties
    (C29-C37, C57, C59, C60). *)

From Coq Require Import Arith NArith Lia ZArith List Bool String.
From Coq Require Import ZifyBool ZifyNat ZifyN.
From Verif Require Import Machine Constants Operands OpcodeTrait Opcodes AllOpcodes Tables
  Decoding SpecIsa SpecFamilies.
From Verif Require Import BitLemmas TableProofs TableProofs2 TableProofs3.
Import ListNotations.
Open Scope N_scope.

(** ** C29 *)

(** In every family the index functions are mutually inverse on [0..n-1]. *)
Lemma pf_C29_numbering :
  for_all_families spec_numbered.
Proof. exact families_numbered. Qed.

(** Making an opcode of the same family from an index: it succeeds exactly below the family
    size, stays in the family and has that index. *)
Lemma pf_C29_materialize :
  forall o i v,
    (i < spec_sub_count o ->
     exists o', Opcode_materialize_subvariant_from_prototype o i v = Ok o' /\
       spec_family o' = spec_family o /\ spec_sub o' = i) /\
    (spec_sub_count o <= i ->
     Opcode_materialize_subvariant_from_prototype o i v = Panic).
Proof.
  intros o i v. split; intros Hi.
  - small_index i; each_opcode o; cbn in Hi; try lia;
      (eexists; split; [reflexivity|split; reflexivity]).
  - assert (F := families_numbered).
    destruct F as (F0 & F1 & F2 & F3 & F4 & F5 & F6 & F7 & F8 & F9 & F10 & F11 & F12 & F13
                   & F14 & F15).
    destruct o; cbn in Hi; unfold Opcode_materialize_subvariant_from_prototype;
      match goal with
      | |- (let* _ := unwrap (from_variant_index_for_version ?P i v) in _) = _ =>
          match goal with
          | F : spec_numbered _ P _ |- _ =>
              destruct F as (_ & G & _);
              assert (E : from_variant_index_for_version P i v = None)
                by (apply G; destruct inner; exact Hi);
              rewrite E; reflexivity
          end
      end.
Qed.

(** The family number and the number within the family identify the opcode. *)
Lemma pf_C29_indices :
  (forall o, Opcode_variant_idx o = spec_family o /\
     Opcode_materialize_subvariant_idx o = spec_sub o /\
     spec_family o < 16 /\ spec_sub o < spec_sub_count o) /\
  (forall o o', Opcode_variant_idx o = Opcode_variant_idx o' ->
     Opcode_materialize_subvariant_idx o = Opcode_materialize_subvariant_idx o' -> o = o').
Proof.
  split.
  - intros o. split; [apply family_eq|]. split; [apply sub_eq|].
    split; [apply family_lt|apply sub_lt].
  - intros o o'. rewrite !family_eq, !sub_eq. apply opcode_by_numbers.
Qed.

Example pf_C29_example :
  Opcode_materialize_subvariant_from_prototype (Op_Context ContextOpcode_This) 9 0
    = Ok (Op_Context ContextOpcode_IncrementTxNumber) /\
  Opcode_materialize_subvariant_from_prototype (Op_Context ContextOpcode_This) 10 0 = Panic.
Proof. split; reflexivity. Qed.

(** ** C30 *)

(** What the availability queries answer, for every family and version. *)
Lemma pf_C30_actual :
  for_all_families spec_availability.
Proof.
  unfold for_all_families.
  repeat match goal with |- _ /\ _ => split end;
    (intros v; split; [intros []; reflexivity|]);
    (split; [intros []; destruct v; cbn; split; intros K; try discriminate K; reflexivity|]);
    (split; [intros []; destruct v; cbn; split; intros K; try discriminate K; reflexivity|]);
    destruct v; split; reflexivity.
Qed.

(** Expected: a variant introduced in version [m] is available from [m] on.  False: heap
    reads exist since version 0, are in the version-1 table, and are reported unavailable in
    version 1. *)
Lemma pf_C30_refuted :
  ~ (forall (x : UMAOpcode) v, minimal_version UMAOpcode_VariantProps x <= v ->
       is_available_for_version UMAOpcode_VariantProps x v = true) /\
  variants_for_version UMAOpcode_VariantProps 1 = [] /\
  (exists t x, OPCODES_TABLE = Ok t /\ In x t /\ opcode x = Op_UMA UMAOpcode_HeapRead).
Proof.
  split; [|split; [reflexivity|]].
  - intros H. specialize (H UMAOpcode_HeapRead 1). cbn in H.
    assert (false = true) by (apply H; lia). discriminate.
  - exists padded_table, (mkOpcodeVariant (Op_UMA UMAOpcode_HeapRead) (RegOrImm RI_UseRegOnly)
                            RegOnly (false, false)).
    split; [apply OPCODES_TABLE_eq|]. split; [apply padded_In; reflexivity|reflexivity].
Qed.

(** The rule the code implements for any implementation of the trait: available up to, not
    from, the introducing version. *)
Lemma pf_C30_rule :
  forall T (P : OpcodeVariantProps T) x v,
    (is_available_for_version P x v = true <-> v <= minimal_version P x) /\
    (is_added_in_version P x v = true <-> v = minimal_version P x) /\
    (In x (variants_for_version P v) <-> In x (all_variants P) /\ v <= minimal_version P x) /\
    (In x (variants_added_in_version P v) <-> In x (all_variants P) /\ v = minimal_version P x).
Proof.
  intros T P x v.
  assert (A : is_available_for_version P x v = true <-> v <= minimal_version P x)
    by (unfold is_available_for_version; lia).
  assert (B : is_added_in_version P x v = true <-> v = minimal_version P x)
    by (unfold is_added_in_version; lia).
  split; [exact A|]. split; [exact B|].
  unfold variants_for_version, variants_added_in_version. rewrite !filter_In, A, B. tauto.
Qed.

Example pf_C30_example :
  is_available_for_version UMAOpcode_VariantProps UMAOpcode_HeapRead 0 = true /\
  is_available_for_version UMAOpcode_VariantProps UMAOpcode_HeapRead 1 = false /\
  variants_for_version ShiftOpcode_VariantProps 0
  = [ShiftOpcode_Shl; ShiftOpcode_Shr; ShiftOpcode_Rol; ShiftOpcode_Ror] /\
  variants_added_in_version ShiftOpcode_VariantProps 1 = [].
Proof. repeat split. Qed.

(** ** C31 *)

(** The largest index each family reports: right everywhere except [Ptr], which reports 2
    while its size is 4. *)
Lemma pf_C31_actual :
  (forall o v, max_variant_idx (spec_props o) v =
     if spec_is_uma o && (1 <? v) then Panic
     else Ok (match o with Op_Ptr _ => 2 | _ => spec_sub_count o - 1 end)) /\
  for_all_families (fun T P n => forall v,
     max_variant_idx_for_version P v = Ok (n - 1) \/
     (n = 5 /\ 1 < v /\ max_variant_idx_for_version P v = Panic)) /\
  (forall v, v <= 1 -> for_all_families (fun T P n =>
     max_variant_idx_for_version P v = Ok (n - 1))) /\
  (forall v, max_variant_idx_for_version LogOpcode_VariantProps v = Ok 4 /\
     max_variant_idx_for_version UMAOpcode_VariantProps v = if 1 <? v then Panic else Ok 4).
Proof.
  split; [|split; [|split]].
  - intros o v. destruct v as [|[p|p|]]; each_opcode o; reflexivity.
  - unfold for_all_families. repeat match goal with |- _ /\ _ => split end;
      intros v; try (left; reflexivity).
    destruct v as [|[p|p|]]; [left|right|right|left]; try reflexivity; (split; [reflexivity|]);
      (split; [lia|reflexivity]).
  - intros v Hv. destruct v as [|[p|p|]]; try lia; unfold for_all_families; repeat split.
  - intros v. split; [reflexivity|]. destruct v as [|[p|p|]]; reflexivity.
Qed.

(** Expected: every index of a family is at most its reported maximum.  False for
    [ptr.shrink], which is in the table. *)
Lemma pf_C31_refuted :
  ~ (forall o v m, max_variant_idx (spec_props o) v = Ok m ->
       Opcode_materialize_subvariant_idx o <= m) /\
  max_variant_idx (spec_props (Op_Ptr PtrOpcode_Shrink)) 1 = Ok 2 /\
  Opcode_materialize_subvariant_idx (Op_Ptr PtrOpcode_Shrink) = 3 /\
  (exists t x, OPCODES_TABLE = Ok t /\ In x t /\ opcode x = Op_Ptr PtrOpcode_Shrink).
Proof.
  split; [|split; [reflexivity|split; [reflexivity|]]].
  - intros H. specialize (H (Op_Ptr PtrOpcode_Shrink) 1 2 eq_refl). cbn in H. lia.
  - exists padded_table, (mkOpcodeVariant (Op_Ptr PtrOpcode_Shrink) (Full UseRegOnly)
                            (Full UseRegOnly) (false, false)).
    split; [apply OPCODES_TABLE_eq|]. split; [apply padded_In; reflexivity|reflexivity].
Qed.

(** Every other family is right, and the global bound is a strict bound for all. *)
Lemma pf_C31_bound :
  (forall o v m, (forall p, o <> Op_Ptr p) -> max_variant_idx (spec_props o) v = Ok m ->
     Opcode_materialize_subvariant_idx o <= m /\
     exists o', spec_family o' = spec_family o /\ Opcode_materialize_subvariant_idx o' = m) /\
  (forall o v n, max_num_variants_for_version v = Ok n ->
     Opcode_materialize_subvariant_idx o < n).
Proof.
  split.
  - intros o v m Hp H. rewrite sub_eq. rewrite (proj1 pf_C31_actual) in H.
    destruct (spec_is_uma o && (1 <? v)); [discriminate|].
    assert (S := sub_lt o).
    destruct (pf_C29_materialize o (spec_sub_count o - 1) 0) as [G _].
    destruct G as (o' & _ & Hf & Hs); [lia|].
    assert (Hm : m = spec_sub_count o - 1).
    { destruct o; injection H as <-; try reflexivity. destruct (Hp inner eq_refl). }
    subst m. split; [lia|]. exists o'. split; [exact Hf|]. rewrite sub_eq. exact Hs.
  - intros o v n H. rewrite max_num_variants_eq in H. destruct (v <=? 1); [|discriminate].
    injection H as <-. rewrite sub_eq. assert (S := sub_lt o). assert (C := sub_count_le o). lia.
Qed.

Example pf_C31_example :
  max_variant_idx (spec_props (Op_Log LogOpcode_Event)) 1 = Ok 4 /\
  Opcode_materialize_subvariant_idx (Op_Log LogOpcode_Event) = 3 /\
  max_num_variants_for_version 1 = Ok 10 /\
  max_variant_idx (spec_props (Op_UMA UMAOpcode_HeapRead)) 2 = Panic.
Proof. rewrite max_num_variants_eq. repeat split. Qed.

(** ** C32 *)

(** The two prototype lists describe the same sixteen families in the same order. *)
Lemma pf_C32_lists :
  OPCODE_PROTOTYPES = Ok (map spec_props all_opcode_prototypes) /\
  List.length all_opcode_prototypes = N.to_nat NUM_OPCODES /\ NUM_OPCODES = 16 /\
  (forall p o, nth_error all_opcode_prototypes (N.to_nat p) = Some o ->
     spec_position o = p /\ spec_sub o = 0) /\
  (forall o, exists o', nth_error all_opcode_prototypes (N.to_nat (spec_position o)) = Some o' /\
     spec_family o' = spec_family o) /\
  (forall f, f < 16 -> exists o, In o all_opcode_prototypes /\ Opcode_variant_idx o = f) /\
  (forall o o', In o all_opcode_prototypes -> In o' all_opcode_prototypes ->
     Opcode_variant_idx o = Opcode_variant_idx o' -> o = o').
Proof.
  split; [reflexivity|]. split; [reflexivity|]. split; [reflexivity|].
  split; [|split; [|split]].
  - intros p o H. assert (Hp : (N.to_nat p < 16)%nat).
    { change 16%nat with (List.length all_opcode_prototypes). apply nth_error_Some. congruence. }
    remember (N.to_nat p) as k eqn:Ek. assert (p = N.of_nat k) by lia. subst p. clear Ek.
    do 16 (destruct k as [|k]; [injection H as <-; split; reflexivity|]). lia.
  - intros o. each_opcode o; eexists; split; reflexivity.
  - intros f Hf.
    assert (S : forallb (fun k => existsb (fun o => Opcode_variant_idx o =? N.of_nat k)
                  all_opcode_prototypes) (seq 0 16) = true) by reflexivity.
    rewrite forallb_forall in S. specialize (S (N.to_nat f)).
    assert (I : In (N.to_nat f) (seq 0 16)) by (apply in_seq; lia).
    apply S, existsb_exists in I as (o & Ho & E). exists o. split; [exact Ho|lia].
  - intros o o' Ho Ho' E. rewrite !family_eq in E.
    assert (Z : forall o, In o all_opcode_prototypes -> spec_sub o = 0).
    { intros x Hx. cbn in Hx.
      repeat (destruct Hx as [<-|Hx]; [reflexivity|]). destruct Hx. }
    apply opcode_by_numbers; [exact E|]. rewrite (Z o Ho), (Z o' Ho'). reflexivity.
Qed.

(** Indexing the prototype list by the family number gives the family, except for four. *)
Lemma pf_C32_actual :
  forall o p, nth_error all_opcode_prototypes (N.to_nat (Opcode_variant_idx o)) = Some p ->
    (spec_family p = spec_family o <->
     match o with
     | Op_Context _ | Op_Binop _ | Op_Ptr _ | Op_NearCall _ => False
     | _ => True
     end).
Proof.
  intros o p H. destruct o; cbn in H; injection H as <-; cbn; split; intros K; try tauto;
    try discriminate K; reflexivity.
Qed.

(** Expected: position and family number agree.  False for [Context]. *)
Lemma pf_C32_refuted :
  ~ (forall o p, nth_error all_opcode_prototypes (N.to_nat (Opcode_variant_idx o)) = Some p ->
       Opcode_variant_idx p = Opcode_variant_idx o) /\
  nth_error all_opcode_prototypes
    (N.to_nat (Opcode_variant_idx (Op_Context ContextOpcode_This)))
    = Some (Op_Binop BinopOpcode_Xor).
Proof.
  split; [|reflexivity]. intros H.
  specialize (H (Op_Context ContextOpcode_This) (Op_Binop BinopOpcode_Xor) eq_refl).
  discriminate.
Qed.

Example pf_C32_example :
  nth_error all_opcode_prototypes (N.to_nat (Opcode_variant_idx (Op_Shift ShiftOpcode_Rol)))
  = Some (Op_Shift ShiftOpcode_Shl) /\
  nth_error all_opcode_prototypes (N.to_nat (Opcode_variant_idx (Op_Ptr PtrOpcode_Pack)))
  = Some (Op_NearCall nearCallOpcode).
Proof. split; reflexivity. Qed.

(** ** C33 *)

(** The capability queries, for every opcode and version. *)
Lemma pf_C33_actual :
  forall o v,
    Opcode_can_have_src0_from_mem o v =
      (if spec_is_uma o && (1 <? v) then Panic
       else Ok (match spec_addressing 1 o with FullSource | FullBoth => true | _ => false end)) /\
    Opcode_can_write_dst0_into_memory o v =
      Ok (match spec_addressing 1 o with FullBoth => true | _ => false end).
Proof.
  intros o v. destruct v as [|[p|p|]]; each_opcode o; split; reflexivity.
Qed.

(** They say whether the version has a variant of the opcode with a memory operand. *)
Lemma pf_C33_meaning :
  forall v l o, all_variants_in_version v = Ok l ->
    (exists b, Opcode_can_have_src0_from_mem o v = Ok b /\
       (b = true <-> exists x, In x l /\ opcode x = o /\
                       spec_in_memory (src0_operand_type x) = true)) /\
    (exists b, Opcode_can_write_dst0_into_memory o v = Ok b /\
       (b = true <-> exists x, In x l /\ opcode x = o /\
                       spec_in_memory (dst0_operand_type x) = true)).
Proof.
  intros v l o H. rewrite enumeration_eq in H. destruct (v <=? 1) eqn:Hv; [|discriminate].
  injection H as <-. destruct (pf_C33_actual o v) as [-> ->].
  replace (1 <? v) with false by lia. rewrite andb_false_r.
  assert (W : forall x, In x (spec_enumeration v) ->
    spec_operands_ok (spec_addressing v (opcode x)) (src0_operand_type x) (dst0_operand_type x)
      = true).
  { intros x Hx. apply enumeration_In in Hx. apply andb_prop in Hx. apply Hx. }
  assert (Hv' : v = 0 \/ v = 1) by lia. clear Hv.
  split; eexists; (split; [reflexivity|]); split.
  - intros Hb. exists (mkOpcodeVariant o (Full UseCodePage)
      (match spec_addressing v o with FullBoth => Full UseRegOnly | _ => RegOnly end)
      (false, false)).
    split; [|split; reflexivity]. apply enumeration_In.
    destruct Hv' as [-> | ->]; each_opcode o; try discriminate Hb; reflexivity.
  - intros (x & Hx & <- & M). specialize (W x Hx).
    destruct (src0_operand_type x); try discriminate M.
    destruct Hv' as [-> | ->]; destruct (opcode x) as [| | | | | | | | | | | | | | |[]];
      try discriminate W; reflexivity.
  - intros Hb. exists (mkOpcodeVariant o (Full UseCodePage) (Full UseStackWithOffset)
      (false, false)).
    split; [|split; reflexivity]. apply enumeration_In.
    destruct Hv' as [-> | ->]; each_opcode o; try discriminate Hb; reflexivity.
  - intros (x & Hx & <- & M). specialize (W x Hx).
    destruct (dst0_operand_type x); try discriminate M.
    destruct (src0_operand_type x);
      destruct Hv' as [-> | ->]; destruct (opcode x) as [| | | | | | | | | | | | | | |[]];
      try discriminate W; reflexivity.
Qed.

(** Entries per opcode: addressing alternatives times flag combinations. *)
Lemma pf_C33_counts :
  forall v l o, all_variants_in_version v = Ok l ->
    len (filter (fun x => Opcode_beq (opcode x) o) l)
    = spec_num_addressings (spec_addressing v o) * 2 ^ spec_num_flags o.
Proof.
  intros v l o H. rewrite enumeration_eq in H. destruct (v <=? 1) eqn:Hv; [|discriminate].
  injection H as <-.
  assert (F : filter (fun x => Opcode_beq (opcode x) o) (spec_enumeration v)
              = spec_variants_of v o).
  { unfold spec_enumeration. assert (ND := NoDup_opcodes). assert (I := all_opcodes_complete o).
    assert (Z : forall a, filter (fun x => Opcode_beq (opcode x) o) (spec_variants_of v a)
                          = if Opcode_beq a o then spec_variants_of v a else []).
    { intros a.
      assert (P : forall x, In x (spec_variants_of v a) -> opcode x = a).
      { unfold spec_variants_of. intros x Hx. apply in_flat_map in Hx as (s & _ & Hx).
        apply in_flat_map in Hx as (d & _ & Hx). apply filter_In in Hx as [Hx _].
        apply in_map_iff in Hx as (f & <- & _). reflexivity. }
      induction (spec_variants_of v a) as [|x r IH]; [destruct (Opcode_beq a o); reflexivity|].
      cbn [filter]. rewrite (P x (or_introl eq_refl)), IH
        by (intros y Hy; apply P; right; exact Hy).
      destruct (Opcode_beq a o); reflexivity. }
    induction spec_all_opcodes as [|a r IH]; [destruct I|].
    inversion ND as [|? ? Ha Hr]; subst. cbn [flat_map]. rewrite filter_app, Z.
    destruct (Opcode_beq a o) eqn:E.
    - apply Opcode_beq_iff in E. subst a.
      assert (N0 : filter (fun x => Opcode_beq (opcode x) o) (flat_map (spec_variants_of v) r) = []).
      { clear IH ND I Hr. induction r as [|b r IH]; [reflexivity|].
        cbn [flat_map]. rewrite filter_app, Z.
        destruct (Opcode_beq b o) eqn:E.
        - apply Opcode_beq_iff in E. subst b. destruct Ha. left. reflexivity.
        - apply IH. intros H. apply Ha. right. exact H. }
      rewrite N0, app_nil_r. reflexivity.
    - cbn [app]. apply IH; [exact Hr|]. destruct I as [->|I]; [|exact I].
      assert (Opcode_beq o o = true) by (apply Opcode_beq_iff; reflexivity). congruence. }
  rewrite F. assert (Hv' : v = 0 \/ v = 1) by lia. clear F Hv.
  destruct Hv' as [-> | ->]; each_opcode o; reflexivity.
Qed.

(** The rule for any implementation of the trait: the first operand decides; a destination
    that may be an immediate is a panic. *)
Lemma pf_C33_rule :
  forall (P : OpcodeProps) v,
    (can_have_src0_from_mem P v = Ok true <-> exists f r, input_operands P v = Ok (Full f :: r)) /\
    (can_have_src0_from_mem P v = Panic <-> input_operands P v = Panic) /\
    (can_write_dst0_into_memory P v = Ok true <->
       exists f r, output_operands P v = Ok (Full f :: r)) /\
    (can_write_dst0_into_memory P v = Panic <->
       output_operands P v = Panic \/ exists f r, output_operands P v = Ok (RegOrImm f :: r)).
Proof.
  intros P v. unfold can_have_src0_from_mem, can_write_dst0_into_memory.
  destruct (input_operands P v) as [[|[| |] i]|], (output_operands P v) as [[|[| |] o]|];
    cbn [bind]; repeat split; intros H;
    try discriminate H; try (destruct H as (? & ? & H); discriminate H);
    try (destruct H as [H|(? & ? & H)]; discriminate H); eauto.
Qed.

Example pf_C33_example :
  Opcode_can_have_src0_from_mem (Op_Jump jumpOpcode) 0 = Ok true /\
  Opcode_can_write_dst0_into_memory (Op_Jump jumpOpcode) 0 = Ok false /\
  Opcode_can_have_src0_from_mem (Op_UMA UMAOpcode_HeapRead) 2 = Panic.
Proof. repeat split. Qed.

(** ** C34 *)

(** Which flag swaps the operands. *)
Lemma pf_C34_swap :
  forall x, OpcodeVariant_swap_operands x =
    match opcode x with
    | Op_Sub _ | Op_Div _ | Op_Shift _ => snd (flags x)
    | Op_Ptr _ => fst (flags x)
    | _ => false
    end.
Proof. intros [o s d f]. destruct o; reflexivity. Qed.

(** A table entry never sets a flag its opcode does not have. *)
Lemma pf_C34_unused_flags :
  exists t, OPCODES_TABLE = Ok t /\
    forall x, In x t ->
      (spec_num_flags (opcode x) = 0 -> flags x = (false, false)) /\
      (spec_num_flags (opcode x) = 1 -> snd (flags x) = false) /\
      spec_num_flags (opcode x) <= 2.
Proof.
  exists padded_table. split; [apply OPCODES_TABLE_eq|]. intros x Hx.
  apply padded_In, andb_prop in Hx as [_ Hf]. destruct (flags x) as [f0 f1].
  split; [|split].
  - intros E. rewrite E in Hf. destruct f0, f1; try discriminate Hf; reflexivity.
  - intros E. rewrite E in Hf. destruct f0, f1; try discriminate Hf; reflexivity.
  - destruct x as [o s d f]. cbn. each_opcode o; cbn; discriminate.
Qed.

Example pf_C34_example :
  OpcodeVariant_swap_operands
    (mkOpcodeVariant (Op_Sub SubOpcode_Sub) (Full UseRegOnly) (Full UseRegOnly) (false, true))
    = true /\
  OpcodeVariant_swap_operands
    (mkOpcodeVariant (Op_Ptr PtrOpcode_Sub) (Full UseRegOnly) (Full UseRegOnly) (false, true))
    = false.
Proof. split; reflexivity. Qed.

(** ** C35 *)

(** Conditions and the numbers 0..7 correspond one to one. *)
Lemma pf_C35_conditions :
  (forall i, i < 8 -> exists c, Condition_materialize_variant i = Ok c /\
     Condition_variant_index c = i /\ nth_error ALL_CONDITIONS (N.to_nat i) = Some c) /\
  (forall i, 8 <= i -> Condition_materialize_variant i = Panic) /\
  (forall c, Condition_materialize_variant (Condition_variant_index c) = Ok c /\
     Condition_variant_index c < 8) /\
  List.length ALL_CONDITIONS = N.to_nat Condition_NUM_VARIANTS.
Proof.
  split; [|split; [|split; [|reflexivity]]].
  - intros i Hi. small_index i; try lia; eexists; split; try reflexivity; split; reflexivity.
  - intros i Hi. unfold Condition_materialize_variant, Condition_NUM_VARIANTS.
    replace (i <? 8) with false by lia. reflexivity.
  - intros []; split; reflexivity.
Qed.

(** The numbering of the eight conditions. *)
Lemma pf_C35_numbers :
  map Condition_variant_index [Always; Gt_; Lt_; Eq_; Ge_; Le_; Ne_; GtOrLt]
  = [0; 1; 2; 3; 4; 5; 6; 7].
Proof. reflexivity. Qed.

Example pf_C35_example :
  Condition_materialize_variant 7 = Ok GtOrLt /\ Condition_materialize_variant 8 = Panic.
Proof. split; reflexivity. Qed.

(** ** C36 *)

Lemma wrapping_sub_add w a b : a < 2 ^ w -> b < 2 ^ w ->
  (wrapping_sub_w w a b + b) mod 2 ^ w = a.
Proof.
  intros Ha Hb. unfold wrapping_sub_w. rewrite N.add_mod_idemp_l by lia.
  replace (a + (2 ^ w - b) + b) with (a + 1 * 2 ^ w) by lia.
  rewrite N.mod_add by lia. apply N.mod_small, Ha.
Qed.

Lemma wrapping_add_sub w a b : a < 2 ^ w -> b < 2 ^ w ->
  wrapping_sub_w w (wrapping_add_w w a b) b = a.
Proof.
  intros Ha Hb. unfold wrapping_sub_w, wrapping_add_w. rewrite N.add_mod_idemp_l by lia.
  replace (a + b + (2 ^ w - b)) with (a + 1 * 2 ^ w) by lia.
  rewrite N.mod_add by lia. apply N.mod_small, Ha.
Qed.

(** [u16] and [u32] program counters: clipping and wrap-around arithmetic. *)
Lemma pf_C36_arithmetic :
  forall P w, (P, w) = (u16_PcOrImm, 16) \/ (P, w) = (u32_PcOrImm, 32) ->
    (forall x, from_u64_clipped P x = x mod 2 ^ w /\ from_u64_clipped P x < 2 ^ w) /\
    (forall x, x < 2 ^ w -> pc_as_u64 P x = x /\ from_u64_clipped P (pc_as_u64 P x) = x) /\
    (forall a b, a < 2 ^ w -> b < 2 ^ w ->
       pc_wrapping_add P a b = (a + b) mod 2 ^ w /\
       pc_wrapping_sub P a b < 2 ^ w /\
       (pc_wrapping_sub P a b + b) mod 2 ^ w = a /\
       pc_wrapping_sub P (pc_wrapping_add P a b) b = a /\
       pc_wrapping_add P (pc_wrapping_sub P a b) b = a) /\
    pc_max P + 1 = 2 ^ w.
Proof.
  intros P w [E|E]; injection E as -> ->; cbn [from_u64_clipped pc_as_u64 pc_wrapping_add
    pc_wrapping_sub pc_max u16_PcOrImm u32_PcOrImm].
  - split; [|split; [|split; [|reflexivity]]].
    + intros x. unfold as_u16. split; [reflexivity|]. apply N.mod_lt. discriminate.
    + intros x Hx. unfold as_u16, as_u64. rewrite (N.mod_small x (2 ^ 64)) by lia.
      split; [reflexivity|]. apply N.mod_small, Hx.
    + intros a b Ha Hb. split; [reflexivity|].
      split; [apply N.mod_lt; discriminate|]. split; [apply wrapping_sub_add; assumption|].
      split; [apply wrapping_add_sub; assumption|]. apply wrapping_sub_add; assumption.
  - split; [|split; [|split; [|reflexivity]]].
    + intros x. unfold as_u32. split; [reflexivity|]. apply N.mod_lt. discriminate.
    + intros x Hx. unfold as_u32, as_u64. rewrite (N.mod_small x (2 ^ 64)) by lia.
      split; [reflexivity|]. apply N.mod_small, Hx.
    + intros a b Ha Hb. split; [reflexivity|].
      split; [apply N.mod_lt; discriminate|]. split; [apply wrapping_sub_add; assumption|].
      split; [apply wrapping_add_sub; assumption|]. apply wrapping_sub_add; assumption.
Qed.

Example pf_C36_example :
  pc_wrapping_sub u16_PcOrImm 3 5 = 65534 /\ pc_wrapping_add u16_PcOrImm 65535 2 = 1 /\
  from_u64_clipped u32_PcOrImm (2 ^ 40 + 7) = 7.
Proof. repeat split. Qed.

(** ** C37 *)

(** Bytes and pairs of nibbles. *)
Lemma pf_C37_nibbles :
  (forall b, b < 256 ->
     split_as_u4 b = (b mod 16, b / 16) /\ fst (split_as_u4 b) < 16 /\ snd (split_as_u4 b) < 16 /\
     forall bld, merge_u4 bld (fst (split_as_u4 b)) (snd (split_as_u4 b)) = Ok b) /\
  (forall bld lo hi, lo < 16 -> hi < 16 ->
     merge_u4 bld lo hi = Ok (lo + 16 * hi) /\ split_as_u4 (lo + 16 * hi) = (lo, hi)) /\
  (forall lo hi, lo < 256 -> hi < 256 ->
     (merge_u4 Debug lo hi = Panic <-> 16 <= lo \/ 16 <= hi) /\
     merge_u4 Release lo hi = Ok (N.lor lo (16 * hi mod 256))).
Proof.
  assert (S : forall b, split_as_u4 b = (b mod 16, b / 16)).
  { intros b. unfold split_as_u4. f_equal.
    - change (shl 8 1 4 - 1) with (N.ones 4). rewrite N.land_ones. reflexivity.
    - unfold shr. rewrite N.shiftr_div_pow2. reflexivity. }
  assert (M : forall bld lo hi, lo < 16 -> hi < 16 -> merge_u4 bld lo hi = Ok (lo + 16 * hi)).
  { intros bld lo hi Hl Hh. unfold merge_u4, debug_assert_.
    replace (lo <? 16) with true by lia. replace (hi <? 16) with true by lia.
    assert (E : N.lor lo (shl 8 hi 4) = lo + 16 * hi).
    { unfold shl. rewrite N.shiftl_mul_pow2, N.mod_small by lia.
      rewrite N.mul_comm. change (2 ^ 4) with 16.
      rewrite N.lor_comm. rewrite N.add_comm. symmetry.
      rewrite <- N.lxor_lor, N.add_nocarry_lxor; [reflexivity| |];
      apply N.bits_inj_0; intros k; rewrite N.land_spec;
      (destruct (N.lt_ge_cases k 4) as [Hk|Hk];
       [replace (16 * hi) with (N.shiftl hi 4) by (rewrite N.shiftl_mul_pow2; lia);
        rewrite N.shiftl_spec_low by exact Hk; reflexivity|
        replace (N.testbit lo k) with false; [apply andb_false_r|];
        symmetry; rewrite <- (N.mod_small lo (2 ^ 4)) by exact Hl;
        apply N.mod_pow2_bits_high; exact Hk]). }
    destruct bld; cbn [assert_ bind]; rewrite E; reflexivity. }
  split; [|split].
  - intros b Hb. rewrite S. cbn [fst snd].
    assert (b mod 16 < 16) by (apply N.mod_lt; discriminate).
    assert (b / 16 < 16) by (apply N.div_lt_upper_bound; [discriminate|exact Hb]).
    split; [reflexivity|]. split; [assumption|]. split; [assumption|].
    intros bld. rewrite M by assumption. f_equal.
    rewrite (N.div_mod b 16) at 3 by discriminate. lia.
  - intros bld lo hi Hl Hh. split; [apply M; assumption|]. rewrite S. f_equal.
    + rewrite N.mul_comm, N.mod_add by discriminate. apply N.mod_small, Hl.
    + rewrite N.mul_comm, N.div_add by discriminate. rewrite N.div_small by exact Hl. lia.
  - intros lo hi Hl Hh. split.
    + unfold merge_u4. cbn [debug_assert_].
      destruct (lo <? 16) eqn:E1; cbn [assert_ bind];
        [destruct (hi <? 16) eqn:E2; cbn [assert_ bind]|]; split; intros K;
        try discriminate K; try reflexivity; lia.
    + unfold merge_u4, shl. cbn [debug_assert_ bind].
      rewrite N.shiftl_mul_pow2, (N.mul_comm hi). reflexivity.
Qed.

Example pf_C37_example :
  split_as_u4 165 = (5, 10) /\ merge_u4 Debug 5 10 = Ok 165 /\ merge_u4 Debug 16 0 = Panic /\
  merge_u4 Release 16 17 = Ok 16.
Proof. repeat split. Qed.

(** ** C57 *)

(** The known versions not above a given one, in order. *)
Lemma pf_C57_versions :
  forall v, all_backward_compatible_versions v = (if v =? 0 then [0] else [0; 1]) /\
    (forall u, In u (all_backward_compatible_versions v) <-> In u ALL_ISA_VERSIONS /\ u <= v) /\
    (forall u, In u ALL_ISA_VERSIONS <-> u < NUM_ISA_VERSIONS) /\
    ISAVersion_as_index v = v.
Proof.
  intros v.
  assert (E : all_backward_compatible_versions v = (if v =? 0 then [0] else [0; 1])).
  { destruct v as [|[p|p|]]; reflexivity. }
  split; [exact E|]. split; [|split; [|reflexivity]].
  - intros u. rewrite E. cbn. destruct (v =? 0) eqn:Hv; cbn; lia.
  - intros u. cbn. unfold NUM_ISA_VERSIONS. lia.
Qed.

Example pf_C57_example :
  all_backward_compatible_versions 0 = [0] /\ all_backward_compatible_versions 255 = [0; 1].
Proof. split; reflexivity. Qed.

(** ** C59 *)

(** Addressing modes: numbers, counts and classification. *)
Lemma pf_C59_modes :
  (forall f, ImmMemHandlerFlags_variant_index f = spec_mode f /\
     ImmMemHandlerFlags_encoding_byte f = spec_mode f /\
     nth_error ImmMemHandlerFlags_all_variants (N.to_nat (spec_mode f)) = Some f /\
     ImmMemHandlerFlags_is_memory_used f = spec_mem_mode f /\
     ImmMemHandlerFlags_is_allowed_for_dst f = spec_writable f) /\
  (forall r, RegOrImmFlags_variant_index r = spec_operand_mode (RegOrImm r) /\
     RegOrImmFlags_encoding_byte r = spec_operand_mode (RegOrImm r) /\
     In r RegOrImmFlags_all_variants /\
     RegOrImmFlags_is_memory_used r = false /\
     (RegOrImmFlags_is_allowed_for_dst r = true <-> r = RI_UseRegOnly)) /\
  (forall f f', spec_mode f = spec_mode f' -> f = f') /\
  (forall r r', RegOrImmFlags_encoding_byte r = RegOrImmFlags_encoding_byte r' -> r = r') /\
  RegOrImmFlags_encoding_byte RI_UseRegOnly = ImmMemHandlerFlags_encoding_byte UseRegOnly /\
  RegOrImmFlags_encoding_byte RI_UseImm16Only = ImmMemHandlerFlags_encoding_byte UseImm16Only /\
  ImmMemHandlerFlags_num_variants = len ImmMemHandlerFlags_all_variants /\
  ImmMemHandlerFlags_num_src_variants = len ImmMemHandlerFlags_all_variants /\
  ImmMemHandlerFlags_num_dst_variants
    = len (filter ImmMemHandlerFlags_is_allowed_for_dst ImmMemHandlerFlags_all_variants) /\
  RegOrImmFlags_num_variants = len RegOrImmFlags_all_variants /\
  RegOrImmFlags_num_src_variants = len RegOrImmFlags_all_variants /\
  RegOrImmFlags_num_dst_variants
    = len (filter RegOrImmFlags_is_allowed_for_dst RegOrImmFlags_all_variants) /\
  List.length ImmMemHandlerFlags_all_variants = 6%nat /\
  List.length RegOrImmFlags_all_variants = 2%nat.
Proof.
  split; [intros []; repeat split|].
  split. { intros []; repeat split; cbn; auto; discriminate. }
  split; [intros [] []; intros H; try discriminate H; reflexivity|].
  split; [intros [] []; intros H; try discriminate H; reflexivity|].
  repeat split.
Qed.

(** Operand indices stay inside their bitmask fields. *)
Lemma pf_C59_operands :
  (forall s, Operand_variant_idx s = spec_operand_mode s /\ Operand_variant_idx s < 6) /\
  (forall v x, spec_well_formed v x = true -> Operand_variant_idx (dst0_operand_type x) < 4) /\
  (forall s d, Operand_variant_idx s = Operand_variant_idx d ->
     spec_in_memory s = spec_in_memory d).
Proof.
  split; [|split].
  - intros s. rewrite operand_idx_eq. split; [reflexivity|apply operand_mode_lt].
  - intros v x H. apply andb_prop in H as [H _]. rewrite operand_idx_eq.
    destruct (spec_addressing v (opcode x)); destruct (src0_operand_type x) as [|[]|[]];
      destruct (dst0_operand_type x) as [|[]|[]]; try discriminate H; reflexivity.
  - intros s d. destruct s as [|[]|[]], d as [|[]|[]]; intros H; try discriminate H; reflexivity.
Qed.

Example pf_C59_example :
  Operand_variant_idx (RegOrImm RI_UseImm16Only) = Operand_variant_idx (Full UseImm16Only) /\
  ImmMemHandlerFlags_is_allowed_for_dst UseCodePage = false.
Proof. split; reflexivity. Qed.

(** ** C60 *)

(** The descriptor of every opcode: name, listed variants, operands and permissions, with the
    versions each query supports. *)
Lemma pf_C60_descriptors :
  forall o v,
    name (spec_props o) = spec_name o /\
    variants_data (spec_props o) v = (if v <=? 1 then Ok (spec_variants_data o) else Panic) /\
    input_operands (spec_props o) v
      = (if spec_is_uma o && (1 <? v) then Panic else Ok (spec_inputs v o)) /\
    Opcode_input_operands o v
      = (if spec_is_uma o && (1 <? v) then Panic else Ok (spec_inputs v o)) /\
    output_operands (spec_props o) v = Ok (spec_outputs o) /\
    Opcode_output_operands o v = Ok (spec_outputs o) /\
    requires_kernel_mode (spec_props o) = spec_kernel o /\
    can_be_used_in_static_context (spec_props o) = negb (spec_not_static o).
Proof.
  intros o v. destruct v as [|[p|p|]]; each_opcode o; repeat split.
Qed.

(** Two opcodes have the same descriptor name exactly when they belong to one family. *)
Lemma pf_C60_names :
  forall o o', name (spec_props o) = name (spec_props o') <->
    Opcode_variant_idx o = Opcode_variant_idx o'.
Proof.
  intros o o'. destruct o, o'; split; intros H; try reflexivity; discriminate H.
Qed.

Example pf_C60_example :
  variants_data (spec_props (Op_Log LogOpcode_Event)) 1
  = Ok [mkOpcodeVariantData 0 0 0; mkOpcodeVariantData 1 0 0; mkOpcodeVariantData 2 1 0;
        mkOpcodeVariantData 3 1 0; mkOpcodeVariantData 4 0 0].
Proof. reflexivity. Qed.
