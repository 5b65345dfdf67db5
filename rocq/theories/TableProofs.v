(** * Facts about the opcode table and the index maps. *)

From Coq Require Import NArith Lia ZArith List Bool String.
From Coq Require Import ZifyBool ZifyNat ZifyN.
From Verif Require Import Machine Constants Operands OpcodeTrait Opcodes AllOpcodes Tables SpecIsa BitLemmas.
Import ListNotations.
Open Scope N_scope.

(** ** Decidable equality of the public types *)

Lemma Opcode_beq_iff a b : Opcode_beq a b = true <-> a = b.
Proof. split; [apply internal_Opcode_dec_bl | apply internal_Opcode_dec_lb]. Qed.

Lemma Operand_beq_iff a b : Operand_beq a b = true <-> a = b.
Proof. split; [apply internal_Operand_dec_bl | apply internal_Operand_dec_lb]. Qed.

Lemma flags_eqb_iff a b : flags_eqb a b = true <-> a = b.
Proof. destruct a as [[] []], b as [[] []]; cbn; split; congruence. Qed.

Lemma eqb_iff a b : OpcodeVariant_eqb a b = true <-> a = b.
Proof.
  destruct a as [o s d f], b as [o' s' d' f']. unfold OpcodeVariant_eqb. cbn.
  rewrite !andb_true_iff, Opcode_beq_iff, !Operand_beq_iff, flags_eqb_iff.
  split; [intros [[[-> ->] ->] ->]; reflexivity | intros H; injection H; auto].
Qed.

Lemma eqb_refl a : OpcodeVariant_eqb a a = true.
Proof. apply eqb_iff. reflexivity. Qed.

Lemma eqb_neq a b : OpcodeVariant_eqb a b = false <-> a <> b.
Proof.
  rewrite <- not_true_iff_false, eqb_iff. reflexivity.
Qed.

Lemma variant_dec (a b : OpcodeVariant) : {a = b} + {a <> b}.
Proof.
  destruct (OpcodeVariant_eqb a b) eqn:E; [left; apply eqb_iff, E | right; apply eqb_neq, E].
Qed.

(** ** The enumeration of all values is complete *)

Lemma all_opcodes_complete o : In o spec_all_opcodes.
Proof.
  destruct o as [[]|[]|[]|[]|[]|[]|[]|[]|[]|[]|[]|[]|[]|[]|[]|[]]; cbn; tauto.
Qed.

Lemma all_operands_complete s : In s spec_all_operands.
Proof. destruct s as [|[]|[]]; cbn; tauto. Qed.

Lemma all_flags_complete f : In f spec_all_flags.
Proof. destruct f as [[] []]; cbn; tauto. Qed.

Lemma all_variants_complete x : In x spec_all_variants.
Proof.
  destruct x as [o s d f]. unfold spec_all_variants.
  apply in_flat_map. exists o. split; [apply all_opcodes_complete|].
  apply in_flat_map. exists s. split; [apply all_operands_complete|].
  apply in_flat_map. exists d. split; [apply all_operands_complete|].
  apply in_map_iff. exists f. split; [reflexivity|apply all_flags_complete].
Qed.

Lemma forall_variants (p : OpcodeVariant -> bool) :
  forallb p spec_all_variants = true -> forall x, p x = true.
Proof. intros H x. rewrite forallb_forall in H. apply H, all_variants_complete. Qed.

Lemma forall_opcodes (p : Opcode -> bool) :
  forallb p spec_all_opcodes = true -> forall x, p x = true.
Proof. intros H x. rewrite forallb_forall in H. apply H, all_opcodes_complete. Qed.

(** Explicit sequencing step: rewriting with it avoids conversion problems over the table. *)
Lemma bind_Ok {A B} (a : A) (f : A -> res B) : bind (Ok a) f = f a.
Proof. reflexivity. Qed.

(** ** first_index *)

Lemma first_index_Some l x i :
  first_index l x = Some i <->
  nth_error l (N.to_nat i) = Some x /\
  (forall j, j < i -> nth_error l (N.to_nat j) <> Some x).
Proof.
  revert i. induction l as [|y r IH]; intros i; cbn [first_index].
  - split; [discriminate|]. intros [H _]. destruct (N.to_nat i); discriminate.
  - destruct (OpcodeVariant_eqb y x) eqn:E.
    + apply eqb_iff in E. subst y. split.
      * intros H; injection H as <-. split; [reflexivity|lia].
      * intros [H1 H2]. destruct (N.eq_dec i 0) as [->|Hn]; [reflexivity|].
        exfalso. apply (H2 0); [lia|reflexivity].
    + apply eqb_neq in E. split.
      * destruct (first_index r x) as [k|]; [|discriminate]. intros H; injection H as <-.
        destruct (proj1 (IH k) eq_refl) as [H1 H2]. split.
        { replace (N.to_nat (k + 1)) with (S (N.to_nat k)) by lia. exact H1. }
        intros j Hj. destruct (N.eq_dec j 0) as [->|Hn]; [cbn; congruence|].
        replace (N.to_nat j) with (S (N.to_nat (j - 1))) by lia. cbn.
        apply H2. lia.
      * intros [H1 H2]. destruct (N.eq_dec i 0) as [->|Hn]; [cbn in H1; congruence|].
        replace (N.to_nat i) with (S (N.to_nat (i - 1))) in H1 by lia. cbn in H1.
        assert (Hk : first_index r x = Some (i - 1)).
        { apply IH. split; [exact H1|]. intros j Hj Hc. apply (H2 (j + 1)); [lia|].
          replace (N.to_nat (j + 1)) with (S (N.to_nat j)) by lia. exact Hc. }
        rewrite Hk. f_equal. lia.
Qed.

Lemma first_index_None l x : first_index l x = None <-> ~ In x l.
Proof.
  induction l as [|y r IH]; cbn [first_index In]; [tauto|].
  destruct (OpcodeVariant_eqb y x) eqn:E.
  - apply eqb_iff in E. split; [discriminate|tauto].
  - apply eqb_neq in E. destruct (first_index r x).
    + split; [discriminate|]. intros H. exfalso. assert (~ In x r) by tauto.
      apply IH in H0. discriminate.
    + tauto.
Qed.

Lemma first_index_app l r x :
  first_index (l ++ r) x =
  match first_index l x with
  | Some i => Some i
  | None => match first_index r x with
            | Some i => Some (i + N.of_nat (List.length l))
            | None => None
            end
  end.
Proof.
  induction l as [|y l IH].
  - change ([] ++ r) with r. cbn [first_index List.length].
    destruct (first_index r x); [f_equal; lia|reflexivity].
  - cbn [app first_index List.length]. destruct (OpcodeVariant_eqb y x); [reflexivity|].
    rewrite IH. destruct (first_index l x); [reflexivity|].
    destruct (first_index r x); [f_equal; lia|reflexivity].
Qed.

(** ** The map-building loop, for an arbitrary table *)

Local Notation repeats := spec_repeats.

Lemma repeats_app l r : repeats l -> repeats (l ++ r).
Proof.
  intros (i & j & x & Hij & Hi & Hj & Hx). exists i, j, x.
  repeat split; try assumption.
  - rewrite nth_error_app1; [exact Hi|]. apply nth_error_Some. congruence.
  - rewrite nth_error_app1; [exact Hj|]. apply nth_error_Some. congruence.
Qed.

Lemma repeats_snoc_old l x : In x l -> x <> spec_invalid -> repeats (l ++ [x]).
Proof.
  intros Hin Hx. apply In_nth_error in Hin. destruct Hin as [n Hn].
  assert (Hl : (n < List.length l)%nat) by (apply nth_error_Some; congruence).
  exists (N.of_nat n), (N.of_nat (List.length l)), x. repeat split.
  - lia.
  - rewrite Nat2N.id, nth_error_app1 by exact Hl. exact Hn.
  - rewrite Nat2N.id, nth_error_app2 by lia. rewrite Nat.sub_diag. reflexivity.
  - exact Hx.
Qed.

Lemma not_repeats_snoc l x :
  ~ repeats l -> (~ In x l \/ x = spec_invalid) -> ~ repeats (l ++ [x]).
Proof.
  intros Hl Hx (i & j & y & Hij & Hi & Hj & Hy).
  destruct (Nat.lt_ge_cases (N.to_nat j) (List.length l)) as [Hlt|Hge].
  - apply Hl. exists i, j, y. rewrite nth_error_app1 in Hj by exact Hlt.
    rewrite nth_error_app1 in Hi by lia. auto.
  - rewrite nth_error_app2 in Hj by exact Hge.
    destruct (N.to_nat j - List.length l)%nat as [|k] eqn:E.
    + cbn in Hj. injection Hj as ->. destruct Hx as [Hx|Hx]; [|congruence].
      apply Hx. rewrite nth_error_app1 in Hi by lia. eapply nth_error_In, Hi.
    + cbn in Hj. destruct k; discriminate.
Qed.

Lemma not_repeats_nil : ~ repeats [].
Proof. intros (i & j & x & _ & H & _). destruct (N.to_nat i); discriminate. Qed.

(** The loop body of the canonical map. *)
Definition canonical_step (table : list OpcodeVariant)
  : list (OpcodeVariant * N) -> N * OpcodeVariant -> res (list (OpcodeVariant * N)) :=
  fun result '(idx, el) =>
    match map_get result el with
    | Some existing =>
        let* e := index table existing in
        let* _ := assert_ (OpcodeVariant_eqb e INVALID_OPCODE_VARIANT) in
        Ok result
    | None => Ok (map_insert result el idx)
    end.

Lemma map_get_insert {V} (m : list (OpcodeVariant * V)) k v x :
  map_get (map_insert m k v) x = if OpcodeVariant_eqb k x then Some v else map_get m x.
Proof. unfold map_get, map_insert. cbn. destruct (OpcodeVariant_eqb k x); reflexivity. Qed.

Lemma canonical_loop table pre suf m :
  table = pre ++ suf ->
  (forall x, map_get m x = first_index pre x) ->
  ~ repeats pre ->
  (exists m', for_each (canonical_step table) (enumerate_from (N.of_nat (List.length pre)) suf) m
              = Ok m' /\ (forall x, map_get m' x = first_index table x) /\ ~ repeats table)
  \/ (for_each (canonical_step table) (enumerate_from (N.of_nat (List.length pre)) suf) m = Panic
      /\ repeats table).
Proof.
  revert pre m. induction suf as [|y suf IH]; intros pre m Ht Hm Hr.
  - left. exists m. cbn. rewrite app_nil_r in Ht. subst table. auto.
  - cbn [enumerate_from for_each].
    assert (Hk : N.of_nat (List.length pre) + 1 = N.of_nat (List.length (pre ++ [y]))).
    { rewrite app_length. cbn. lia. }
    assert (Ht' : table = (pre ++ [y]) ++ suf) by (rewrite <- app_assoc; exact Ht).
    unfold canonical_step at 1 3. cbn [bind]. rewrite Hm.
    destruct (first_index pre y) as [i|] eqn:E.
    + assert (Hin : In y pre).
      { destruct (in_dec variant_dec y pre) as [H|H]; [exact H|].
        apply first_index_None in H. congruence. }
      apply first_index_Some in E as E'. destruct E' as [Hi _].
      assert (Hidx : index table i = Ok y).
      { unfold index. rewrite Ht, nth_error_app1 by (apply nth_error_Some; congruence).
        rewrite Hi. reflexivity. }
      rewrite Hidx. cbn [bind].
      destruct (OpcodeVariant_eqb y INVALID_OPCODE_VARIANT) eqn:Ey.
      * apply eqb_iff in Ey. cbn [assert_ bind]. rewrite Hk. apply IH; [exact Ht'| |].
        { intros x. rewrite first_index_app, Hm.
          destruct (first_index pre x) eqn:Ex; [reflexivity|].
          cbn. destruct (OpcodeVariant_eqb y x) eqn:Eyx; [|reflexivity].
          apply eqb_iff in Eyx. subst x. congruence. }
        { apply not_repeats_snoc; [exact Hr|right; exact Ey]. }
      * apply eqb_neq in Ey. cbn [assert_ bind]. right. split; [reflexivity|].
        rewrite Ht'. apply repeats_app, repeats_snoc_old; [exact Hin|exact Ey].
    + cbn [bind]. rewrite Hk. apply IH; [exact Ht'| |].
      * intros x. rewrite map_get_insert, first_index_app, Hm.
        destruct (OpcodeVariant_eqb y x) eqn:Eyx.
        { apply eqb_iff in Eyx. subst x. rewrite E. cbn. rewrite eqb_refl. f_equal. }
        destruct (first_index pre x); [reflexivity|]. cbn. rewrite Eyx. reflexivity.
      * apply not_repeats_snoc; [exact Hr|left]. apply first_index_None, E.
Qed.

Lemma canonical_map_spec table :
  (exists m, canonical_map_of_table table = Ok m /\
             (forall x, map_get m x = first_index table x) /\ ~ repeats table)
  \/ (canonical_map_of_table table = Panic /\ repeats table).
Proof.
  exact (canonical_loop table [] table [] eq_refl (fun _ => eq_refl) not_repeats_nil).
Qed.

(** The monotonic map is the canonical map with its values wrapped. *)
Definition wrap_map (m : list (OpcodeVariant * N)) : list (OpcodeVariant * VariantMonotonicNumber) :=
  map (fun e => (fst e, mkVariantMonotonicNumber (snd e))) m.

Lemma map_get_wrap m x :
  map_get (wrap_map m) x = option_map mkVariantMonotonicNumber (map_get m x).
Proof.
  unfold map_get, wrap_map. induction m as [|[k v] m IH]; cbn; [reflexivity|].
  destruct (OpcodeVariant_eqb k x); [reflexivity|exact IH].
Qed.

Lemma monotonic_loop table l m :
  for_each (fun result '(idx, el) =>
    match map_get result el with
    | Some existing =>
        let usize_index := VariantMonotonicNumber_into_usize existing in
        let* e := index table usize_index in
        let* _ := assert_ (OpcodeVariant_eqb e INVALID_OPCODE_VARIANT) in
        Ok result
    | None => Ok (map_insert result el (VariantMonotonicNumber_from_usize idx))
    end) l (wrap_map m)
  = let* m' := for_each (canonical_step table) l m in Ok (wrap_map m').
Proof.
  revert m. induction l as [|[i y] l IH]; intros m; [reflexivity|].
  cbn [for_each]. unfold canonical_step at 1. rewrite map_get_wrap.
  destruct (map_get m y) as [k|]; cbn [option_map].
  - cbn [VariantMonotonicNumber_into_usize monotonic_number].
    destruct (index table k) as [e|]; cbn [bind]; [|reflexivity].
    destruct (OpcodeVariant_eqb e INVALID_OPCODE_VARIANT); cbn [assert_ bind]; [|reflexivity].
    apply IH.
  - cbn [bind]. rewrite <- IH. reflexivity.
Qed.

Lemma monotonic_map_eq table :
  monotonic_map_of_table table = let* m := canonical_map_of_table table in Ok (wrap_map m).
Proof. exact (monotonic_loop table (enumerate table) []). Qed.

(** ** The concrete table *)

Definition padded_table : list OpcodeVariant := spec_table_v1 ++ repeat spec_invalid 955.

(** The version loop of the synthesis, computed once for the two known versions. *)
Definition version_step (result : list OpcodeVariant) (version : ISAVersion)
  : res (list OpcodeVariant) :=
  let* all_opcodes_in_version := all_variants_in_version version in
  let* (result, new_opcodes) := find_new_opcodes result all_opcodes_in_version in
  let result := result ++ new_opcodes in
  let* density := compute_encoding_density version in
  let* _ := assert_ (len result =? density) in
  Ok result.

Lemma enumeration_0 : all_variants_in_version 0 = Ok (spec_enumeration 0).
Proof. vm_compute. reflexivity. Qed.

Lemma enumeration_1 : all_variants_in_version 1 = Ok (spec_enumeration 1).
Proof. vm_compute. reflexivity. Qed.

Lemma density_0 : compute_encoding_density 0 = Ok 1085.
Proof. vm_compute. reflexivity. Qed.

Lemma density_1 : compute_encoding_density 1 = Ok 1093.
Proof. vm_compute. reflexivity. Qed.

Lemma spec_table_v0_length : List.length spec_table_v0 = 1085%nat.
Proof. vm_compute. reflexivity. Qed.

Lemma spec_table_v1_length : List.length spec_table_v1 = 1093%nat.
Proof. vm_compute. reflexivity. Qed.

Lemma fold_nil l diff :
  fold_left (fun '(old, difference) new =>
    let '(found_equivalent, old') := replace_first_equivalent new old in
    (old', if found_equivalent then difference else difference ++ [new])) l ([], diff)
  = ([], diff ++ l).
Proof.
  revert diff. induction l as [|a l IH]; intros diff; cbn; [rewrite app_nil_r; reflexivity|].
  rewrite IH, <- app_assoc. reflexivity.
Qed.

Lemma find_new_nil l : find_new_opcodes [] l = Ok ([], l).
Proof. unfold find_new_opcodes. cbn [for_each bind]. rewrite fold_nil. reflexivity. Qed.

Lemma find_new_v1 :
  find_new_opcodes spec_table_v0 (spec_enumeration 1)
  = Ok (map spec_retype spec_table_v0, filter spec_is_imm_heap_access (spec_enumeration 1)).
Proof. vm_compute. reflexivity. Qed.

Lemma version_step_0 : version_step [] 0 = Ok spec_table_v0.
Proof.
  unfold version_step. rewrite enumeration_0. cbn [bind]. rewrite find_new_nil. cbn [bind].
  rewrite density_0. cbn [bind]. change ([] ++ spec_enumeration 0) with spec_table_v0.
  unfold len. rewrite spec_table_v0_length. reflexivity.
Qed.

Lemma version_step_1 : version_step spec_table_v0 1 = Ok spec_table_v1.
Proof.
  unfold version_step. rewrite enumeration_1. cbn [bind]. rewrite find_new_v1. cbn [bind].
  rewrite density_1. cbn [bind].
  change (map spec_retype spec_table_v0 ++ filter spec_is_imm_heap_access (spec_enumeration 1))
    with spec_table_v1.
  unfold len. rewrite spec_table_v1_length. reflexivity.
Qed.

Lemma version_loop v :
  for_each version_step (versions_until_break ALL_ISA_VERSIONS v) [] = Ok (spec_table v).
Proof.
  destruct v as [|p].
  - change (versions_until_break ALL_ISA_VERSIONS 0) with [0]. cbn [for_each].
    rewrite version_step_0. reflexivity.
  - assert (E : versions_until_break ALL_ISA_VERSIONS (N.pos p) = [0; 1])
      by (destruct p; reflexivity).
    rewrite E. cbn [for_each]. rewrite version_step_0. cbn [bind].
    rewrite version_step_1. reflexivity.
Qed.

Lemma spec_table_len v : len (spec_table v) = spec_count v.
Proof.
  unfold len, spec_table, spec_count.
  destruct (v =? 0); [rewrite spec_table_v0_length|rewrite spec_table_v1_length]; reflexivity.
Qed.

Lemma spec_table_head v : index (spec_table v) 0 = Ok spec_invalid.
Proof. unfold spec_table. destruct (v =? 0); reflexivity. Qed.

Lemma resize_eq {A} (l : list A) n x :
  len l <= n -> resize l n x = l ++ repeat x (N.to_nat (n - len l)).
Proof.
  unfold len, resize. intros H. f_equal.
  - apply firstn_all2. lia.
  - f_equal. lia.
Qed.

(** The whole synthesis, for every width, version and build. *)
Lemma synthesize_eq bld b v :
  synthesize_opcode_decoding_tables bld b v =
  match shl_one bld 64 b with
  | Panic => Panic
  | Ok c => if spec_count v <=? c
            then Ok (spec_table v ++ repeat spec_invalid (N.to_nat (c - spec_count v)))
            else Panic
  end.
Proof.
  unfold synthesize_opcode_decoding_tables, synthesize_opcode_decoding_tables_of.
  change (set_objects current_set) with all_opcodes.
  change all_opcodes with (Ok (match all_opcodes with Ok a => a | Panic => [] end)).
  cbn [bind].
  change (check_unique_names _) with (Ok (match check_unique_names
    (match all_opcodes with Ok a => a | Panic => [] end) with Ok a => a | Panic => [] end)).
  cbn [bind]. destruct (shl_one bld 64 b) as [c|]; [|reflexivity]. cbn [bind].
  change (fun result version => _) with version_step.
  rewrite version_loop. cbn [bind]. rewrite spec_table_head. cbn [bind].
  change (OpcodeVariant_eqb spec_invalid INVALID_OPCODE_VARIANT) with true. cbn [assert_ bind].
  rewrite spec_table_len. destruct (spec_count v <=? c) eqn:E; [|reflexivity].
  cbn [assert_ bind]. rewrite resize_eq by (rewrite spec_table_len; lia).
  rewrite spec_table_len. reflexivity.
Qed.

Lemma table_any_build bld :
  (let* t := synthesize_opcode_decoding_tables bld OPCODES_TABLE_WIDTH DEFAULT_ISA_VERSION in
   into_array (2 ^ OPCODES_TABLE_WIDTH) t) = Ok padded_table.
Proof.
  rewrite synthesize_eq.
  change (shl_one bld 64 OPCODES_TABLE_WIDTH) with (Ok 2048).
  unfold into_array. change (spec_table DEFAULT_ISA_VERSION) with spec_table_v1.
  change (N.to_nat (2048 - spec_count DEFAULT_ISA_VERSION)) with 955%nat.
  change (spec_table_v1 ++ repeat spec_invalid 955) with padded_table.
  assert (L : len padded_table = 2 ^ OPCODES_TABLE_WIDTH).
  { unfold padded_table, len. rewrite app_length, repeat_length, spec_table_v1_length.
    reflexivity. }
  replace (spec_count DEFAULT_ISA_VERSION <=? 2048) with true by reflexivity.
  cbn [bind]. rewrite L. reflexivity.
Qed.

Lemma OPCODES_TABLE_eq : OPCODES_TABLE = Ok padded_table.
Proof. exact (table_any_build Debug). Qed.

Lemma synthesize_current bld : synthesize_opcode_decoding_tables bld 11 1 = Ok padded_table.
Proof.
  rewrite synthesize_eq. change (shl_one bld 64 11) with (Ok 2048).
  change (spec_table 1) with spec_table_v1.
  change (N.to_nat (2048 - spec_count 1)) with 955%nat.
  change (spec_table_v1 ++ repeat spec_invalid 955) with padded_table.
  replace (spec_count 1 <=? 2048) with true by reflexivity. reflexivity.
Qed.

Definition option_N_eqb (a b : option N) : bool :=
  match a, b with Some x, Some y => x =? y | None, None => true | _, _ => false end.

Lemma option_N_eqb_iff a b : option_N_eqb a b = true <-> a = b.
Proof.
  destruct a, b; cbn; rewrite ?N.eqb_eq; split; try congruence; try discriminate.
Qed.

Lemma number_sweep :
  forallb (fun x => option_N_eqb (first_index spec_table_v1 x) (spec_number x))
    spec_all_variants = true.
Proof. vm_compute. reflexivity. Qed.

Lemma first_index_number x : first_index spec_table_v1 x = spec_number x.
Proof. apply option_N_eqb_iff, (forall_variants _ number_sweep). Qed.

Lemma padded_length : List.length padded_table = 2048%nat.
Proof.
  unfold padded_table. rewrite app_length, repeat_length, spec_table_v1_length. reflexivity.
Qed.

Lemma first_index_repeat x y n : x <> y -> first_index (repeat x n) y = None.
Proof.
  intros H. apply first_index_None. intros Hin. apply repeat_spec in Hin. congruence.
Qed.

Lemma padded_first_index x : first_index padded_table x = spec_number x.
Proof.
  unfold padded_table. rewrite first_index_app, first_index_number.
  destruct (spec_number x) eqn:E; [reflexivity|].
  rewrite first_index_repeat; [reflexivity|]. intros <-. vm_compute in E. discriminate.
Qed.

Lemma spec_number_bound x i : spec_number x = Some i -> i < 1093.
Proof.
  rewrite <- first_index_number. intros H. apply first_index_Some in H as [H _].
  assert (nth_error spec_table_v1 (N.to_nat i) <> None) by congruence.
  apply nth_error_Some in H0. rewrite spec_table_v1_length in H0. lia.
Qed.

Lemma spec_number_wf x : (exists i, spec_number x = Some i) <-> spec_well_formed 1 x = true.
Proof.
  unfold spec_number. destruct (spec_well_formed 1 x).
  - split; [reflexivity|]. intros _.
    destruct (spec_addressing 1 (opcode x)); eexists; reflexivity.
  - split; [intros [i H]|]; discriminate.
Qed.

Lemma canonical_map_eq : OPCODE_TO_CANONICAL_INDEX_LOOKUP_MAP = canonical_map_of_table padded_table.
Proof. unfold OPCODE_TO_CANONICAL_INDEX_LOOKUP_MAP. rewrite OPCODES_TABLE_eq, bind_Ok. reflexivity. Qed.

Lemma canonical_map_defined :
  exists m, OPCODE_TO_CANONICAL_INDEX_LOOKUP_MAP = Ok m /\ forall x, map_get m x = spec_number x.
Proof.
  unfold OPCODE_TO_CANONICAL_INDEX_LOOKUP_MAP. rewrite OPCODES_TABLE_eq, bind_Ok.
  destruct (canonical_map_spec padded_table) as [(m & Hm & Hg & _)|[_ Hr]].
  - exists m. split; [exact Hm|]. intros x. rewrite Hg. apply padded_first_index.
  - exfalso. destruct Hr as (i & j & x & Hij & Hi & Hj & Hx).
    assert (Hlen : forall k, nth_error padded_table (N.to_nat k) = Some x ->
                   nth_error spec_table_v1 (N.to_nat k) = Some x).
    { intros k Hk. unfold padded_table in Hk.
      destruct (Nat.lt_ge_cases (N.to_nat k) (List.length spec_table_v1)) as [H|H].
      - rewrite nth_error_app1 in Hk by exact H. exact Hk.
      - rewrite nth_error_app2 in Hk by exact H. apply nth_error_In, repeat_spec in Hk.
        congruence. }
    apply Hlen in Hi, Hj.
    assert (Hnd : NoDup spec_table_v1).
    { apply (NoDup_count_occ' variant_dec). intros y Hy.
      assert (Hsw : forallb (fun y => Nat.eqb (List.length (filter (OpcodeVariant_eqb y) spec_table_v1)) 1)
                      spec_table_v1 = true) by (vm_compute; reflexivity).
      rewrite forallb_forall in Hsw. specialize (Hsw y Hy). apply Nat.eqb_eq in Hsw.
      rewrite <- Hsw. clear. induction spec_table_v1 as [|z l IH]; [reflexivity|].
      cbn. destruct (variant_dec z y) as [->|Hne].
      - rewrite eqb_refl. cbn. f_equal. exact IH.
      - destruct (OpcodeVariant_eqb y z) eqn:E; [apply eqb_iff in E; congruence|exact IH]. }
    rewrite NoDup_nth_error in Hnd. specialize (Hnd (N.to_nat i) (N.to_nat j)).
    assert (N.to_nat i = N.to_nat j).
    { apply Hnd; [apply nth_error_Some; congruence|congruence]. }
    lia.
Qed.

Lemma monotonic_static_eq :
  OPCODE_TO_MONOTONIC_INDEX_NUMBER_MAP
  = let* m := OPCODE_TO_CANONICAL_INDEX_LOOKUP_MAP in Ok (wrap_map m).
Proof.
  unfold OPCODE_TO_MONOTONIC_INDEX_NUMBER_MAP, OPCODE_TO_CANONICAL_INDEX_LOOKUP_MAP.
  generalize OPCODES_TABLE. intros [t|]; [apply monotonic_map_eq|reflexivity].
Qed.
