(** * Facts about semantic equality, the extension procedure, the legacy synthesis and the
    families. *)

From Coq Require Import NArith Lia ZArith List Bool String.
From Coq Require Import ZifyBool ZifyNat ZifyN.
From Verif Require Import Machine Constants Operands OpcodeTrait Opcodes AllOpcodes Tables
  SpecIsa SpecFamilies BitLemmas TableProofs TableProofs2.
Import ListNotations.
Open Scope N_scope.

(** ** Semantic equality *)

Lemma equivalentb_iff a b : spec_equivalentb a b = true <-> spec_equivalent a b.
Proof.
  unfold spec_equivalentb, spec_equivalent. rewrite eqb_iff. unfold spec_norm. split.
  - intros H. injection H. auto.
  - intros (-> & -> & -> & ->). reflexivity.
Qed.

Lemma semantically_equal_b a b : semantically_equal a b = spec_equivalentb a b.
Proof.
  apply eq_true_iff_eq. rewrite equivalentb_iff. unfold semantically_equal, spec_equivalent.
  destruct (Opcode_beq (opcode a) (opcode b)) eqn:E1; cbn [negb];
    [apply Opcode_beq_iff in E1|].
  2:{ split; [discriminate|]. intros (H & _). apply Opcode_beq_iff in H. congruence. }
  destruct (flags_eqb (flags a) (flags b)) eqn:E2; cbn [negb]; [apply flags_eqb_iff in E2|].
  2:{ split; [discriminate|]. intros (_ & H & _). apply flags_eqb_iff in H. congruence. }
  destruct (Operand_beq (dst0_operand_type a) (dst0_operand_type b)) eqn:E3; cbn [negb];
    [apply Operand_beq_iff in E3|].
  2:{ split; [discriminate|]. intros (_ & _ & H & _). apply Operand_beq_iff in H. congruence. }
  destruct (src0_operand_type a) as [|[]|[]], (src0_operand_type b) as [|[]|[]]; cbn;
    intuition (try discriminate; try congruence).
Qed.

Lemma eqv_refl a : spec_equivalentb a a = true.
Proof. apply eqb_refl. Qed.

Lemma eqv_sym a b : spec_equivalentb a b = spec_equivalentb b a.
Proof.
  apply eq_true_iff_eq. unfold spec_equivalentb. rewrite !eqb_iff. split; congruence.
Qed.

Lemma eqv_trans a b c :
  spec_equivalentb a b = true -> spec_equivalentb a c = spec_equivalentb b c.
Proof.
  unfold spec_equivalentb. rewrite eqb_iff. intros ->. reflexivity.
Qed.

Lemma eqv_mask a b : spec_equivalent a b -> mask_value a = mask_value b.
Proof.
  intros (H1 & H2 & H3 & H4). unfold mask_value. rewrite H1, H2, H3.
  assert (E : spec_operand_mode (src0_operand_type a) = spec_operand_mode (src0_operand_type b)).
  { destruct (src0_operand_type a) as [|[]|[]], (src0_operand_type b) as [|[]|[]];
      try discriminate H4; reflexivity. }
  rewrite E. reflexivity.
Qed.

(** ** The extension procedure *)

Local Notation E := spec_equivalentb.

Fixpoint upd (n : OpcodeVariant) (old : list OpcodeVariant) : list OpcodeVariant :=
  match old with
  | [] => []
  | o :: r => if E n o then n :: r else o :: upd n r
  end.

Lemma replace_first_eq n old :
  replace_first_equivalent n old = (existsb (E n) old, upd n old).
Proof.
  induction old as [|o r IH]; cbn; [reflexivity|].
  rewrite semantically_equal_b. destruct (E n o); cbn; [reflexivity|].
  rewrite IH. reflexivity.
Qed.

Lemma upd_pointwise n old : Forall2 (fun o o' => E o o' = true) old (upd n old).
Proof.
  induction old as [|o r IH]; cbn; [constructor|].
  destruct (E n o) eqn:H.
  - constructor; [rewrite eqv_sym; exact H|]. clear. induction r; constructor; auto using eqv_refl.
  - constructor; [apply eqv_refl|exact IH].
Qed.

Lemma pointwise_trans l1 l2 l3 :
  Forall2 (fun o o' => E o o' = true) l1 l2 -> Forall2 (fun o o' => E o o' = true) l2 l3 ->
  Forall2 (fun o o' => E o o' = true) l1 l3.
Proof.
  intros H. revert l3. induction H as [|a b l1 l2 Hab H IH]; intros l3 H'; inversion H'; subst.
  - constructor.
  - constructor; [|apply IH; assumption]. rewrite (eqv_trans a b) by exact Hab. assumption.
Qed.

Lemma pointwise_existsb n l1 l2 :
  Forall2 (fun o o' => E o o' = true) l1 l2 -> existsb (E n) l1 = existsb (E n) l2.
Proof.
  intros H. induction H as [|a b l1 l2 Hab H IH]; cbn; [reflexivity|]. rewrite IH.
  rewrite (eqv_sym n a), (eqv_sym n b), (eqv_trans a b n Hab). reflexivity.
Qed.

Lemma pointwise_firstn k l1 l2 :
  Forall2 (fun o o' => E o o' = true) l1 l2 ->
  Forall2 (fun o o' => E o o' = true) (firstn k l1) (firstn k l2).
Proof.
  intros H. revert k. induction H; intros [|k]; cbn; constructor; auto.
Qed.

Definition after (new old : list OpcodeVariant) : list OpcodeVariant :=
  fold_left (fun o n => upd n o) new old.

Lemma after_pointwise new : forall old,
  Forall2 (fun o o' => E o o' = true) old (after new old).
Proof.
  induction new as [|n new IH]; intros old; cbn.
  - induction old; constructor; auto using eqv_refl.
  - eapply pointwise_trans; [apply upd_pointwise|apply IH].
Qed.

Lemma fold_diff new : forall old d,
  fold_left (fun '(old, difference) new =>
    let '(found_equivalent, old') := replace_first_equivalent new old in
    (old', if found_equivalent then difference else difference ++ [new])) new (old, d)
  = (after new old, d ++ filter (fun n => negb (existsb (E n) old)) new).
Proof.
  induction new as [|n new IH]; intros old d; cbn.
  - rewrite app_nil_r. reflexivity.
  - rewrite replace_first_eq, IH. unfold after at 1. f_equal.
    rewrite (filter_ext (fun n0 => negb (existsb (E n0) (upd n old)))
               (fun n0 => negb (existsb (E n0) old))).
    2:{ intros x. rewrite <- (pointwise_existsb x old (upd n old)); [reflexivity|].
        apply upd_pointwise. }
    destruct (existsb (E n) old); cbn; [reflexivity|]. rewrite <- app_assoc. reflexivity.
Qed.

Lemma upd_nth n old i :
  nth_error (upd n old) i =
  match nth_error old i with
  | Some o => Some (if E n o && negb (existsb (E n) (firstn i old)) then n else o)
  | None => None
  end.
Proof.
  revert i. induction old as [|o r IH]; intros i; cbn; [destruct i; reflexivity|].
  destruct (E n o) eqn:H.
  - destruct i as [|i]; cbn; rewrite ?H; cbn; [reflexivity|].
    destruct (nth_error r i); [|reflexivity]. rewrite andb_false_r. reflexivity.
  - destruct i as [|i]; cbn; rewrite ?H; cbn; [reflexivity|]. apply IH.
Qed.

Lemma last_snoc {A} (l : list A) x d : last (l ++ [x]) d = x.
Proof. apply last_last. Qed.

(** The final content of each position. *)
Lemma after_nth new old i :
  nth_error (after new old) i =
  match nth_error old i with
  | Some o => Some (if existsb (E o) (firstn i old) then o else last (filter (E o) new) o)
  | None => None
  end.
Proof.
  induction new as [|n new IH] using rev_ind.
  - cbn. destruct (nth_error old i); [|reflexivity]. destruct existsb; reflexivity.
  - unfold after in *. rewrite fold_left_app. cbn [fold_left]. rewrite upd_nth, IH.
    destruct (nth_error old i) as [o|] eqn:Ho; [|reflexivity].
    assert (P := after_pointwise new old). unfold after in P.
    rewrite <- (pointwise_existsb n (firstn i old)) by (apply pointwise_firstn, P).
    rewrite filter_app. cbn [filter].
    assert (Hn : E n (if existsb (E o) (firstn i old) then o else last (filter (E o) new) o)
                 = E n o).
    { destruct (existsb (E o) (firstn i old)); [reflexivity|].
      clear. destruct (filter (E o) new) as [|y l] eqn:F using rev_ind; [reflexivity|].
      rewrite last_snoc.
      assert (H : In y (filter (E o) new)) by (rewrite F; apply in_or_app; right; left; reflexivity).
      apply filter_In in H as [_ H]. rewrite (eqv_sym n), (eqv_sym n).
      symmetry. apply eqv_trans, H. }
    rewrite Hn. rewrite (eqv_sym o n).
    destruct (E n o) eqn:En; cbn [andb].
    + assert (Hx : existsb (E n) (firstn i old) = existsb (E o) (firstn i old)).
      { clear - En. induction (firstn i old) as [|a l IH]; cbn; [reflexivity|].
        rewrite IH, (eqv_trans n o a En). reflexivity. }
      rewrite Hx. destruct (existsb (E o) (firstn i old)); cbn [negb]; [reflexivity|].
      rewrite last_snoc. reflexivity.
    + rewrite app_nil_r. reflexivity.
Qed.

Lemma find_new_eq old new :
  find_new_opcodes old new =
  if forallb (fun o => existsb (E o) new) old
  then Ok (after new old, filter (fun n => negb (existsb (E n) old)) new)
  else Panic.
Proof.
  unfold find_new_opcodes. rewrite fold_diff. cbn [app].
  assert (L : for_each (fun _ el => if existsb (OpcodeVariant_eqb el) new then Ok tt
              else assert_ (existsb (fun new => semantically_equal new el) new)) old tt
              = if forallb (fun o => existsb (E o) new) old then Ok tt else Panic).
  { clear. induction old as [|o r IH]; cbn; [reflexivity|].
    assert (H : (if existsb (OpcodeVariant_eqb o) new then Ok tt
                 else assert_ (existsb (fun n => semantically_equal n o) new))
                = if existsb (E o) new then Ok tt else Panic).
    { replace (existsb (fun n => semantically_equal n o) new) with (existsb (E o) new).
      2:{ clear. induction new as [|n l IH]; cbn; [reflexivity|].
          rewrite IH, semantically_equal_b, (eqv_sym o n). reflexivity. }
      destruct (existsb (OpcodeVariant_eqb o) new) eqn:H1; [|destruct existsb; reflexivity].
      apply existsb_exists in H1 as (y & Hy & H1). apply eqb_iff in H1. subst y.
      replace (existsb (E o) new) with true; [reflexivity|]. symmetry. apply existsb_exists.
      exists o. split; [exact Hy|apply eqv_refl]. }
    rewrite H. destruct (existsb (E o) new); cbn; [exact IH|reflexivity]. }
  rewrite L. destruct forallb; reflexivity.
Qed.

(** ** Legacy synthesis *)

Definition legacy_step (result : list OpcodeVariant) (version : ISAVersion)
  : res (list OpcodeVariant) :=
  let* result :=
    for_each (fun result '(i, opcode) =>
      let* _ := (if i =? 0 then assert_ (String.eqb (name opcode) "Invalid opcode")
                 else Ok tt) in
      let* proto := index all_opcode_prototypes i in
      legacy_push_opcode_of current_set version opcode proto result)
      (enumerate (match all_opcodes with Ok a => a | Panic => [] end)) result in
  let* density := compute_encoding_density version in
  let* _ := assert_ (len result =? density) in
  Ok result.

Lemma legacy_step_0 : legacy_step [] 0 = Ok spec_table_v0.
Proof. vm_compute. reflexivity. Qed.

Lemma for_each_app {A S} (f : S -> A -> res S) l1 l2 s :
  for_each f (l1 ++ l2) s = let* s' := for_each f l1 s in for_each f l2 s'.
Proof.
  revert s. induction l1 as [|a l1 IH]; intros s; cbn; [reflexivity|].
  destruct (f s a); cbn; [apply IH|reflexivity].
Qed.

Lemma legacy_step_1 r : legacy_step r 1 = Panic.
Proof.
  unfold legacy_step.
  set (body := fun result '(i, opcode) => _).
  set (l := enumerate _).
  change l with (firstn 15 l ++ [(15, UMAOpcode_Props UMAOpcode_HeapRead)]).
  rewrite for_each_app. destruct (for_each body (firstn 15 l) r) as [s|]; [|reflexivity].
  reflexivity.
Qed.

Lemma legacy_loop v :
  for_each legacy_step (versions_until_break ALL_ISA_VERSIONS v) []
  = if v =? 0 then Ok spec_table_v0 else Panic.
Proof.
  destruct v as [|p].
  - change (versions_until_break ALL_ISA_VERSIONS 0) with [0]. cbn [for_each].
    rewrite legacy_step_0. reflexivity.
  - assert (H : versions_until_break ALL_ISA_VERSIONS (N.pos p) = [0; 1])
      by (destruct p; reflexivity).
    rewrite H. cbn [for_each]. rewrite legacy_step_0. cbn [bind].
    rewrite legacy_step_1. reflexivity.
Qed.

Lemma legacy_eq bld b v :
  synthesize_opcode_decoding_tables_legacy bld b v =
  if v =? 0 then synthesize_opcode_decoding_tables bld b v else Panic.
Proof.
  unfold synthesize_opcode_decoding_tables_legacy, synthesize_opcode_decoding_tables_legacy_of.
  change (set_objects current_set) with all_opcodes. rewrite synthesize_eq.
  change all_opcodes with (Ok (match all_opcodes with Ok a => a | Panic => [] end)).
  cbn [bind].
  change (check_unique_names _) with (Ok (match check_unique_names
    (match all_opcodes with Ok a => a | Panic => [] end) with Ok a => a | Panic => [] end)).
  cbn [bind]. destruct (shl_one bld 64 b) as [c|]; [|destruct (v =? 0); reflexivity]. cbn [bind].
  change (fun result version => _) with legacy_step.
  rewrite legacy_loop. destruct (v =? 0) eqn:Hv; [|reflexivity].
  apply N.eqb_eq in Hv. subst v. cbn [bind].
  change spec_table_v0 with (spec_table 0). rewrite spec_table_head. cbn [bind].
  change (OpcodeVariant_eqb spec_invalid INVALID_OPCODE_VARIANT) with true. cbn [assert_ bind].
  rewrite spec_table_len. destruct (spec_count 0 <=? c) eqn:H; [|reflexivity].
  cbn [assert_ bind]. rewrite resize_eq by (rewrite spec_table_len; lia).
  rewrite spec_table_len. reflexivity.
Qed.

(** ** Enumeration *)

Lemma enumeration_eq v :
  all_variants_in_version v = if v <=? 1 then Ok (spec_enumeration v) else Panic.
Proof.
  destruct (version_cases v) as [->|[->|H]].
  - apply enumeration_0.
  - apply enumeration_1.
  - destruct v as [|[p|p|]]; try lia; reflexivity.
Qed.

Lemma density_eq v :
  compute_encoding_density v = if v <=? 1 then Ok (spec_count v) else Panic.
Proof.
  destruct (version_cases v) as [->|[->|H]].
  - apply density_0.
  - apply density_1.
  - destruct v as [|[p|p|]]; try lia; reflexivity.
Qed.

(** Position and number coincide. *)
Lemma table_numbers :
  map spec_number spec_table_v1 = map (fun i => Some (N.of_nat i)) (seq 0 1093).
Proof. vm_compute. reflexivity. Qed.

Lemma nth_error_seq s n i : (i < n)%nat -> nth_error (seq s n) i = Some (s + i)%nat.
Proof.
  revert s i. induction n as [|n IH]; intros s i H; [lia|].
  destruct i as [|i]; cbn [seq nth_error]; [f_equal; lia|]. rewrite IH by lia. f_equal. lia.
Qed.

Lemma table_nth_number i x :
  nth_error spec_table_v1 i = Some x -> spec_number x = Some (N.of_nat i).
Proof.
  intros H. assert (Hi : (i < 1093)%nat).
  { rewrite <- spec_table_v1_length. apply nth_error_Some. congruence. }
  assert (M := f_equal (fun l => nth_error l i) table_numbers). cbn beta in M.
  rewrite !nth_error_map', H, nth_error_seq in M by exact Hi. cbn in M. congruence.
Qed.

Lemma number_table_nth i x :
  spec_number x = Some i -> nth_error spec_table_v1 (N.to_nat i) = Some x.
Proof. rewrite <- first_index_number. intros H. apply first_index_Some in H. apply H. Qed.

Lemma padded_nth i :
  nth_error padded_table i =
  if (i <? 1093)%nat then nth_error spec_table_v1 i
  else if (i <? 2048)%nat then Some spec_invalid else None.
Proof.
  unfold padded_table. destruct (Nat.ltb_spec i 1093) as [H|H].
  - rewrite nth_error_app1; [reflexivity|]. rewrite spec_table_v1_length. exact H.
  - rewrite nth_error_app2 by (rewrite spec_table_v1_length; exact H).
    rewrite spec_table_v1_length. destruct (Nat.ltb_spec i 2048) as [H2|H2].
    + rewrite nth_error_repeat by lia. reflexivity.
    + apply nth_error_None. rewrite repeat_length. lia.
Qed.

Lemma padded_In x : In x padded_table <-> spec_well_formed 1 x = true.
Proof.
  rewrite <- spec_number_wf. split.
  - intros H. destruct (spec_number x) as [i|] eqn:Hn; [exists i; reflexivity|].
    rewrite <- padded_first_index in Hn. apply first_index_None in Hn. contradiction.
  - intros [i Hn]. apply number_table_nth in Hn. apply nth_error_In in Hn.
    unfold padded_table. apply in_or_app. left. exact Hn.
Qed.

Lemma enumeration_In v x : In x (spec_enumeration v) <-> spec_well_formed v x = true.
Proof.
  unfold spec_enumeration, spec_variants_of. rewrite in_flat_map. split.
  - intros (o & _ & H). rewrite in_flat_map in H. destruct H as (s & _ & H).
    rewrite in_flat_map in H. destruct H as (d & _ & H). apply filter_In in H. apply H.
  - intros H. exists (opcode x). split; [apply all_opcodes_complete|].
    apply in_flat_map. exists (src0_operand_type x). split; [apply all_operands_complete|].
    apply in_flat_map. exists (dst0_operand_type x). split; [apply all_operands_complete|].
    apply filter_In. split; [|exact H]. apply in_map_iff. exists (flags x).
    split; [destruct x; reflexivity|apply all_flags_complete].
Qed.

Lemma NoDup_app_intro {A} (l1 l2 : list A) :
  NoDup l1 -> NoDup l2 -> (forall x, In x l1 -> ~ In x l2) -> NoDup (l1 ++ l2).
Proof.
  intros H1 H2 H. induction H1 as [|a l Ha Hl IH]; cbn; [exact H2|].
  constructor.
  - intros Hin. apply in_app_or in Hin as [Hin|Hin]; [contradiction|].
    apply (H a); [left; reflexivity|exact Hin].
  - apply IH. intros x Hx. apply H. right. exact Hx.
Qed.

Lemma NoDup_flat_map {A B} (f : A -> list B) (g : B -> A) (l : list A) :
  NoDup l -> (forall a, NoDup (f a)) -> (forall a b, In b (f a) -> g b = a) ->
  NoDup (flat_map f l).
Proof.
  intros Hl Hf Hg. induction Hl as [|a l Ha Hl IH]; cbn; [constructor|].
  apply NoDup_app_intro; [apply Hf|exact IH|].
  intros b Hb Hin. apply in_flat_map in Hin as (a' & Ha' & Hb').
  apply Hg in Hb, Hb'. congruence.
Qed.

Lemma NoDup_decide {A} (eqb : A -> A -> bool) (l : list A) :
  (forall x y, x = y -> eqb x y = true) ->
  (fix go l := match l with [] => true
               | a :: r => negb (existsb (eqb a) r) && go r end) l = true -> NoDup l.
Proof.
  intros He. induction l as [|a l IH]; intros H; [constructor|].
  apply andb_prop in H as [H1 H2]. constructor; [|apply IH, H2].
  intros Hin. apply negb_true_iff in H1.
  assert (existsb (eqb a) l = true); [|congruence].
  apply existsb_exists. exists a. split; [exact Hin|apply He; reflexivity].
Qed.

Lemma NoDup_opcodes : NoDup spec_all_opcodes.
Proof. apply (NoDup_decide Opcode_beq); [intros; apply Opcode_beq_iff; assumption|reflexivity]. Qed.

Lemma NoDup_operands : NoDup spec_all_operands.
Proof. apply (NoDup_decide Operand_beq); [intros; apply Operand_beq_iff; assumption|reflexivity]. Qed.

Lemma NoDup_enumeration v : NoDup (spec_enumeration v).
Proof.
  unfold spec_enumeration, spec_variants_of.
  apply (NoDup_flat_map _ opcode); [apply NoDup_opcodes| |].
  - intros o. apply (NoDup_flat_map _ src0_operand_type); [apply NoDup_operands| |].
    + intros s. apply (NoDup_flat_map _ dst0_operand_type); [apply NoDup_operands| |].
      * intros d. apply NoDup_filter. unfold spec_all_flags. cbn [map].
        repeat constructor; cbn; intuition congruence.
      * intros d b Hb. apply filter_In in Hb as [Hb _]. apply in_map_iff in Hb as (f & <- & _).
        reflexivity.
    + intros s b Hb. apply in_flat_map in Hb as (d & _ & Hb).
      apply filter_In in Hb as [Hb _]. apply in_map_iff in Hb as (f & <- & _). reflexivity.
  - intros o b Hb. apply in_flat_map in Hb as (s & _ & Hb).
    apply in_flat_map in Hb as (d & _ & Hb).
    apply filter_In in Hb as [Hb _]. apply in_map_iff in Hb as (f & <- & _). reflexivity.
Qed.

(** ** Families *)

Lemma small_cases (i : N) :
  i = 0 \/ i = 1 \/ i = 2 \/ i = 3 \/ i = 4 \/ i = 5 \/ i = 6 \/ i = 7 \/ i = 8 \/ i = 9 \/ 10 <= i.
Proof. lia. Qed.

Ltac small_index i :=
  destruct (small_cases i) as [->|[->|[->|[->|[->|[->|[->|[->|[->|[->|?]]]]]]]]]].

(** Indices beyond every family: all comparisons are false. *)
Ltac large_index i :=
  destruct i as [|i]; [|do 4 (try (destruct i as [i|i|]))]; try lia; try reflexivity.

Ltac too_large x :=
  match goal with |- ?l = Some _ <-> variant_index ?P x = ?i =>
    let B := fresh in let N1 := fresh in
    assert (B : variant_index P x < 10) by (destruct x; reflexivity);
    assert (N1 : l = None);
    [|rewrite N1; split; [discriminate|intros; lia]]
  end.

Ltac one_family :=
  unfold spec_numbered; split; [|split; [|split; [|reflexivity]]];
  [ intros v i x; small_index i;
    [destruct x; split; intros K; try discriminate K; reflexivity ..
    |too_large x; large_index i]
  | intros v i; small_index i;
    [split; intros K; try discriminate K; try reflexivity; try lia; exfalso; apply K; reflexivity ..
    |split; intros K; [lia|]; large_index i ]
  | intros i x; small_index i;
    [destruct x; split; intros K; try discriminate K; reflexivity ..
    |too_large x; apply nth_error_None;
     match goal with |- (?a <= _)%nat => let a' := eval vm_compute in a in change a with a' end;
     lia] ].

Lemma families_numbered : for_all_families spec_numbered.
Proof.
  unfold for_all_families.
  split; [one_family|]. split; [one_family|]. split; [one_family|]. split; [one_family|].
  split; [one_family|]. split; [one_family|]. split; [one_family|]. split; [one_family|].
  split; [one_family|]. split; [one_family|]. split; [one_family|]. split; [one_family|].
  split; [one_family|]. split; [one_family|]. split; [one_family|]. one_family.
Qed.
