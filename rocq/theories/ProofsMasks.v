(** * Proofs about bit descriptions for an arbitrary instruction set (C76). *)

From Coq Require Import Arith NArith Lia ZArith List Bool String.
From Coq Require Import ZifyBool ZifyNat ZifyN.
From Verif Require Import Machine Constants Operands OpcodeTrait Opcodes AllOpcodes Tables
  PricingGen Display SpecIsa SpecFamilies SpecPricing SpecDisplay SpecSets.
From Verif Require Import BitLemmas TableProofs TableProofs2 TableProofs3 ProofsSets
  ProofsGenerator.
Import ListNotations.
Open Scope N_scope.

(** ** Maxima *)

Lemma fold_max l : forall a, In (fold_left N.max l a) (a :: l) /\
  forall x, In x (a :: l) -> x <= fold_left N.max l a.
Proof.
  induction l as [|b l IH]; intros a; cbn [fold_left].
  - split; [left; reflexivity|]. intros x [->|[]]. lia.
  - destruct (IH (N.max a b)) as [H1 H2]. split.
    + destruct H1 as [H1|H1]; [|right; right; exact H1].
      rewrite <- H1. destruct (N.max_spec a b) as [[_ ->]|[_ ->]]; [right; left|left]; reflexivity.
    + assert (H3 := H2 _ (or_introl eq_refl)).
      intros x [<-|[<-|Hx]]; [lia|lia|]. apply H2. right. exact Hx.
Qed.

Lemma iter_max_iff l n : iter_max l = Some n <-> In n l /\ forall x, In x l -> x <= n.
Proof.
  destruct l as [|a l]; [split; [discriminate|intros [[] _]]|]. cbn [iter_max].
  destruct (fold_max l a) as [H1 H2]. split.
  - intros H. injection H as <-. auto.
  - intros [H3 H4]. f_equal. apply N.le_antisymm; auto.
Qed.

Lemma unwrap_iff {A} (o : option A) x : unwrap o = Ok x <-> o = Some x.
Proof. destruct o; cbn; split; intros H; try discriminate H; injection H as ->; reflexivity. Qed.

Lemma bind_iff {A B} (a : res A) (f : A -> res B) y :
  bind a f = Ok y <-> exists x, a = Ok x /\ f x = Ok y.
Proof.
  destruct a as [x|]; cbn; split.
  - intros H. exists x. auto.
  - intros (z & H & K). injection H as ->. exact K.
  - discriminate.
  - intros (z & H & _). discriminate H.
Qed.

Lemma map_res_max {A} (f : A -> res N) l n :
  (let* ms := map_res f l in unwrap (iter_max ms)) = Ok n <->
  (forall a, In a l -> exists m, f a = Ok m /\ m <= n) /\ (exists a, In a l /\ f a = Ok n).
Proof.
  rewrite bind_iff. split.
  - intros (ms & F & M). apply unwrap_iff, iter_max_iff in M as [M1 M2]. apply map_res_iff in F.
    split.
    + intros a Ha. revert Ha M2. clear M1. induction F as [|x y l ms Hxy F IH]; intros Ha M2; [destruct Ha|].
      destruct Ha as [->|Ha]; [exists y; split; [exact Hxy|apply M2; left; reflexivity]|].
      apply IH; [exact Ha|]. intros z Hz. apply M2. right. exact Hz.
    + clear M2. induction F as [|x y l ms Hxy F IH]; [destruct M1|].
      destruct M1 as [->|M1]; [exists x; split; [left; reflexivity|exact Hxy]|].
      destruct (IH M1) as (a & Ha & K). exists a. split; [right; exact Ha|exact K].
  - intros [H (a & Ha & Hn)].
    assert (X : exists ms, Forall2 (fun x y => f x = Ok y) l ms).
    { clear a Ha Hn. induction l as [|x l IH]; [exists []; constructor|].
      destruct (H x (or_introl eq_refl)) as (m & Hm & _).
      destruct IH as [ms F]; [intros b Hb; apply H; right; exact Hb|].
      exists (m :: ms). constructor; assumption. }
    destruct X as [ms F]. exists ms. split; [apply map_res_iff, F|].
    apply unwrap_iff, iter_max_iff. split.
    + clear H. induction F as [|x y l ms Hxy F IH]; [destruct Ha|].
      destruct Ha as [->|Ha]; [left; congruence|right; apply IH, Ha].
    + clear a Ha Hn. induction F as [|x y l ms Hxy F IH]; intros z Hz; [destruct Hz|].
      destruct Hz as [<-|Hz].
      * destruct (H x (or_introl eq_refl)) as (m & Hm & L). assert (m = y) by congruence. lia.
      * apply IH; [|exact Hz]. intros b Hb. apply H. right. exact Hb.
Qed.

Lemma variants_iff I v n :
  max_num_variants_for_version_of I v = Ok n <->
  exists objs, set_objects I = Ok objs /\
    (forall o, In o objs -> exists m, max_variant_idx o v = Ok m /\ m + 1 <= n) /\
    (exists o m, In o objs /\ max_variant_idx o v = Ok m /\ m + 1 = n).
Proof.
  unfold max_num_variants_for_version_of. rewrite bind_iff.
  assert (C : forall (o : OpcodeProps) k,
    (let* m := max_variant_idx o v in Ok (m + 1)) = Ok k <->
    exists m, max_variant_idx o v = Ok m /\ m + 1 = k).
  { intros o k. rewrite bind_iff. split; intros (m & H & K); exists m; split; try exact H;
      [injection K as K; exact K|rewrite K; reflexivity]. }
  split.
  - intros (objs & E0 & H). exists objs. split; [exact E0|]. apply map_res_max in H as [H1 (o & Ho & H2)].
    split.
    + intros o' Ho'. destruct (H1 o' Ho') as (k & K & L). apply C in K as (m & K & <-). eauto.
    + apply C in H2 as (m & K & <-). eauto.
  - intros (objs & E0 & H1 & (o & m & Ho & Hm & Hn)). exists objs. split; [exact E0|].
    apply map_res_max. split.
    + intros o' Ho'. destruct (H1 o' Ho') as (k & K & L). exists (k + 1). split; [apply C; eauto|exact L].
    + exists o. split; [exact Ho|]. apply C. eauto.
Qed.

(** Greatest number of flags of one opcode in one version, 0 without sub-variants. *)
Definition flags_in (o : OpcodeProps) (w : N) (m : N) : Prop :=
  exists ds, variants_data o w = Ok ds /\
    (forall d, In d ds -> num_non_exclusive_flags d <= m) /\
    (m = 0 \/ exists d, In d ds /\ num_non_exclusive_flags d = m).

Lemma flags_in_iff o w m :
  (let* vd := variants_data o w in
   Ok (match iter_max (map num_non_exclusive_flags vd) with Some m => m | None => 0 end)) = Ok m
  <-> flags_in o w m.
Proof.
  rewrite bind_iff. unfold flags_in. split; intros (ds & E & H); exists ds; (split; [exact E|]).
  - destruct (iter_max (map num_non_exclusive_flags ds)) as [k|] eqn:M; injection H as <-.
    + apply iter_max_iff in M as [M1 M2]. split.
      * intros d Hd. apply M2, in_map, Hd.
      * right. apply in_map_iff in M1 as (d & Hd & Hin). eauto.
    + destruct ds as [|d ds]; [|discriminate M]. split; [intros d []|left; reflexivity].
  - f_equal. destruct H as [H1 H2].
    destruct (iter_max (map num_non_exclusive_flags ds)) as [k|] eqn:M.
    + apply iter_max_iff in M as [M1 M2]. apply in_map_iff in M1 as (d & Hd & Hin).
      apply N.le_antisymm; [rewrite <- Hd; apply H1, Hin|].
      destruct H2 as [->|(d' & Hin' & <-)]; [lia|]. apply M2, in_map, Hin'.
    + destruct ds as [|d ds]; [|discriminate M]. destruct H2 as [->|(d' & [] & _)]. reflexivity.
Qed.

Lemma flags_iff I v n :
  max_num_flags_for_version_of I v = Ok n <->
  exists objs, set_objects I = Ok objs /\ objs <> [] /\
    (exists w, In w (set_versions I) /\ w <= v) /\
    (forall o w, In o objs -> In w (set_versions I) -> w <= v ->
       exists ds, variants_data o w = Ok ds /\ forall d, In d ds -> num_non_exclusive_flags d <= n) /\
    (n = 0 \/ exists o w ds d, In o objs /\ In w (set_versions I) /\ w <= v /\
       variants_data o w = Ok ds /\ In d ds /\ num_non_exclusive_flags d = n).
Proof.
  unfold max_num_flags_for_version_of. rewrite bind_iff.
  assert (V : forall w, In w (filter (fun el => el <=? v) (set_versions I)) <->
                        In w (set_versions I) /\ w <= v).
  { intros w. rewrite filter_In, N.leb_le. reflexivity. }
  split.
  - intros (objs & E0 & H). exists objs. split; [exact E0|].
    apply map_res_max in H as [H1 (o & Ho & H2)].
    split; [intros ->; destruct Ho|]. apply map_res_max in H2 as [_ (w & Hw & H2)].
    apply V in Hw as [Hw Hv]. split; [eauto|]. split.
    + intros o' w' Ho' Hw' Hv'. destruct (H1 o' Ho') as (k & K & L). apply map_res_max in K as [K _].
      destruct (K w') as (m & M & Lm); [apply V; auto|]. apply flags_in_iff in M as (ds & D & M & _).
      exists ds. split; [exact D|]. intros d Hd. specialize (M d Hd). lia.
    + apply flags_in_iff in H2 as (ds & D & _ & [->|(d & Hd & Hn)]); [left; reflexivity|right].
      exists o, w, ds, d. auto 8.
  - intros (objs & E0 & Hne & (w0 & Hw0 & Hv0) & H1 & H2). exists objs. split; [exact E0|].
    assert (G : forall o, In o objs -> exists m, m <= n /\
       (let* per_version := map_res (fun el => let* vd := variants_data o el in
          Ok match iter_max (map num_non_exclusive_flags vd) with Some m => m | None => 0 end)
          (filter (fun el => el <=? v) (set_versions I)) in unwrap (iter_max per_version)) = Ok m).
    { intros o Ho.
      assert (A : forall w, In w (filter (fun el => el <=? v) (set_versions I)) ->
         exists m, flags_in o w m /\ m <= n).
      { intros w Hw. apply V in Hw as [Hw Hv]. destruct (H1 o w Ho Hw Hv) as (ds & D & L).
        exists (match iter_max (map num_non_exclusive_flags ds) with Some m => m | None => 0 end).
        split; [apply flags_in_iff; rewrite D; reflexivity|].
        destruct (iter_max (map num_non_exclusive_flags ds)) as [k|] eqn:M; [|lia].
        apply iter_max_iff in M as [M1 _]. apply in_map_iff in M1 as (d & <- & Hd). apply L, Hd. }
      assert (B : In w0 (filter (fun el => el <=? v) (set_versions I))) by (apply V; auto).
      destruct (filter (fun el => el <=? v) (set_versions I)) as [|a l]; [destruct B|].
      clear B. assert (X : exists m w, m <= n /\ In w (a :: l) /\ flags_in o w m /\
         forall w', In w' (a :: l) -> exists m', flags_in o w' m' /\ m' <= m).
      { clear - A. revert a A. induction l as [|b l IH]; intros a A.
        - destruct (A a (or_introl eq_refl)) as (m & F & L). exists m, a.
          split; [exact L|]. split; [left; reflexivity|]. split; [exact F|].
          intros w' [<-|[]]. exists m. split; [exact F|lia].
        - destruct (IH b) as (m & w & L & Hw & F & G); [intros w Hw; apply A; right; exact Hw|].
          destruct (A a (or_introl eq_refl)) as (m' & F' & L').
          destruct (N.le_gt_cases m' m) as [C|C].
          + exists m, w. split; [exact L|]. split; [right; exact Hw|]. split; [exact F|].
            intros w' [<-|Hw']; [exists m'; auto|]. apply G, Hw'.
          + exists m', a. split; [exact L'|]. split; [left; reflexivity|]. split; [exact F'|].
            intros w' [<-|Hw']; [exists m'; split; [exact F'|lia]|].
            destruct (G w' Hw') as (m2 & F2 & L2). exists m2. split; [exact F2|lia]. }
      destruct X as (m & w & L & Hw & F & G). exists m. split; [exact L|]. apply map_res_max. split.
      - intros w' Hw'. destruct (G w' Hw') as (m' & F' & L'). exists m'. split; [apply flags_in_iff, F'|exact L'].
      - exists w. split; [exact Hw|apply flags_in_iff, F]. }
    apply map_res_max. split.
    + intros o Ho. destruct (G o Ho) as (m & L & K). exists m. auto.
    + destruct H2 as [->|(o & w & ds & d & Ho & Hw & Hv & D & Hd & Hn)].
      * destruct objs as [|o objs]; [contradiction|]. exists o. split; [left; reflexivity|].
        destruct (G o (or_introl eq_refl)) as (m & L & K). assert (m = 0) by lia. subst m. exact K.
      * exists o. split; [exact Ho|]. destruct (G o Ho) as (m & L & K). rewrite K. f_equal.
        apply N.le_antisymm; [exact L|]. apply map_res_max in K as [K _].
        destruct (K w) as (m' & F & Lm); [apply V; auto|].
        apply flags_in_iff in F as (ds' & D' & M & _). assert (ds' = ds) by congruence. subst ds'.
        specialize (M d Hd). lia.
Qed.

(** The widths of the fields, for every instruction set: one more than the greatest sub-variant
    index, the greatest number of flags over all versions up to the given one, their sum with the
    fixed widths, and that sum rounded up to the next multiple of 16.  They are defined exactly if
    the queries succeed and there is an opcode and, for the flags, a version. *)
Lemma pf_C76_widths :
  forall I v,
    (forall n, max_num_variants_for_version_of I v = Ok n <->
       exists objs, set_objects I = Ok objs /\
         (forall o, In o objs -> exists m, max_variant_idx o v = Ok m /\ m + 1 <= n) /\
         (exists o m, In o objs /\ max_variant_idx o v = Ok m /\ m + 1 = n)) /\
    (forall n, max_num_flags_for_version_of I v = Ok n <->
       exists objs, set_objects I = Ok objs /\ objs <> [] /\
         (exists w, In w (set_versions I) /\ w <= v) /\
         (forall o w, In o objs -> In w (set_versions I) -> w <= v ->
            exists ds, variants_data o w = Ok ds /\
                       forall d, In d ds -> num_non_exclusive_flags d <= n) /\
         (n = 0 \/ exists o w ds d, In o objs /\ In w (set_versions I) /\ w <= v /\
            variants_data o w = Ok ds /\ In d ds /\ num_non_exclusive_flags d = n)) /\
    (forall t, total_description_bits_for_version_of I v = Ok t <->
       exists nv nf, max_num_variants_for_version_of I v = Ok nv /\
         max_num_flags_for_version_of I v = Ok nf /\ t = 16 + nv + nf + 6 + 4) /\
    (forall r, total_description_bits_rounded_for_version_of I v = Ok r <->
       exists t, total_description_bits_for_version_of I v = Ok t /\
         r mod 16 = 0 /\ t <= r < t + 16).
Proof.
  intros I v. split; [intros n; apply variants_iff|]. split; [intros n; apply flags_iff|].
  assert (T : forall t, total_description_bits_for_version_of I v = Ok t <->
       exists nv nf, max_num_variants_for_version_of I v = Ok nv /\
         max_num_flags_for_version_of I v = Ok nf /\ t = 16 + nv + nf + 6 + 4).
  { intros t. unfold total_description_bits_for_version_of. rewrite bind_iff. split.
    - intros (nv & E1 & H). apply bind_iff in H as (nf & E2 & H). injection H as <-.
      exists nv, nf. auto.
    - intros (nv & nf & E1 & E2 & ->). exists nv. split; [exact E1|]. apply bind_iff. exists nf. auto. }
  split; [exact T|]. intros r. unfold total_description_bits_rounded_for_version_of. rewrite bind_iff.
  assert (R : forall nv nf,
    (let total := OPCODE_TYPE_BITS + nv + nf + OPCODE_INPUT_VARIANT_FLAGS
                  + OPCODE_OUTPUT_VARIANT_FLAGS in
     if negb (total mod WIDTH_MULTIPLE =? 0)
     then Ok (total + (WIDTH_MULTIPLE - total mod WIDTH_MULTIPLE)) else Ok total) = Ok r <->
    r mod 16 = 0 /\ 16 + nv + nf + 6 + 4 <= r < 16 + nv + nf + 6 + 4 + 16).
  { intros nv nf. change OPCODE_TYPE_BITS with 16. change OPCODE_INPUT_VARIANT_FLAGS with 6.
    change OPCODE_OUTPUT_VARIANT_FLAGS with 4. change WIDTH_MULTIPLE with 16. cbv zeta.
    set (t := 16 + nv + nf + 6 + 4). clearbody t.
    assert (M := N.mod_lt t 16). assert (D := N.div_mod t 16).
    assert (D' := N.div_mod r 16).
    assert (J : forall a b : N, Ok a = Ok b -> a = b) by congruence.
    destruct (t mod 16 =? 0) eqn:E; cbn [negb];
      (split; [intros H; apply J in H; subst r|intros (H1 & H2); f_equal]); try lia. }
  split.
  - intros (nv & E1 & H). apply bind_iff in H as (nf & E2 & H). apply R in H.
    exists (16 + nv + nf + 6 + 4). split; [apply T; eauto|exact H].
  - intros (t & H & K). apply T in H as (nv & nf & E1 & E2 & ->). exists nv. split; [exact E1|].
    apply bind_iff. exists nf. split; [exact E2|]. apply R, K.
Qed.

(** ** The mask *)

Lemma or_if bld (b : bool) e k : k < 64 ->
  (if b then let* x := shl_one bld 64 k in Ok (N.lor e x) else Ok e) = Ok (N.lor e (bit_if b k)).
Proof.
  intros H. destruct b; cbn [bit_if]; [rewrite shl_one_ok by exact H; reflexivity|].
  rewrite N.lor_0_r. reflexivity.
Qed.

Lemma explicit_panic x : OpcodeVariant_is_explicit_panic x = spec_is_invalid (opcode x).
Proof. destruct x as [o ? ? ?]; destruct o; reflexivity. Qed.

(** Past its shifts, the function has checked both widths. *)
Lemma mask_fits I bld x v m :
  opcode_as_integer_bitmask_of I bld x v = Ok m ->
  exists objs nv nf r, set_objects I = Ok objs /\
    max_num_variants_for_version_of I v = Ok nv /\ max_num_flags_for_version_of I v = Ok nf /\
    total_description_bits_rounded_for_version_of I v = Ok r /\
    N.of_nat (List.length objs) + nv + nf + 10 <= r /\ r + 3 <= 64.
Proof.
  unfold opcode_as_integer_bitmask_of. intros H.
  apply bind_iff in H as (nv & E1 & H). apply bind_iff in H as (nf & E2 & H).
  apply bind_iff in H as (b1 & _ & H). apply bind_iff in H as (objs & E0 & H).
  apply bind_iff in H as (b2 & _ & H). apply bind_iff in H as (e3 & _ & H).
  apply bind_iff in H as (b4 & _ & H). apply bind_iff in H as (b5 & _ & H).
  apply bind_iff in H as (r & E3 & H). apply bind_iff in H as (u1 & A1 & H).
  apply bind_iff in H as (e6 & _ & H). apply bind_iff in H as (e7 & _ & H).
  apply bind_iff in H as (e8 & _ & H). apply bind_iff in H as (u2 & A2 & H).
  exists objs, nv, nf, r. repeat (split; [assumption|]).
  unfold assert_ in A1, A2. destruct (_ <=? r) eqn:L1 in A1; [|discriminate A1].
  destruct (_ <=? 64) eqn:L2 in A2; [|discriminate A2]. unfold len in L1.
  change NUM_INPUT_VARIANTS with 6 in L1. change NUM_OUTPUT_VARIANTS with 4 in L1.
  change KERNEL_MODE_FLAG_BITS with 1 in L2.
  change CAN_BE_USED_IN_STATIC_CONTEXT_FLAG_BITS with 1 in L2.
  change EXPLICIT_PANIC_FLAG_BITS with 1 in L2. lia.
Qed.

Lemma mask_bits_of I bld x v objs nv nf r :
  set_objects I = Ok objs ->
  max_num_variants_for_version_of I v = Ok nv -> max_num_flags_for_version_of I v = Ok nf ->
  total_description_bits_rounded_for_version_of I v = Ok r ->
  N.of_nat (List.length objs) + nv + nf + 10 <= r -> r + 3 <= 64 ->
  describable I (N.of_nat (List.length objs)) nv nf x ->
  exists m, opcode_as_integer_bitmask_of I bld x v = Ok m /\
    forall i, N.testbit m i = description_bit I (N.of_nat (List.length objs)) nv nf r x i.
Proof.
  intros E0 E1 E2 E3 L1 L2 (D1 & D2 & D3 & D4 & D5).
  assert (M0 := operand_mode_lt (src0_operand_type x)).
  unfold opcode_as_integer_bitmask_of. rewrite E1. cbn [bind]. rewrite E2. cbn [bind].
  rewrite (operand_idx_eq (src0_operand_type x)), (operand_idx_eq (dst0_operand_type x)). cbv zeta.
  rewrite shl_one_ok by lia. cbn [bind]. rewrite E0. cbn [bind]. unfold len.
  set (k := N.of_nat (List.length objs)) in *.
  rewrite shl_one_ok by lia. cbn [bind].
  unfold enumerate. cbn [enumerate_from for_each].
  rewrite or_if by lia. cbn [bind]. rewrite or_if by lia. cbn [bind].
  rewrite shl_one_ok by lia. cbn [bind].
  change NUM_INPUT_VARIANTS with 6. change NUM_OUTPUT_VARIANTS with 4.
  rewrite shl_one_ok by lia. cbn [bind].
  rewrite E3. cbn [bind].
  change KERNEL_MODE_FLAG_BITS with 1. change CAN_BE_USED_IN_STATIC_CONTEXT_FLAG_BITS with 1.
  change EXPLICIT_PANIC_FLAG_BITS with 1.
  replace (_ <=? r) with true by lia. cbn [assert_ bind].
  rewrite !or_if by lia. cbn [bind]. rewrite !or_if by lia. cbn [bind].
  rewrite !or_if by lia. cbn [bind].
  replace (r + 1 + 1 + 1 <=? 64) with true by lia. cbn [assert_ bind].
  eexists. split; [reflexivity|]. intros i. rewrite explicit_panic.
  rewrite !N.lor_spec, !testbit_bit_if, !N.pow2_bits_eqb, N.bits_0. unfold description_bit.
  rewrite !N.add_0_l, N.add_0_r, orb_false_l, (N.eqb_sym _ i), (N.eqb_sym (k + _) i).
  replace (r + 1 + 1) with (r + 2) by lia.
  rewrite (N.eqb_sym (k + nv + nf + _) i), (N.eqb_sym (k + nv + nf + 6 + _) i).
  reflexivity.
Qed.

(** The description of a variant, for every instruction set: defined, in both builds, exactly if
    the widths are defined and leave room for all fields within 64 bits; and then its bits are
    one bit per field at that field's place. *)
Lemma pf_C76_mask :
  forall I bld x v,
    (forall m, opcode_as_integer_bitmask_of I bld x v = Ok m ->
       exists objs nv nf r, set_objects I = Ok objs /\
         max_num_variants_for_version_of I v = Ok nv /\
         max_num_flags_for_version_of I v = Ok nf /\
         total_description_bits_rounded_for_version_of I v = Ok r /\
         N.of_nat (List.length objs) + nv + nf + 10 <= r /\ r + 3 <= 64) /\
    (forall objs nv nf r, set_objects I = Ok objs ->
       max_num_variants_for_version_of I v = Ok nv ->
       max_num_flags_for_version_of I v = Ok nf ->
       total_description_bits_rounded_for_version_of I v = Ok r ->
       N.of_nat (List.length objs) + nv + nf + 10 <= r -> r + 3 <= 64 ->
       describable I (N.of_nat (List.length objs)) nv nf x ->
       exists m, opcode_as_integer_bitmask_of I bld x v = Ok m /\
         forall i, N.testbit m i = description_bit I (N.of_nat (List.length objs)) nv nf r x i).
Proof.
  intros I bld x v. split; [apply mask_fits|]. apply mask_bits_of.
Qed.

(** Equal descriptions describe the same: in every instruction set the description determines
    the opcode and sub-variant numbers, the flags, both modes and the three attributes. *)
Lemma pf_C76_injective :
  forall I bld bld' x y v objs nv nf m,
    set_objects I = Ok objs ->
    max_num_variants_for_version_of I v = Ok nv ->
    max_num_flags_for_version_of I v = Ok nf ->
    describable I (N.of_nat (List.length objs)) nv nf x ->
    describable I (N.of_nat (List.length objs)) nv nf y ->
    opcode_as_integer_bitmask_of I bld x v = Ok m ->
    opcode_as_integer_bitmask_of I bld' y v = Ok m ->
    set_index I (opcode x) = set_index I (opcode y) /\
    set_sub_index I (opcode x) = set_sub_index I (opcode y) /\ flags x = flags y /\
    spec_operand_mode (src0_operand_type x) = spec_operand_mode (src0_operand_type y) /\
    spec_operand_mode (dst0_operand_type x) = spec_operand_mode (dst0_operand_type y) /\
    set_kernel I (opcode x) = set_kernel I (opcode y) /\
    set_static I (opcode x) = set_static I (opcode y) /\
    spec_is_invalid (opcode x) = spec_is_invalid (opcode y).
Proof.
  intros I bld bld' x y v objs nv nf m E0 E1 E2 Dx Dy Hx Hy.
  destruct (mask_fits _ _ _ _ _ Hx) as (objs' & nv' & nf' & r & E0' & E1' & E2' & E3 & L1 & L2).
  assert (objs' = objs) by congruence. assert (nv' = nv) by congruence.
  assert (nf' = nf) by congruence. subst objs' nv' nf'.
  destruct (mask_bits_of I bld x v objs nv nf r E0 E1 E2 E3 L1 L2 Dx) as (m1 & M1 & B1).
  destruct (mask_bits_of I bld' y v objs nv nf r E0 E1 E2 E3 L1 L2 Dy) as (m2 & M2 & B2).
  assert (m1 = m) by congruence. assert (m2 = m) by congruence. subst m1 m2.
  assert (B : forall i, description_bit I (N.of_nat (List.length objs)) nv nf r x i
                        = description_bit I (N.of_nat (List.length objs)) nv nf r y i)
    by (intros i; rewrite <- B1, <- B2; reflexivity).
  clear - Dx Dy L1 L2 B. set (k := N.of_nat (List.length objs)) in *. clearbody k.
  destruct Dx as (X1 & X2 & X3 & X4 & X5). destruct Dy as (Y1 & Y2 & Y3 & Y4 & Y5).
  assert (XM := operand_mode_lt (src0_operand_type x)).
  assert (YM := operand_mode_lt (src0_operand_type y)).
  destruct x as [ox sx dx [fx gx]], y as [oy sy dy [fy gy]].
  cbn [opcode src0_operand_type dst0_operand_type flags fst snd] in *.
  unfold description_bit in B. cbn [opcode src0_operand_type dst0_operand_type flags fst snd] in B.
  set (s1 := spec_operand_mode sx) in *. set (s2 := spec_operand_mode sy) in *.
  set (d1 := spec_operand_mode dx) in *. set (d2 := spec_operand_mode dy) in *.
  clearbody s1 s2 d1 d2.
  set (a1 := set_index I ox) in *. set (a2 := set_index I oy) in *.
  set (b1 := set_sub_index I ox) in *. set (b2 := set_sub_index I oy) in *.
  set (p1 := set_kernel I ox) in *. set (p2 := set_kernel I oy) in *.
  set (q1 := set_static I ox) in *. set (q2 := set_static I oy) in *.
  set (z1 := spec_is_invalid ox) in *. set (z2 := spec_is_invalid oy) in *.
  clearbody a1 a2 b1 b2 p1 p2 q1 q2 z1 z2. cbn [fst snd] in *.
  assert (FX : fx = false \/ 1 <= nf) by (destruct (N.eq_dec nf 0) as [Z|Z]; [auto|right; lia]).
  assert (FY : fy = false \/ 1 <= nf) by (destruct (N.eq_dec nf 0) as [Z|Z]; [auto|right; lia]).
  assert (GX : gx = false \/ 2 <= nf) by (destruct (N.le_gt_cases nf 1); [auto|right; lia]).
  assert (GY : gy = false \/ 2 <= nf) by (destruct (N.le_gt_cases nf 1); [auto|right; lia]).
  clear X3 X4 Y3 Y4.
  split; [assert (K := B a1); lia|].
  split; [assert (K := B (k + b1)); lia|].
  assert (K1 := B (k + nv)). assert (K2 := B (k + nv + 1)). assert (K3 := B (k + nv + nf + s1)).
  assert (K4 := B (k + nv + nf + 6 + d1)). assert (K5 := B r). assert (K6 := B (r + 1)).
  assert (K7 := B (r + 2)). clear B.
  assert (F : fx = fy) by (clear K2 K3 K4 K5 K6 K7; destruct fx, fy, gx, gy; lia).
  assert (G : gx = gy) by (clear K1 K3 K4 K5 K6 K7; destruct fx, fy, gx, gy; lia).
  split; [congruence|]. subst fy gy. clear K1 K2.
  split; [clear K4 K5 K6 K7; destruct fx, gx; lia|].
  split; [clear K3 K5 K6 K7; destruct fx, gx; lia|].
  split; [clear K3 K4 K6 K7; destruct p1, p2; lia|].
  split; [clear K3 K4 K5 K7; destruct q1, q2; lia|].
  clear K3 K4 K5 K6; destruct z1, z2; lia.
Qed.

(** Describing a whole table asks in addition for exactly sixteen opcodes. *)
Lemma pf_C76_table :
  forall I bld l v ms,
    synthesize_bit_decomposition_table_of I bld l v = Ok ms <->
    exists objs, set_objects I = Ok objs /\ List.length objs = 16%nat /\
      Forall2 (fun x m => opcode_as_integer_bitmask_of I bld x v = Ok m) l ms.
Proof.
  intros I bld l v ms. unfold synthesize_bit_decomposition_table_of. rewrite bind_iff.
  assert (C : forall s, for_each (fun result opcode =>
      let* encoding := opcode_as_integer_bitmask_of I bld opcode v in Ok (result ++ [encoding])) l s
    = let* ys := map_res (fun x => let* m := opcode_as_integer_bitmask_of I bld x v in Ok [m]) l in
      Ok (s ++ List.concat ys)).
  { apply for_each_collect. intros s x. destruct (opcode_as_integer_bitmask_of I bld x v); reflexivity. }
  assert (D : (let* ys := map_res (fun x => let* m := opcode_as_integer_bitmask_of I bld x v in Ok [m]) l
               in Ok (List.concat ys))
              = map_res (fun x => opcode_as_integer_bitmask_of I bld x v) l).
  { clear C. induction l as [|x l IH]; [reflexivity|]. cbn [map_res].
    destruct (opcode_as_integer_bitmask_of I bld x v) as [m|]; cbn [bind]; [|reflexivity].
    rewrite <- IH. destruct (map_res _ l); reflexivity. }
  split.
  - intros (objs & E0 & H). exists objs. split; [exact E0|].
    apply bind_iff in H as (u & A & H). change OPCODE_TYPE_BITS with 16 in A. unfold len in A.
    destruct (N.of_nat (List.length objs) =? 16) eqn:L; [|discriminate A]. split; [lia|].
    change (ImmMemHandlerFlags_num_src_variants =? OPCODE_INPUT_VARIANT_FLAGS) with true in H.
    change (ImmMemHandlerFlags_num_dst_variants =? OPCODE_OUTPUT_VARIANT_FLAGS) with true in H.
    cbn [assert_ bind] in H. rewrite C in H. apply map_res_iff. rewrite <- D. exact H.
  - intros (objs & E0 & L & F). exists objs. split; [exact E0|]. unfold len. rewrite L.
    change (N.of_nat 16 =? OPCODE_TYPE_BITS) with true.
    change (ImmMemHandlerFlags_num_src_variants =? OPCODE_INPUT_VARIANT_FLAGS) with true.
    change (ImmMemHandlerFlags_num_dst_variants =? OPCODE_OUTPUT_VARIANT_FLAGS) with true.
    cbn [assert_ bind]. rewrite C. apply map_res_iff in F. rewrite <- D in F. exact F.
Qed.

(** ** Numerals are unique *)

Lemma digit_inj c c' d : digit_value c = Some d -> digit_value c' = Some d -> d < 10 -> c = c'.
Proof.
  unfold digit_value. intros H H' L.
  rewrite <- (Ascii.ascii_N_embedding c), <- (Ascii.ascii_N_embedding c'). f_equal.
  destruct (_ && _) eqn:A in H; [|destruct (_ && _) eqn:A' in H; [|discriminate H]];
  (destruct (_ && _) eqn:B in H'; [|destruct (_ && _) eqn:B' in H'; [|discriminate H']]);
    injection H as H; injection H' as H'; lia.
Qed.

Lemma numeral_range s : forall a n, numeral 10 a s = Some n ->
  a * 10 ^ N.of_nat (String.length s) <= n < (a + 1) * 10 ^ N.of_nat (String.length s).
Proof.
  induction s as [|c s IH]; intros a n H; cbn [numeral String.length] in *.
  - injection H as <-. rewrite N.pow_0_r. lia.
  - destruct (digit_value c) as [d|]; [|discriminate H].
    destruct (d <? 10) eqn:L; [|discriminate H]. apply IH in H.
    rewrite Nat2N.inj_succ, N.pow_succ_r'. set (p := 10 ^ N.of_nat (String.length s)) in *.
    clearbody p. nia.
Qed.

Lemma numeral_inj s : forall t a b n, String.length s = String.length t ->
  numeral 10 a s = Some n -> numeral 10 b t = Some n -> a = b /\ s = t.
Proof.
  induction s as [|c s IH]; intros [|c' t] a b n L H K; try discriminate L;
    cbn [numeral] in *; [split; congruence|].
  destruct (digit_value c) as [d|] eqn:D; [|discriminate H].
  destruct (d <? 10) eqn:E; [|discriminate H].
  destruct (digit_value c') as [d'|] eqn:D'; [|discriminate K].
  destruct (d' <? 10) eqn:E'; [|discriminate K].
  cbn [String.length] in L. destruct (IH t _ _ n (f_equal pred L) H K) as [A ->].
  assert (d = d') by lia. subst d'. split; [lia|]. f_equal. apply (digit_inj c c' d D D'). lia.
Qed.

Lemma decimal_lead n s : decimal_text n s -> s <> "0"%string ->
  10 ^ N.of_nat (pred (String.length s)) <= n.
Proof.
  intros (H & E & Z) NE. destruct s as [|c s]; [contradiction|].
  cbn [numeral] in H. destruct (digit_value c) as [d|] eqn:D; [|discriminate H].
  destruct (d <? 10) eqn:L; [|discriminate H]. apply numeral_range in H.
  cbn [String.length pred]. assert (d <> 0).
  { intros ->. assert (c = "0"%char) by (apply (digit_inj _ _ 0 D); reflexivity). subst c.
    apply NE, Z. reflexivity. }
  set (p := 10 ^ N.of_nat (String.length s)) in *. clearbody p. nia.
Qed.

Lemma decimal_unique n s t : decimal_text n s -> decimal_text n t -> s = t.
Proof.
  assert (W : forall s t, decimal_text n s -> decimal_text n t -> s <> "0"%string ->
    (String.length s <= String.length t)%nat).
  { clear s t. intros s t Hs Ht Z. assert (A := decimal_lead n s Hs Z).
    destruct Ht as (Ht & _ & _). assert (B := numeral_range t 0 n Ht).
    destruct (Nat.le_gt_cases (String.length s) (String.length t)) as [C|C]; [exact C|exfalso].
    assert (10 ^ N.of_nat (String.length t) <= 10 ^ N.of_nat (pred (String.length s)))
      by (apply N.pow_le_mono_r; lia). lia. }
  intros Hs Ht.
  assert (P : forall u, decimal_text 0 u -> u = "0"%string).
  { intros u Hu. destruct (string_dec u "0") as [->|Z]; [reflexivity|exfalso].
    assert (A := decimal_lead 0 u Hu Z).
    assert (10 ^ N.of_nat (pred (String.length u)) <> 0) by (apply N.pow_nonzero; lia). lia. }
  destruct (N.eq_dec n 0) as [->|NZ]; [rewrite (P s Hs), (P t Ht); reflexivity|].
  assert (Q : forall u, decimal_text n u -> u <> "0"%string).
  { intros u (Hu & _) ->. cbn in Hu. congruence. }
  assert (L : String.length s = String.length t)
    by (apply Nat.le_antisymm; [apply (W s t)|apply (W t s)]; auto).
  destruct Hs as (Hs & _), Ht as (Ht & _). exact (proj2 (numeral_inj s t 0 0 n L Hs Ht)).
Qed.

(** The text of the format description, for every instruction set. *)
Lemma pf_C76_format :
  forall I v s,
    compute_decoding_format_of I v = Ok s <->
    exists objs nv nf n t a b c,
      set_objects I = Ok objs /\ max_num_variants_for_version_of I v = Ok nv /\
      max_num_flags_for_version_of I v = Ok nf /\ N.of_nat (List.length objs) = n /\
      decimal_text (n + nv + nf + 10) t /\ decimal_text n a /\ decimal_text nv b /\
      decimal_text nf c /\
      s = (t ++ " bits in total." ++ String (Ascii.ascii_of_N 10) ""
           ++ a ++ " bit flags for opcode|" ++ b ++ " bit flags for variant|"
           ++ c ++ " bit flags for flags|6 bits flags for input type|"
           ++ "4 bit flags for output type")%string.
Proof.
  intros I v s. unfold compute_decoding_format_of. rewrite bind_iff.
  assert (T : forall n nv nf,
    (fmt_u32 (n + nv + nf + ImmMemHandlerFlags_num_src_variants + ImmMemHandlerFlags_num_dst_variants)
      ++ " bits in total." ++ nl ++ fmt_u32 n ++ " bit flags for opcode|"
      ++ fmt_u32 nv ++ " bit flags for variant|" ++ fmt_u32 nf ++ " bit flags for flags|"
      ++ fmt_u32 ImmMemHandlerFlags_num_src_variants ++ " bits flags for input type|"
      ++ fmt_u32 ImmMemHandlerFlags_num_dst_variants ++ " bit flags for output type")%string
    = (fmt_u32 (n + nv + nf + 10) ++ " bits in total." ++ String (Ascii.ascii_of_N 10) ""
       ++ fmt_u32 n ++ " bit flags for opcode|" ++ fmt_u32 nv ++ " bit flags for variant|"
       ++ fmt_u32 nf ++ " bit flags for flags|6 bits flags for input type|"
       ++ "4 bit flags for output type")%string).
  { intros n nv nf. change ImmMemHandlerFlags_num_src_variants with 6.
    change ImmMemHandlerFlags_num_dst_variants with 4.
    replace (n + nv + nf + 6 + 4) with (n + nv + nf + 10) by lia. reflexivity. }
  split.
  - intros (objs & E0 & H). apply bind_iff in H as (nv & E1 & H). apply bind_iff in H as (nf & E2 & H).
    cbv zeta in H. unfold len in H. rewrite T in H.
    exists objs, nv, nf, (N.of_nat (List.length objs)). do 4 eexists. split; [exact E0|].
    split; [exact E1|]. split; [exact E2|]. split; [reflexivity|].
    split; [apply fmt_decimal|]. split; [apply fmt_decimal|]. split; [apply fmt_decimal|].
    split; [apply fmt_decimal|]. injection H as <-. reflexivity.
  - intros (objs & nv & nf & n & t & a & b & c & E0 & E1 & E2 & <- & Ht & Ha & Hb & Hc & ->).
    exists objs. split; [exact E0|]. apply bind_iff. exists nv. split; [exact E1|].
    apply bind_iff. exists nf. split; [exact E2|]. cbv zeta. unfold len. rewrite T.
    rewrite (decimal_unique _ _ _ Ht (fmt_decimal _)), (decimal_unique _ _ _ Ha (fmt_decimal _)),
      (decimal_unique _ _ _ Hb (fmt_decimal _)), (decimal_unique _ _ _ Hc (fmt_decimal _)).
    reflexivity.
Qed.

(** The functions of the source are those above for the current instruction set. *)
Lemma pf_C76_current :
  (forall v, max_num_variants_for_version_of current_set v = max_num_variants_for_version v) /\
  (forall v, max_num_flags_for_version_of current_set v = max_num_flags_for_version v) /\
  (forall v, total_description_bits_for_version_of current_set v
             = total_description_bits_for_version v) /\
  (forall v, total_description_bits_rounded_for_version_of current_set v
             = total_description_bits_rounded_for_version v) /\
  (forall bld x v, opcode_as_integer_bitmask_of current_set bld x v
                   = opcode_as_integer_bitmask bld x v) /\
  (forall bld l v, synthesize_bit_decomposition_table_of current_set bld l v
                   = synthesize_bit_decomposition_table bld l v) /\
  (forall v, compute_decoding_format_of current_set v = compute_decoding_format v) /\
  (forall x, spec_well_formed 1 x = true -> describable current_set 16 10 2 x).
Proof.
  repeat (split; [reflexivity|]). intros x H. unfold describable.
  change (set_index current_set (opcode x)) with (Opcode_variant_idx (opcode x)).
  change (set_sub_index current_set (opcode x)) with (Opcode_materialize_subvariant_idx (opcode x)).
  rewrite family_eq, sub_eq. assert (F := family_lt (opcode x)). assert (S := sub_lt (opcode x)).
  assert (S' := sub_count_le (opcode x)). split; [exact F|]. split; [lia|]. split; [lia|].
  split; [lia|]. destruct x as [o s d f]. cbn [dst0_operand_type] in *.
  unfold spec_well_formed in H. cbn [opcode src0_operand_type dst0_operand_type] in H.
  apply andb_prop in H as [H _]. unfold spec_operands_ok in H.
  destruct (spec_addressing 1 o), s, d as [|[]|[]]; try discriminate H; reflexivity.
Qed.

Example pf_C76_example :
  max_num_variants_for_version_of toy_set 1 = Ok 1 /\
  max_num_flags_for_version_of toy_set 0 = Ok 0 /\
  max_num_flags_for_version_of toy_set 1 = Ok 2 /\
  total_description_bits_for_version_of toy_set 1 = Ok 29 /\
  total_description_bits_rounded_for_version_of toy_set 1 = Ok 32 /\
  describable toy_set 3 1 2
    (mkOpcodeVariant (Op_Nop nopOpcode) (Full UseCodePage) (Full UseStackWithOffset) (true, false)) /\
  opcode_as_integer_bitmask_of toy_set Release
    (mkOpcodeVariant (Op_Nop nopOpcode) (Full UseCodePage) (Full UseStackWithOffset) (true, false)) 1
  = Ok (2 ^ 2 + 2 ^ 3 + 2 ^ 4 + 2 ^ 11 + 2 ^ 14 + 2 ^ 32 + 2 ^ 33).
Proof.
  split; [reflexivity|]. split; [reflexivity|]. split; [reflexivity|]. split; [reflexivity|].
  split; [reflexivity|]. split; [unfold describable; cbn; repeat split; lia|]. vm_compute. reflexivity.
Qed.
