(** * Proofs about counting on a machine integer. *)

From Coq Require Import Arith NArith Lia ZArith List Bool String.
From Verif Require Import Machine Constants Operands OpcodeTrait Opcodes AllOpcodes Tables Overflow
  SpecIsa SpecFamilies SpecSets SpecOverflow.
From Coq Require Import ZifyBool ZifyNat ZifyN.
From Verif Require Import BitLemmas TableProofs TableProofs2 TableProofs3 ProofsTables ProofsSets
  ProofsMasks.
Import ListNotations.
Open Scope N_scope.

(** ** Operations *)

Lemma pow_pos p : 0 < 2 ^ p.
Proof. assert (2 ^ p <> 0) by (apply N.pow_nonzero; discriminate). lia. Qed.

Lemma add_fits p bld a b : a + b < 2 ^ p -> add_w bld p a b = Ok (a + b).
Proof. intros H. unfold add_w. destruct (a + b <? 2 ^ p) eqn:E; [reflexivity|lia]. Qed.

Lemma add_over p a b : 2 ^ p <= a + b -> add_w Debug p a b = Panic.
Proof. intros H. unfold add_w. destruct (a + b <? 2 ^ p) eqn:E; [lia|reflexivity]. Qed.

Lemma add_release p a b : add_w Release p a b = Ok ((a + b) mod 2 ^ p).
Proof.
  unfold add_w, wrapping_add_w. destruct (a + b <? 2 ^ p) eqn:E; [|reflexivity].
  rewrite N.mod_small by lia. reflexivity.
Qed.

Lemma mul_fits p bld a b : a * b < 2 ^ p -> mul_w bld p a b = Ok (a * b).
Proof. intros H. unfold mul_w. destruct (a * b <? 2 ^ p) eqn:E; [reflexivity|lia]. Qed.

Lemma mul_over p a b : 2 ^ p <= a * b -> mul_w Debug p a b = Panic.
Proof. intros H. unfold mul_w. destruct (a * b <? 2 ^ p) eqn:E; [lia|reflexivity]. Qed.

Lemma mul_release p a b : mul_w Release p a b = Ok ((a * b) mod 2 ^ p).
Proof.
  unfold mul_w. destruct (a * b <? 2 ^ p) eqn:E; [|reflexivity].
  rewrite N.mod_small by lia. reflexivity.
Qed.

Lemma pow_lt_iff a b : 2 ^ a < 2 ^ b <-> a < b.
Proof. symmetry. apply N.pow_lt_mono_r_iff. reflexivity. Qed.

Lemma shl_fits p bld k : 2 ^ k < 2 ^ p -> shl_one bld p k = Ok (2 ^ k).
Proof.
  intros H. apply (proj1 (pow_lt_iff _ _)) in H. unfold shl_one. destruct (k <? p) eqn:E; [reflexivity|lia].
Qed.

Lemma shl_over p k : 2 ^ p <= 2 ^ k -> shl_one Debug p k = Panic.
Proof.
  intros H. unfold shl_one. destruct (k <? p) eqn:E; [|reflexivity].
  apply N.ltb_lt, (proj2 (pow_lt_iff _ _)) in E. lia.
Qed.

Lemma shl_release p k : 0 < p -> shl_one Release p k = Ok (2 ^ (k mod p)).
Proof.
  intros H. unfold shl_one. destruct (k <? p) eqn:E; [|reflexivity].
  rewrite N.mod_small by lia. reflexivity.
Qed.

(** ** Loops *)

Lemma answer_panic p m : machine_answer p Panic m -> forall bld, m bld = Panic.
Proof. intros H. exact H. Qed.

Lemma answer_ok p n m : machine_answer p (Ok n) m -> n < 2 ^ p -> forall bld, m bld = Ok n.
Proof. cbn. intros H L. destruct (n <? 2 ^ p) eqn:E; [exact H|lia]. Qed.

Lemma answer_over p n m : machine_answer p (Ok n) m -> 2 ^ p <= n -> m Debug = Panic.
Proof. cbn. intros H L. destruct (n <? 2 ^ p) eqn:E; [lia|exact H]. Qed.

Lemma answer_intro p e m :
  (e = Panic -> forall bld, m bld = Panic) ->
  (forall n, e = Ok n -> n < 2 ^ p -> forall bld, m bld = Ok n) ->
  (forall n, e = Ok n -> 2 ^ p <= n -> m Debug = Panic) -> machine_answer p e m.
Proof.
  intros H1 H2 H3. destruct e as [n|]; cbn; [|apply H1; reflexivity].
  destruct (n <? 2 ^ p) eqn:E; [apply H2; [reflexivity|lia]|apply (H3 n); [reflexivity|lia]].
Qed.

Lemma for_each_grows {A} (f : N -> A -> res N) l :
  (forall s x s', f s x = Ok s' -> s <= s') ->
  forall s s', for_each f l s = Ok s' -> s <= s'.
Proof.
  intros H. induction l as [|x l IH]; intros s s' E; cbn in E; [injection E; lia|].
  destruct (f s x) as [s1|] eqn:E1; [|discriminate E]. cbn in E. apply H in E1. apply IH in E. lia.
Qed.

Lemma for_each_panics {A} (f g : N -> A -> res N) l :
  (forall s s' x, f s x = Panic -> g s' x = Panic) ->
  forall s s', for_each f l s = Panic -> for_each g l s' = Panic.
Proof.
  intros H. induction l as [|x l IH]; intros s s' E; cbn in E |- *; [discriminate E|].
  destruct (f s x) as [s1|] eqn:E1.
  - cbn in E. destruct (g s' x) as [s2|] eqn:E2; [|reflexivity]. cbn. eapply IH, E.
  - rewrite (H s s' x E1). reflexivity.
Qed.

Lemma for_each_answer {A} p (f : N -> A -> res N) (g : build -> N -> A -> res N) l :
  (forall s x, s < 2 ^ p -> machine_answer p (f s x) (fun bld => g bld s x)) ->
  (forall s s' x bld, f s x = Panic -> g bld s' x = Panic) ->
  (forall s x s', f s x = Ok s' -> s <= s') ->
  forall s, s < 2 ^ p -> machine_answer p (for_each f l s) (fun bld => for_each (g bld) l s).
Proof.
  intros H HP HG s L. apply answer_intro.
  - intros E bld. eapply for_each_panics; [|exact E]. intros s1 s2 x. apply HP.
  - revert s L. induction l as [|x l IH]; intros s L n E Ln bld; cbn in E |- *; [exact E|].
    destruct (f s x) as [s1|] eqn:E1; [|discriminate E]. cbn in E.
    assert (G := for_each_grows f l HG s1 n E).
    assert (B := H s x L). rewrite E1 in B.
    rewrite (answer_ok _ _ _ B ltac:(lia) bld). cbn [bind]. apply IH; [lia|exact E|exact Ln].
  - revert s L. induction l as [|x l IH]; intros s L n E Ln; cbn in E |- *; [injection E; lia|].
    destruct (f s x) as [s1|] eqn:E1; [|discriminate E]. cbn in E.
    assert (B := H s x L). rewrite E1 in B.
    destruct (N.lt_ge_cases s1 (2 ^ p)) as [C|C].
    + rewrite (answer_ok _ _ _ B C Debug). cbn [bind]. apply (IH s1 C n E Ln).
    + rewrite (answer_over _ _ _ B C). reflexivity.
Qed.

Lemma for_each_fold {A} (h : N -> A -> N) l s :
  for_each (fun a x => Ok (h a x)) l s = Ok (fold_left h l s).
Proof. revert s. induction l as [|x l IH]; intros s; [reflexivity|]. cbn. apply IH. Qed.

(** ** Density *)

Definition input_factor (el : Operand) : N :=
  match el with
  | Full _ => ImmMemHandlerFlags_num_src_variants
  | RegOrImm _ => RegOrImmFlags_num_src_variants
  | RegOnly => 1
  end.
Definition output_factor (el : Operand) : N :=
  match el with
  | Full _ => ImmMemHandlerFlags_num_dst_variants
  | RegOrImm _ => RegOrImmFlags_num_dst_variants
  | RegOnly => 1
  end.

Lemma input_factor_pos x : 1 <= input_factor x.
Proof. destruct x; cbn; unfold ImmMemHandlerFlags_num_src_variants, RegOrImmFlags_num_src_variants; vm_compute; discriminate. Qed.
Lemma output_factor_pos x : 1 <= output_factor x.
Proof. destruct x; cbn; vm_compute; discriminate. Qed.

Lemma modes_answer p (c : Operand -> N) l : (forall x, 1 <= c x) ->
  forall s, s < 2 ^ p ->
  machine_answer p (Ok (fold_left (fun acc el => acc * c el) l s))
    (fun bld => for_each (fun acc el => mul_w bld p acc (c el)) l s).
Proof.
  intros Hc s L. rewrite <- for_each_fold.
  apply (for_each_answer p (fun a x => Ok (a * c x)) (fun bld a x => mul_w bld p a (c x)));
    [| |  |exact L].
  - intros a x La. apply answer_intro; [discriminate| |]; intros n E; injection E as <-; intros Ln.
    + intros bld. apply mul_fits, Ln.
    + apply mul_over, Ln.
  - discriminate.
  - intros a x a' E. injection E as <-. specialize (Hc x). nia.
Qed.

Lemma fold_factor_pos (c : Operand -> N) l : (forall x, 1 <= c x) ->
  forall s, s <= fold_left (fun acc el => acc * c el) l s.
Proof.
  intros Hc. induction l as [|x l IH]; intros s; cbn; [lia|].
  specialize (IH (s * c x)). specialize (Hc x). nia.
Qed.

(** One variant of the density, exactly and on the machine. *)
Definition exact_variant (I : InstructionSet) (v idx num_options : N) (variant : OpcodeVariantData)
  : res N :=
  let* proto := index (set_prototypes I) idx in
  let* o := set_materialize I proto (variant_idx variant) v in
  let* ins := set_inputs I o v in
  let* outs := set_outputs I o v in
  Ok (num_options + 2 ^ num_non_exclusive_flags variant
      * fold_left (fun acc el => acc * output_factor el) outs
          (fold_left (fun acc el => acc * input_factor el) ins 1)).

Definition machine_variant (I : InstructionSet) (p v idx : N) (bld : build) (num_options : N)
    (variant : OpcodeVariantData) : res N :=
  let* proto := index (set_prototypes I) idx in
  let* o := set_materialize I proto (variant_idx variant) v in
  let* ins := set_inputs I o v in
  let* a := for_each (fun acc el => mul_w bld p acc (input_factor el)) ins 1 in
  let* outs := set_outputs I o v in
  let* a := for_each (fun acc el => mul_w bld p acc (output_factor el)) outs a in
  let* m := shl_one bld p (num_non_exclusive_flags variant) in
  let* w := mul_w bld p m a in
  add_w bld p num_options w.

Lemma variant_answer I p v idx n d : 0 < p -> n < 2 ^ p ->
  machine_answer p (exact_variant I v idx n d) (fun bld => machine_variant I p v idx bld n d).
Proof.
  intros P L. unfold exact_variant, machine_variant.
  destruct (index _ idx) as [proto|]; cbn [bind]; [|intros bld; reflexivity].
  destruct (set_materialize I proto _ v) as [o|]; cbn [bind]; [|intros bld; reflexivity].
  destruct (set_inputs I o v) as [ins|]; cbn [bind]; [|intros bld; reflexivity].
  destruct (set_outputs I o v) as [outs|]; cbn [bind].
  2:{ intros bld. destruct (for_each _ ins 1); reflexivity. }
  assert (L1 : 1 < 2 ^ p) by (change 1 with (2 ^ 0); apply (proj2 (pow_lt_iff _ _)); exact P).
  assert (A1 := modes_answer p input_factor ins input_factor_pos 1 L1).
  assert (G1 := fold_factor_pos input_factor ins input_factor_pos 1).
  set (a1 := fold_left _ ins 1) in *.
  assert (G2 := fold_factor_pos output_factor outs output_factor_pos a1).
  assert (A2 : a1 < 2 ^ p -> _) by exact (modes_answer p output_factor outs output_factor_pos a1).
  set (a2 := fold_left _ outs a1) in *.
  set (k := num_non_exclusive_flags d). assert (Pk := pow_pos k).
  set (K := 2 ^ k) in *. set (W := 2 ^ p) in *.
  assert (M1 : a2 <= K * a2) by nia. assert (M2 : K <= K * a2) by nia.
  apply answer_intro; [discriminate| |]; intros m E; injection E as <-; intros Lm.
  - intros bld. rewrite (answer_ok _ _ _ A1 ltac:(fold W; lia) bld). cbn [bind].
    rewrite (answer_ok _ _ _ (A2 ltac:(lia)) ltac:(fold W; lia) bld). cbn [bind].
    rewrite (shl_fits p bld k) by (fold K W; lia). cbn [bind]. fold K.
    rewrite mul_fits by (fold W; lia). cbn [bind]. apply add_fits. fold W. lia.
  - destruct (N.lt_ge_cases a1 W) as [C1|C1]; [|rewrite (answer_over _ _ _ A1 C1); reflexivity].
    rewrite (answer_ok _ _ _ A1 C1 Debug). cbn [bind].
    destruct (N.lt_ge_cases a2 W) as [C2|C2];
      [|rewrite (answer_over _ _ _ (A2 C1) C2); reflexivity].
    rewrite (answer_ok _ _ _ (A2 C1) C2 Debug). cbn [bind].
    destruct (N.lt_ge_cases K W) as [C3|C3]; [|rewrite shl_over by exact C3; reflexivity].
    rewrite (shl_fits p Debug k C3). cbn [bind]. fold K.
    destruct (N.lt_ge_cases (K * a2) W) as [C4|C4]; [|rewrite mul_over by exact C4; reflexivity].
    rewrite mul_fits by exact C4. cbn [bind]. apply add_over. exact Lm.
Qed.

Lemma exact_variant_grows I v idx s d s' : exact_variant I v idx s d = Ok s' -> s <= s'.
Proof.
  unfold exact_variant. intros E.
  destruct (index _ idx) as [proto|]; [|discriminate E]; cbn [bind] in E.
  destruct (set_materialize I proto _ v) as [o|]; [|discriminate E]; cbn [bind] in E.
  destruct (set_inputs I o v) as [ins|]; [|discriminate E]; cbn [bind] in E.
  destruct (set_outputs I o v) as [outs|]; [|discriminate E]; cbn [bind] in E.
  injection E as <-. apply N.le_add_r.
Qed.

Lemma variant_panics I p v idx s s' d bld :
  exact_variant I v idx s d = Panic -> machine_variant I p v idx bld s' d = Panic.
Proof.
  unfold exact_variant, machine_variant. intros E.
  destruct (index _ idx) as [proto|]; [|reflexivity]; cbn [bind] in E |- *.
  destruct (set_materialize I proto _ v) as [o|]; [|reflexivity]; cbn [bind] in E |- *.
  destruct (set_inputs I o v) as [ins|]; [|reflexivity]; cbn [bind] in E |- *.
  destruct (set_outputs I o v) as [outs|]; [discriminate E|]; cbn [bind].
  destruct (for_each _ ins 1); reflexivity.
Qed.

Definition exact_opcode (I : InstructionSet) (v num_options : N) (x : N * OpcodeProps) : res N :=
  let* ds := variants_data (snd x) v in for_each (exact_variant I v (fst x)) ds num_options.
Definition machine_opcode (I : InstructionSet) (p v : N) (bld : build) (num_options : N)
    (x : N * OpcodeProps) : res N :=
  let* ds := variants_data (snd x) v in
  for_each (machine_variant I p v (fst x) bld) ds num_options.

Lemma exact_density I v : compute_encoding_density_of I v =
  let* ops := set_objects I in
  let* _ := check_unique_names ops in
  for_each (exact_opcode I v) (enumerate ops) 0.
Proof.
  unfold compute_encoding_density_of. destruct (set_objects I) as [ops|]; [|reflexivity].
  cbn [bind]. destruct (check_unique_names ops); [|reflexivity]. cbn [bind].
  apply for_each_ext. intros s [i o]. reflexivity.
Qed.

Lemma machine_density I p bld v : compute_encoding_density_usize I p bld v =
  let* ops := set_objects I in
  let* _ := check_unique_names ops in
  for_each (machine_opcode I p v bld) (enumerate ops) 0.
Proof.
  unfold compute_encoding_density_usize. destruct (set_objects I) as [ops|]; [|reflexivity].
  cbn [bind]. destruct (check_unique_names ops); [|reflexivity]. cbn [bind].
  apply for_each_ext. intros s [i o]. reflexivity.
Qed.

Lemma density_answer I p v : 0 < p ->
  machine_answer p (compute_encoding_density_of I v)
    (fun bld => compute_encoding_density_usize I p bld v).
Proof.
  intros P. rewrite exact_density. unfold machine_answer at 1.
  assert (H : machine_answer p
    (let* ops := set_objects I in
     let* _ := check_unique_names ops in for_each (exact_opcode I v) (enumerate ops) 0)
    (fun bld => 
     let* ops := set_objects I in
     let* _ := check_unique_names ops in
     for_each (machine_opcode I p v bld) (enumerate ops) 0)).
  { destruct (set_objects I) as [ops|]; [|intros bld; reflexivity]. cbn [bind].
    destruct (check_unique_names ops); [|intros bld; reflexivity]. cbn [bind].
    apply (for_each_answer p (exact_opcode I v) (machine_opcode I p v));
      [| | |apply pow_pos].
    - intros s [i o] L. unfold exact_opcode, machine_opcode. cbn [fst snd].
      destruct (variants_data o v) as [ds|]; [|intros bld; reflexivity]. cbn [bind].
      apply (for_each_answer p (exact_variant I v i) (machine_variant I p v i)); [| | |exact L].
      + intros n d Ln. apply variant_answer; assumption.
      + intros n n' d bld. apply variant_panics.
      + apply exact_variant_grows.
    - intros s s' [i o] bld. unfold exact_opcode, machine_opcode. cbn [fst snd].
      destruct (variants_data o v) as [ds|]; [|reflexivity]. cbn [bind]. intros E.
      eapply for_each_panics; [|exact E]. intros n n' d. apply variant_panics.
    - intros s [i o] s'. unfold exact_opcode. cbn [fst snd].
      destruct (variants_data o v) as [ds|]; [|discriminate]. cbn [bind].
      apply for_each_grows. apply exact_variant_grows. }
  unfold machine_answer in H.
  match goal with |- match ?e with _ => _ end => destruct e as [n|] end.
  - destruct (n <? 2 ^ p); [intros bld; rewrite machine_density; apply H|].
    rewrite machine_density. exact H.
  - intros bld. rewrite machine_density. apply H.
Qed.

(** *** Without overflow checks *)

Lemma modes_release p (c : Operand -> N) l : forall s,
  for_each (fun acc el => mul_w Release p acc (c el)) l (s mod 2 ^ p)
  = Ok ((s * fold_right N.mul 1 (map c l)) mod 2 ^ p).
Proof.
  assert (Z := pow_pos p).
  induction l as [|x l IH]; intros s; cbn [for_each map fold_right]; [f_equal; f_equal; lia|].
  rewrite mul_release. cbn [bind]. rewrite N.mul_mod_idemp_l by lia. rewrite IH.
  f_equal. f_equal. lia.
Qed.

Lemma variant_release I p v idx proto d b : 0 < p ->
  index (set_prototypes I) idx = Ok proto -> is_bare I v proto d b ->
  forall n, machine_variant I p v idx Release n d = Ok ((n + wrapped_weight p b) mod 2 ^ p).
Proof.
  intros P Ep (E1 & E2 & E3 & E4) n. unfold machine_variant.
  rewrite Ep. cbn [bind]. rewrite E1. cbn [bind]. rewrite E2. cbn [bind].
  assert (Z := pow_pos p).
  assert (L1 : 1 < 2 ^ p) by (change 1 with (2 ^ 0); apply (proj2 (pow_lt_iff _ _)); exact P).
  rewrite <- (N.mod_small 1 (2 ^ p) L1) at 1. rewrite modes_release. cbn [bind].
  rewrite E3. cbn [bind]. rewrite modes_release. cbn [bind].
  rewrite shl_release by exact P. cbn [bind]. rewrite mul_release. cbn [bind].
  rewrite add_release. rewrite N.mul_mod_idemp_r by lia. rewrite N.add_mod_idemp_r by lia.
  f_equal. f_equal. f_equal.
  unfold wrapped_weight, weight. cbn [bare_flags bare_inputs bare_outputs]. rewrite E4.
  rewrite N.mul_1_l, N.mul_assoc.
  f_equal; [f_equal|]; f_equal; apply map_ext; intros []; reflexivity.
Qed.

Lemma row_release I p v idx proto ds row : 0 < p ->
  index (set_prototypes I) idx = Ok proto -> Forall2 (is_bare I v proto) ds row ->
  forall n, for_each (machine_variant I p v idx Release) ds (n mod 2 ^ p)
            = Ok ((n + total (map (wrapped_weight p) row)) mod 2 ^ p).
Proof.
  intros P Ep F. assert (Z := pow_pos p).
  induction F as [|d b ds row Hb F IH]; intros n; cbn [for_each].
  - cbn. f_equal. f_equal. lia.
  - rewrite (variant_release I p v idx proto d b P Ep Hb). cbn [bind].
    rewrite IH. f_equal. cbn [map total fold_right]. fold (total (map (wrapped_weight p) row)).
    rewrite <- N.add_assoc, N.add_mod_idemp_l by lia. reflexivity.
Qed.

Lemma density_release I p v objs rows : 0 < p ->
  described I v objs rows -> NoDup (map name objs) ->
  compute_encoding_density_usize I p Release v
  = Ok (total (map (wrapped_weight p) (List.concat rows)) mod 2 ^ p).
Proof.
  intros P D N1. assert (D' := D). apply described_iff in D' as [E0 M].
  rewrite machine_density, E0. cbn [bind].
  apply names_iff in N1 as [nm ->]. cbn [bind].
  apply map_res_iff in M. clear D E0. assert (Z := pow_pos p).
  assert (R : forall l rows, Forall2 (fun x y => row_of I v x = Ok y) l rows -> forall n,
     for_each (machine_opcode I p v Release) l (n mod 2 ^ p)
     = Ok ((n + total (map (wrapped_weight p) (List.concat rows))) mod 2 ^ p)).
  { clear -P Z. intros l rows F. induction F as [|[i o] row l rows E F IH]; intros n.
    - cbn. f_equal. f_equal. lia.
    - unfold row_of in E. cbn [fst snd] in E. cbn [for_each]. unfold machine_opcode at 1.
      cbn [fst snd].
      destruct (variants_data o v) as [ds|] eqn:Ed; [|discriminate E]. cbn [bind] in E |- *.
      destruct (index (set_prototypes I) i) as [proto|] eqn:Ep; [|discriminate E]. cbn [bind] in E.
      apply map_res_iff in E.
      rewrite (row_release I p v i proto ds row P Ep).
      + cbn [bind]. rewrite IH. cbn [List.concat]. rewrite map_app, total_app. f_equal. f_equal. lia.
      + eapply Forall2_weaken; [|exact E]. intros; apply is_bare_iff; assumption. }
  rewrite <- (N.mod_small 0 (2 ^ p) Z). rewrite (R _ _ M). rewrite N.add_0_l. reflexivity.
Qed.

Lemma wrapped_weight_small p b : bare_flags b < p -> wrapped_weight p b = weight b.
Proof.
  intros H. unfold wrapped_weight, weight. cbn [bare_flags bare_inputs bare_outputs].
  rewrite N.mod_small by exact H. reflexivity.
Qed.

(** Counting the variants of an instruction set on [p]-bit integers.  An overflow is noticed when
    overflow checks are on; without them the count is that of the flags taken modulo [p], modulo
    [2^p]. *)
Lemma pf_C82_density :
  forall I p v, 0 < p ->
    machine_answer p (compute_encoding_density_of I v)
      (fun bld => compute_encoding_density_usize I p bld v) /\
    (forall objs rows, described I v objs rows -> NoDup (map name objs) ->
       compute_encoding_density_usize I p Release v
       = Ok (fold_right N.add 0 (map (wrapped_weight p) (List.concat rows)) mod 2 ^ p)).
Proof.
  intros I p v P. split; [apply density_answer, P|].
  intros objs rows D N1. apply (density_release I p v objs rows P D N1).
Qed.

(** ** Synthesis *)

Lemma for_each_follow {A S} (P : S -> Prop) (f g : S -> A -> res S) l :
  (forall s x s', f s x = Ok s' -> P s' -> P s) ->
  (forall s x s', f s x = Ok s' -> P s' -> g s x = Ok s') ->
  forall s r, for_each f l s = Ok r -> P r -> P s /\ for_each g l s = Ok r.
Proof.
  intros HP HF. induction l as [|x l IH]; intros s r E Pr; cbn in E |- *.
  - injection E as ->. split; [exact Pr|reflexivity].
  - destruct (f s x) as [s1|] eqn:E1; [|discriminate E]. cbn in E.
    destruct (IH s1 r E Pr) as [P1 E2]. split; [eapply HP; eassumption|].
    rewrite (HF s x s1 E1 P1). exact E2.
Qed.

Definition legacy_step (I : InstructionSet) (ops : list OpcodeProps)
    (density : ISAVersion -> res N) (result : list OpcodeVariant) (version : ISAVersion)
  : res (list OpcodeVariant) :=
  let* result :=
    for_each (fun result '(i, opcode) =>
      let* _ := (if i =? 0 then assert_ (String.eqb (name opcode) "Invalid opcode")
                 else Ok tt) in
      let* proto := index (set_prototypes I) i in
      legacy_push_opcode_of I version opcode proto result)
      (enumerate ops) result in
  let* density := density version in
  let* _ := assert_ (len result =? density) in
  Ok result.

Definition new_step (I : InstructionSet)
    (density : ISAVersion -> res N) (result : list OpcodeVariant) (version : ISAVersion)
  : res (list OpcodeVariant) :=
  let* all_opcodes_in_version := all_variants_in_version_of I version in
  let* (result, new_opcodes) := find_new_opcodes result all_opcodes_in_version in
  let result := result ++ new_opcodes in
  let* density := density version in
  let* _ := assert_ (len result =? density) in
  Ok result.

Definition finish (capacity : N) (result : list OpcodeVariant) : res (list OpcodeVariant) :=
  let* r0 := index result 0 in
  let* _ := assert_ (OpcodeVariant_eqb r0 INVALID_OPCODE_VARIANT) in
  let* _ := assert_ (len result <=? capacity) in
  Ok (resize result capacity INVALID_OPCODE_VARIANT).

(** Both procedures have this form. *)
Definition procedure (I : InstructionSet)
    (step : list OpcodeProps -> list OpcodeVariant -> ISAVersion -> res (list OpcodeVariant))
    (p : N) (bld : build) (table_bits up_to_version : N) : res (list OpcodeVariant) :=
  let* all_opcodes := set_objects I in
  let* _ := check_unique_names all_opcodes in
  let* capacity := shl_one bld p table_bits in
  let* result :=
    for_each (step all_opcodes) (versions_until_break (set_versions I) up_to_version) [] in
  finish capacity result.

Lemma finish_length c r t : finish c r = Ok t -> len r <= c.
Proof.
  unfold finish. intros H. destruct (index r 0) as [r0|]; [|discriminate H]. cbn [bind] in H.
  destruct (OpcodeVariant_eqb _ _); [|discriminate H]. cbn [bind assert_] in H.
  destruct (len r <=? c) eqn:E; [lia|discriminate H].
Qed.

Lemma procedure_follow I (s1 s2 : list OpcodeProps -> list OpcodeVariant -> ISAVersion
                                  -> res (list OpcodeVariant)) p bld bits u t :
  bits < p ->
  (forall ops r v r', s1 ops r v = Ok r' -> len r <= len r') ->
  (forall ops r v r', s1 ops r v = Ok r' -> len r' < 2 ^ p -> s2 ops r v = Ok r') ->
  procedure I s1 p bld bits u = Ok t -> procedure I s2 p bld bits u = Ok t.
Proof.
  intros B HL HS. unfold procedure.
  destruct (set_objects I) as [ops|]; [|discriminate]. cbn [bind].
  destruct (check_unique_names ops); [|discriminate]. cbn [bind].
  assert (C := proj2 (pow_lt_iff bits p) B).
  rewrite (shl_fits p bld bits C). cbn [bind]. intros H.
  destruct (for_each (s1 ops) _ []) as [r|] eqn:E; [|discriminate H]. cbn [bind] in H.
  assert (L := N.le_lt_trans _ _ _ (finish_length _ _ _ H) C).
  destruct (for_each_follow (fun r => len r < 2 ^ p) (s1 ops) (s2 ops) _
              (fun r v r' E1 L1 => N.le_lt_trans _ _ _ (HL ops r v r' E1) L1)
              (fun r v r' E1 L1 => HS ops r v r' E1 L1) [] r E L) as [_ ->].
  exact H.
Qed.

Lemma procedure_new I p bld bits u :
  synthesize_opcode_decoding_tables_of I p bld bits u
  = procedure I (fun _ => new_step I (compute_encoding_density_of I)) p bld bits u /\
  synthesize_opcode_decoding_tables_usize I p bld bits u
  = procedure I (fun _ => new_step I (compute_encoding_density_usize I p bld)) p bld bits u.
Proof. split; reflexivity. Qed.

Lemma procedure_legacy I p bld bits u :
  synthesize_opcode_decoding_tables_legacy_of I p bld bits u
  = procedure I (fun ops => legacy_step I ops (compute_encoding_density_of I)) p bld bits u /\
  synthesize_opcode_decoding_tables_legacy_usize I p bld bits u
  = procedure I (fun ops => legacy_step I ops (compute_encoding_density_usize I p bld)) p bld bits u.
Proof. split; reflexivity. Qed.

(** Steps do not shorten the table. *)
Lemma find_new_length old new old' added :
  find_new_opcodes old new = Ok (old', added) -> List.length old' = List.length old.
Proof.
  intros H. destruct (pf_C16_extension old new) as [_ K]. apply (K old' added H).
Qed.

Lemma new_step_grows I d r v r' : new_step I d r v = Ok r' -> len r <= len r'.
Proof.
  unfold new_step. intros H. destruct (all_variants_in_version_of I v) as [l|]; [|discriminate H].
  cbn [bind] in H. destruct (find_new_opcodes r l) as [[o a]|] eqn:E; [|discriminate H].
  apply find_new_length in E. cbn [bind] in H.
  destruct (d v) as [n|]; [|discriminate H]. cbn [bind] in H.
  destruct (len (o ++ a) =? n); [|discriminate H]. cbn in H. injection H as <-.
  unfold len. rewrite app_length. lia.
Qed.

Lemma new_step_follow I (d1 d2 : ISAVersion -> res N) p r v r' :
  (forall n, d1 v = Ok n -> n < 2 ^ p -> d2 v = Ok n) ->
  new_step I d1 r v = Ok r' -> len r' < 2 ^ p -> new_step I d2 r v = Ok r'.
Proof.
  unfold new_step. intros HD H L.
  destruct (all_variants_in_version_of I v) as [l|]; [|discriminate H].
  cbn [bind] in H |- *. destruct (find_new_opcodes r l) as [[o a]|] eqn:E; [|discriminate H].
  cbn [bind] in H |- *.
  destruct (d1 v) as [n|]; [|discriminate H]. cbn [bind] in H.
  destruct (len (o ++ a) =? n) eqn:En; [|discriminate H]. cbn in H. injection H as <-.
  rewrite (HD n eq_refl) by lia. cbn [bind]. rewrite En. reflexivity.
Qed.

Lemma push_flags_grows n t r r' : push_flag_options n t r = Ok r' -> len r <= len r'.
Proof.
  unfold push_flag_options. intros H.
  assert (exists x, r' = r ++ x) as [x ->].
  { destruct n as [|[?|[?|?|]|]]; try discriminate H; injection H as <-; eexists; reflexivity. }
  unfold len. rewrite app_length. lia.
Qed.

Lemma for_each_len {A} (f : list OpcodeVariant -> A -> res (list OpcodeVariant)) l :
  (forall s x s', f s x = Ok s' -> len s <= len s') ->
  forall s s', for_each f l s = Ok s' -> len s <= len s'.
Proof.
  intros H. induction l as [|x l IH]; intros s s' E; cbn in E; [injection E as <-; lia|].
  destruct (f s x) as [s1|] eqn:E1; [|discriminate E]. cbn in E. apply H in E1. apply IH in E. lia.
Qed.

Lemma legacy_push_grows I v o proto r r' :
  legacy_push_opcode_of I v o proto r = Ok r' -> len r <= len r'.
Proof.
  unfold legacy_push_opcode_of. intros H.
  destruct (variants_data o v) as [ds|]; [|discriminate H]. cbn [bind] in H.
  destruct (input_operands o v) as [ins|]; [|discriminate H]. cbn [bind] in H.
  destruct (output_operands o v) as [outs|]; [|discriminate H]. cbn [bind] in H.
  assert (D : forall d (f : OpcodeVariant -> OpcodeVariant) r r',
    (let* op := set_materialize I proto (variant_idx d) v in
     push_flag_options (num_non_exclusive_flags d) (f (set_opcode INVALID_OPCODE_VARIANT op)) r)
    = Ok r' -> len r <= len r').
  { intros d f s s' E. destruct (set_materialize _ _ _ _); [|discriminate E].
    apply push_flags_grows in E. exact E. }
  assert (D1 : forall s d s',
    (let* op := set_materialize I proto (variant_idx d) v in
     push_flag_options (num_non_exclusive_flags d) (set_opcode INVALID_OPCODE_VARIANT op) s)
    = Ok s' -> len s <= len s') by (intros s d s'; apply (D d (fun x => x))).
  destruct ins as [|[|i0|i0] [|[|i1|i1] [|i2 ins]]];
  destruct outs as [|[|o0|o0] [|[|o1|o1] [|o2 outs]]];
  try discriminate H; revert H; apply for_each_len; try exact D1;
  intros s d s'; apply for_each_len; intros s1 x s1'.
  all: try (apply (D d (fun t => set_src0 t (Full x)))).
  all: apply for_each_len; intros s2 y s2'.
  all: destruct (ImmMemHandlerFlags_is_allowed_for_dst y); cbn [negb];
    [apply (D d (fun t => set_dst0 (set_src0 t (Full x)) (Full y)))|].
  all: destruct (set_materialize _ _ _ _); cbn [bind]; intros E; [injection E as <-; lia|discriminate E].
Qed.

Lemma legacy_step_grows I ops d r v r' : legacy_step I ops d r v = Ok r' -> len r <= len r'.
Proof.
  unfold legacy_step. intros H.
  match type of H with bind ?e _ = _ => destruct e as [r1|] eqn:E end; [|discriminate H].
  cbn [bind] in H. destruct (d v) as [n|]; [|discriminate H]. cbn [bind] in H.
  destruct (len r1 =? n); [|discriminate H]. cbn in H. injection H as <-.
  revert E. apply for_each_len. intros s [i o] s' E.
  match type of E with bind ?e _ = _ => destruct e end; [|discriminate E]. cbn [bind] in E.
  destruct (index (set_prototypes I) i) as [proto|]; [|discriminate E]. cbn [bind] in E.
  apply legacy_push_grows in E. exact E.
Qed.

Lemma legacy_step_follow I ops (d1 d2 : ISAVersion -> res N) p r v r' :
  (forall n, d1 v = Ok n -> n < 2 ^ p -> d2 v = Ok n) ->
  legacy_step I ops d1 r v = Ok r' -> len r' < 2 ^ p -> legacy_step I ops d2 r v = Ok r'.
Proof.
  unfold legacy_step. intros HD H L.
  match type of H with bind ?e _ = _ => destruct e as [r1|] eqn:E end; [|discriminate H].
  cbn [bind] in H |- *. destruct (d1 v) as [n|]; [|discriminate H]. cbn [bind] in H.
  destruct (len r1 =? n) eqn:En; [|discriminate H]. cbn in H. injection H as <-.
  rewrite (HD n eq_refl) by lia. cbn [bind]. rewrite En. reflexivity.
Qed.

Lemma density_to_usize I p bld v n : 0 < p ->
  compute_encoding_density_of I v = Ok n -> n < 2 ^ p ->
  compute_encoding_density_usize I p bld v = Ok n.
Proof.
  intros P E L. assert (A := density_answer I p v P). rewrite E in A.
  apply (answer_ok _ _ _ A L).
Qed.

Lemma density_from_usize I p v n : 0 < p ->
  compute_encoding_density_usize I p Debug v = Ok n -> compute_encoding_density_of I v = Ok n.
Proof.
  intros P E. assert (A := density_answer I p v P).
  destruct (compute_encoding_density_of I v) as [m|].
  - cbn in A. destruct (m <? 2 ^ p); [rewrite (A Debug) in E|rewrite A in E]; [exact E|discriminate E].
  - rewrite (A Debug) in E. discriminate E.
Qed.

(** Tables that can be synthesized in exact arithmetic are synthesized by every build; with
    overflow checks there are no others.  Without them, too, if the enumerations have fewer
    than [2^p] entries, as vectors do. *)
Lemma pf_C82_synthesis :
  forall I p bits u,
    (forall bld t, bits < p ->
       synthesize_opcode_decoding_tables_of I p bld bits u = Ok t ->
       synthesize_opcode_decoding_tables_usize I p bld bits u = Ok t) /\
    (forall bld t, bits < p ->
       synthesize_opcode_decoding_tables_legacy_of I p bld bits u = Ok t ->
       synthesize_opcode_decoding_tables_legacy_usize I p bld bits u = Ok t) /\
    (forall t, synthesize_opcode_decoding_tables_usize I p Debug bits u = Ok t ->
               synthesize_opcode_decoding_tables_of I p Debug bits u = Ok t) /\
    (forall t, synthesize_opcode_decoding_tables_legacy_usize I p Debug bits u = Ok t ->
               synthesize_opcode_decoding_tables_legacy_of I p Debug bits u = Ok t) /\
    ((forall v l, all_variants_in_version_of I v = Ok l -> N.of_nat (List.length l) < 2 ^ p) ->
     0 < p -> forall bld, synthesize_opcode_decoding_tables_usize I p bld bits u
                 = synthesize_opcode_decoding_tables_of I p bld bits u).
Proof.
  intros I p bits u. split; [|split; [|split; [|split]]].
  - intros bld t B. destruct (procedure_new I p bld bits u) as [-> ->]. apply procedure_follow.
    + exact B.
    + intros _ r v r'. apply new_step_grows.
    + intros _ r v r'. apply new_step_follow. intros n. apply density_to_usize. lia.
  - intros bld t B. destruct (procedure_legacy I p bld bits u) as [-> ->]. apply procedure_follow.
    + exact B.
    + intros ops r v r'. apply legacy_step_grows.
    + intros ops r v r'. apply legacy_step_follow. intros n. apply density_to_usize. lia.
  - intros t H. assert (B : bits < p).
    { destruct (N.lt_ge_cases bits p) as [C|C]; [exact C|]. exfalso. revert H.
      unfold synthesize_opcode_decoding_tables_usize.
      destruct (set_objects I) as [ops|]; [|discriminate]. cbn [bind].
      destruct (check_unique_names ops); [|discriminate]. cbn [bind].
      rewrite shl_over by (apply N.pow_le_mono_r; [discriminate|exact C]). discriminate. }
    revert H. destruct (procedure_new I p Debug bits u) as [-> ->]. apply procedure_follow.
    + exact B.
    + intros _ r v r'. apply new_step_grows.
    + intros _ r v r'. apply new_step_follow. intros n E _. apply (density_from_usize I p); [lia|exact E].
  - intros t H. assert (B : bits < p).
    { destruct (N.lt_ge_cases bits p) as [C|C]; [exact C|]. exfalso. revert H.
      unfold synthesize_opcode_decoding_tables_legacy_usize.
      destruct (set_objects I) as [ops|]; [|discriminate]. cbn [bind].
      destruct (check_unique_names ops); [|discriminate]. cbn [bind].
      rewrite shl_over by (apply N.pow_le_mono_r; [discriminate|exact C]). discriminate. }
    revert H. destruct (procedure_legacy I p Debug bits u) as [-> ->]. apply procedure_follow.
    + exact B.
    + intros ops r v r'. apply legacy_step_grows.
    + intros ops r v r'. apply legacy_step_follow. intros n E _.
      apply (density_from_usize I p); [lia|exact E].
  - intros HV P bld. destruct (procedure_new I p bld bits u) as [-> ->]. unfold procedure.
    destruct (set_objects I) as [ops|]; [|reflexivity]. cbn [bind].
    destruct (check_unique_names ops); [|reflexivity]. cbn [bind].
    destruct (shl_one bld p bits); [|reflexivity]. cbn [bind].
    rewrite (for_each_ext (new_step I (compute_encoding_density_usize I p bld))
               (new_step I (compute_encoding_density_of I))); [reflexivity|].
    intros r v. unfold new_step.
    destruct (all_variants_in_version_of I v) as [l|] eqn:E; [|reflexivity]. cbn [bind].
    assert (E1 := enumeration_density I v l E).
    rewrite E1, (density_to_usize I p bld v (len l) P E1 (HV v l E)). reflexivity.
Qed.

(** ** Widths *)

Definition exact_index (v : ISAVersion) (o : OpcodeProps) : res N :=
  let* m := max_variant_idx o v in Ok (m + 1).
Definition machine_index (p : N) (v : ISAVersion) (bld : build) (o : OpcodeProps) : res N :=
  let* m := max_variant_idx o v in add_w bld p m 1.

Lemma map_index_panic p v bld ops :
  map_res (exact_index v) ops = Panic -> map_res (machine_index p v bld) ops = Panic.
Proof.
  induction ops as [|o ops IH]; [discriminate|]. cbn [map_res].
  unfold exact_index at 1, machine_index at 1.
  destruct (max_variant_idx o v) as [m|]; [|reflexivity]. cbn [bind]. intros E.
  destruct (map_res (exact_index v) ops) as [ys|]; [discriminate E|].
  rewrite IH by reflexivity. destruct (add_w bld p m 1); reflexivity.
Qed.

Lemma map_index_ok p v bld ops : forall ys,
  map_res (exact_index v) ops = Ok ys -> (forall n, In n ys -> n < 2 ^ p) ->
  map_res (machine_index p v bld) ops = Ok ys.
Proof.
  induction ops as [|o ops IH]; intros ys E H; [exact E|]. cbn [map_res] in E |- *.
  unfold exact_index at 1 in E. unfold machine_index at 1.
  destruct (max_variant_idx o v) as [m|]; [|discriminate E]. cbn [bind] in E |- *.
  destruct (map_res (exact_index v) ops) as [zs|]; [|discriminate E]. cbn [bind] in E.
  injection E as <-.
  rewrite add_fits by (apply H; left; reflexivity). cbn [bind].
  rewrite (IH zs eq_refl (fun n Hn => H n (or_intror Hn))). reflexivity.
Qed.

Lemma map_index_over p v ops : forall ys n,
  map_res (exact_index v) ops = Ok ys -> In n ys -> 2 ^ p <= n ->
  map_res (machine_index p v Debug) ops = Panic.
Proof.
  induction ops as [|o ops IH]; intros ys n E Hn L; [injection E as <-; destruct Hn|].
  cbn [map_res] in E |- *. unfold exact_index at 1 in E. unfold machine_index at 1.
  destruct (max_variant_idx o v) as [m|]; [|discriminate E]. cbn [bind] in E |- *.
  destruct (map_res (exact_index v) ops) as [zs|]; [|discriminate E]. cbn [bind] in E.
  injection E as <-. destruct Hn as [<-|Hn].
  - rewrite add_over by exact L. reflexivity.
  - rewrite (IH zs n eq_refl Hn L). destruct (add_w Debug p m 1); reflexivity.
Qed.

Lemma fold_max_spec r : forall x, In (fold_left N.max r x) (x :: r) /\
  forall y, In y (x :: r) -> y <= fold_left N.max r x.
Proof.
  induction r as [|z r IH]; intros x; cbn [fold_left].
  - split; [left; reflexivity|]. intros y [->|[]]. lia.
  - destruct (IH (N.max x z)) as [I1 I2]. split.
    + destruct I1 as [I1|I1]; [|right; right; exact I1].
      destruct (N.max_spec x z) as [[_ M]|[_ M]]; rewrite M in I1 at 1;
        [right; left; exact I1|left; exact I1].
    + intros y [->|[->|Hy]].
      * specialize (I2 (N.max y z) (or_introl eq_refl)). lia.
      * specialize (I2 (N.max x y) (or_introl eq_refl)). lia.
      * apply I2. right. exact Hy.
Qed.

Lemma iter_max_spec l m : iter_max l = Some m -> In m l /\ forall y, In y l -> y <= m.
Proof.
  destruct l as [|x r]; [discriminate|]. cbn. intros E. injection E as <-. apply fold_max_spec.
Qed.

Lemma variants_answer I p v :
  machine_answer p (max_num_variants_for_version_of I v)
    (fun bld => max_num_variants_for_version_usize I p bld v).
Proof.
  unfold max_num_variants_for_version_of, max_num_variants_for_version_usize.
  destruct (set_objects I) as [ops|]; [|intros bld; reflexivity]. cbn [bind].
  fold (exact_index v). change (fun op => let* m := max_variant_idx op v in Ok (m + 1))
    with (exact_index v).
  assert (C : forall bld, map_res (fun op => let* m := max_variant_idx op v in add_w bld p m 1) ops
              = map_res (machine_index p v bld) ops) by reflexivity.
  apply answer_intro.
  - intros E bld. rewrite C. destruct (map_res (exact_index v) ops) as [ys|] eqn:Ey.
    + cbn [bind] in E. destruct ys as [|y ys]; [|discriminate E].
      rewrite (map_index_ok p v bld ops [] Ey); [reflexivity|intros n []].
    + rewrite (map_index_panic p v bld ops Ey). reflexivity.
  - intros n E L bld. rewrite C. destruct (map_res (exact_index v) ops) as [ys|] eqn:Ey; [|discriminate E].
    cbn [bind] in E. destruct (iter_max ys) as [m|] eqn:Em; [|discriminate E]. injection E as ->.
    destruct (iter_max_spec ys n Em) as [_ M].
    rewrite (map_index_ok p v bld ops ys Ey); [cbn [bind]; rewrite Em; reflexivity|].
    intros y Hy. specialize (M y Hy). lia.
  - intros n E L. rewrite C. destruct (map_res (exact_index v) ops) as [ys|] eqn:Ey; [|discriminate E].
    cbn [bind] in E. destruct (iter_max ys) as [m|] eqn:Em; [|discriminate E]. injection E as ->.
    destruct (iter_max_spec ys n Em) as [M _].
    rewrite (map_index_over p v ops ys n Ey M L). reflexivity.
Qed.

(** Adding to an answer. *)
Lemma answer_add p e m c :
  machine_answer p e m ->
  machine_answer p (let* a := e in Ok (a + c)) (fun bld => let* a := m bld in add_w bld p a c).
Proof.
  intros H. destruct e as [a|]; cbn [bind].
  - apply answer_intro; [discriminate| |]; intros n E; injection E as <-; intros L.
    + intros bld. rewrite (answer_ok _ _ _ H ltac:(lia) bld). cbn [bind]. apply add_fits, L.
    + destruct (N.lt_ge_cases a (2 ^ p)) as [C|C].
      * rewrite (answer_ok _ _ _ H C Debug). cbn [bind]. apply add_over, L.
      * rewrite (answer_over _ _ _ H C). reflexivity.
  - intros bld. rewrite (H bld). reflexivity.
Qed.

Lemma answer_add_res p e m (c : res N) :
  machine_answer p e m ->
  machine_answer p (let* a := e in let* b := c in Ok (a + b))
    (fun bld => let* a := m bld in let* b := c in add_w bld p a b).
Proof.
  intros H. destruct c as [c|]; [apply (answer_add p e m c H)|].
  assert (K : (let* a := e in let* b := @Panic N in Ok (a + b)) = Panic) by (destruct e; reflexivity).
  rewrite K. intros bld. destruct (m bld); reflexivity.
Qed.

Lemma answer_ext p e e' m m' :
  e = e' -> (forall bld, m bld = m' bld) -> machine_answer p e' m' -> machine_answer p e m.
Proof.
  intros -> H K. destruct e' as [n|]; cbn in *.
  - destruct (n <? 2 ^ p); [intros bld; rewrite H; apply K|rewrite H; exact K].
  - intros bld. rewrite H. apply K.
Qed.

Lemma bits_answer I p v :
  machine_answer p (total_description_bits_for_version_of I v)
    (fun bld => total_description_bits_for_version_usize I p bld v).
Proof.
  unfold total_description_bits_for_version_of, total_description_bits_for_version_usize.
  assert (A := variants_answer I p v). apply (answer_add p _ _ OPCODE_TYPE_BITS) in A.
  apply (answer_add_res p _ _ (max_num_flags_for_version_of I v)) in A.
  apply (answer_add p _ _ OPCODE_INPUT_VARIANT_FLAGS) in A.
  apply (answer_add p _ _ OPCODE_OUTPUT_VARIANT_FLAGS) in A.
  revert A. apply answer_ext.
  - destruct (max_num_variants_for_version_of I v) as [nv|]; [|reflexivity]. cbn [bind].
    destruct (max_num_flags_for_version_of I v) as [nf|]; [|reflexivity]. cbn [bind].
    f_equal. lia.
  - intros bld. cbv beta.
    destruct (max_num_variants_for_version_usize I p bld v) as [nv|]; [|reflexivity]. cbn [bind].
    replace (add_w bld p OPCODE_TYPE_BITS nv) with (add_w bld p nv OPCODE_TYPE_BITS)
      by (unfold add_w, wrapping_add_w; rewrite (N.add_comm nv); reflexivity).
    destruct (add_w bld p nv OPCODE_TYPE_BITS) as [a|]; [|reflexivity]. cbn [bind].
    destruct (max_num_flags_for_version_of I v) as [nf|]; [|reflexivity]. cbn [bind].
    destruct (add_w bld p a nf) as [b|]; [|reflexivity]. cbn [bind].
    destruct (add_w bld p b OPCODE_INPUT_VARIANT_FLAGS); reflexivity.
Qed.

Definition round_up (t : N) : N :=
  if negb (t mod WIDTH_MULTIPLE =? 0) then t + (WIDTH_MULTIPLE - t mod WIDTH_MULTIPLE) else t.

Lemma exact_rounded I v :
  total_description_bits_rounded_for_version_of I v =
  let* t := total_description_bits_for_version_of I v in Ok (round_up t).
Proof.
  unfold total_description_bits_rounded_for_version_of, total_description_bits_for_version_of,
    round_up.
  destruct (max_num_variants_for_version_of I v) as [nv|]; [|reflexivity]. cbn [bind].
  destruct (max_num_flags_for_version_of I v) as [nf|]; [|reflexivity]. cbn [bind].
  destruct (negb _); reflexivity.
Qed.

Lemma machine_rounded I p bld v :
  total_description_bits_rounded_for_version_usize I p bld v =
  let* t := total_description_bits_for_version_usize I p bld v in
  if negb (t mod WIDTH_MULTIPLE =? 0)
  then let* missing := sub_w bld p WIDTH_MULTIPLE (t mod WIDTH_MULTIPLE) in add_w bld p t missing
  else Ok t.
Proof.
  unfold total_description_bits_rounded_for_version_usize,
    total_description_bits_for_version_usize.
  destruct (max_num_variants_for_version_usize I p bld v) as [nv|]; [|reflexivity]. cbn [bind].
  destruct (add_w bld p OPCODE_TYPE_BITS nv) as [a|]; [|reflexivity]. cbn [bind].
  destruct (max_num_flags_for_version_of I v) as [nf|]; [|reflexivity]. cbn [bind].
  destruct (add_w bld p a nf) as [b|]; [|reflexivity]. cbn [bind].
  destruct (add_w bld p b OPCODE_INPUT_VARIANT_FLAGS) as [c|]; [|reflexivity]. cbn [bind].
  reflexivity.
Qed.

Lemma round_step p bld t :
  (if negb (t mod WIDTH_MULTIPLE =? 0)
   then let* missing := sub_w bld p WIDTH_MULTIPLE (t mod WIDTH_MULTIPLE) in add_w bld p t missing
   else Ok t) =
  if negb (t mod WIDTH_MULTIPLE =? 0)
  then add_w bld p t (WIDTH_MULTIPLE - t mod WIDTH_MULTIPLE) else Ok t.
Proof.
  destruct (negb _); [|reflexivity].
  assert (M : t mod WIDTH_MULTIPLE < WIDTH_MULTIPLE) by (apply N.mod_lt; discriminate).
  unfold sub_w. destruct (t mod WIDTH_MULTIPLE <=? WIDTH_MULTIPLE) eqn:E; [reflexivity|lia].
Qed.

Lemma rounded_answer I p v :
  machine_answer p (total_description_bits_rounded_for_version_of I v)
    (fun bld => total_description_bits_rounded_for_version_usize I p bld v).
Proof.
  assert (A := bits_answer I p v).
  apply (answer_ext p _ (let* t := total_description_bits_for_version_of I v in Ok (round_up t)) _
    (fun bld => let* t := total_description_bits_for_version_usize I p bld v in
       if negb (t mod WIDTH_MULTIPLE =? 0)
       then add_w bld p t (WIDTH_MULTIPLE - t mod WIDTH_MULTIPLE) else Ok t)).
  - apply exact_rounded.
  - intros bld. rewrite machine_rounded. destruct (total_description_bits_for_version_usize I p bld v);
      [|reflexivity]. cbn [bind]. apply round_step.
  - destruct (total_description_bits_for_version_of I v) as [t|]; cbn [bind].
    2:{ intros bld. rewrite (A bld). reflexivity. }
    assert (G : t <= round_up t) by (unfold round_up; destruct (negb _); lia).
    apply answer_intro; [discriminate| |]; intros n E; injection E as <-; intros L.
    + intros bld. rewrite (answer_ok _ _ _ A ltac:(lia) bld). cbn [bind]. unfold round_up in *.
      destruct (negb _); [apply add_fits, L|reflexivity].
    + destruct (N.lt_ge_cases t (2 ^ p)) as [C|C].
      * rewrite (answer_ok _ _ _ A C Debug). cbn [bind]. unfold round_up in *.
        destruct (negb _); [apply add_over, L|lia].
      * rewrite (answer_over _ _ _ A C). reflexivity.
Qed.

(** The widths of the description on [p]-bit integers. *)
Lemma pf_C82_widths :
  forall I p v,
    machine_answer p (max_num_variants_for_version_of I v)
      (fun bld => max_num_variants_for_version_usize I p bld v) /\
    machine_answer p (total_description_bits_for_version_of I v)
      (fun bld => total_description_bits_for_version_usize I p bld v) /\
    machine_answer p (total_description_bits_rounded_for_version_of I v)
      (fun bld => total_description_bits_rounded_for_version_usize I p bld v) /\
    machine_answer p
      (let* r := total_description_bits_rounded_for_version_of I v in Ok (r + 3))
      (fun bld => total_opcode_description_and_aux_bits_for_version_usize I p bld v).
Proof.
  intros I p v. split; [apply variants_answer|]. split; [apply bits_answer|].
  split; [apply rounded_answer|].
  apply (answer_add p _ _ 3 (rounded_answer I p v)).
Qed.

(** ** Bitmasks *)

Lemma shift_follow p bld a b r : 6 <= p ->
  shl_one bld 64 (a + b) = Ok r ->
  (let* s := add_w bld p a b in shl_one bld 64 s) = Ok r.
Proof.
  intros P H. assert (E64 : 2 ^ p = 2 ^ (p - 6) * 64).
  { replace p with (p - 6 + 6) at 1 by lia. rewrite N.pow_add_r. reflexivity. }
  assert (Z := pow_pos (p - 6)).
  destruct bld.
  - assert (L : a + b < 64).
    { unfold shl_one in H. destruct (a + b <? 64) eqn:E; [lia|discriminate H]. }
    rewrite add_fits by nia. exact H.
  - rewrite add_release. cbn [bind]. rewrite shl_release in H |- * by reflexivity.
    rewrite <- H. f_equal. f_equal. rewrite E64.
    rewrite N.mul_comm, N.mod_mul_r by lia. rewrite N.mul_comm, N.mod_add by lia.
    apply N.mod_mod. lia.
Qed.

Lemma answer_debug p e m n : machine_answer p e m -> m Debug = Ok n -> e = Ok n.
Proof.
  intros A H. destruct e as [k|]; cbn in A.
  - destruct (k <? 2 ^ p); [rewrite (A Debug) in H; exact H|rewrite A in H; discriminate H].
  - rewrite (A Debug) in H. discriminate H.
Qed.

Lemma add_debug p a b s : add_w Debug p a b = Ok s -> s = a + b.
Proof.
  unfold add_w. destruct (a + b <? 2 ^ p); [|discriminate]. intros H. injection H as <-. reflexivity.
Qed.

Lemma mask_follow I p bld x v m : 7 <= p ->
  opcode_as_integer_bitmask_of I bld x v = Ok m ->
  opcode_as_integer_bitmask_usize I p bld x v = Ok m.
Proof.
  intros P H.
  destruct (proj1 (pf_C76_mask I bld x v) m H) as (objs & nv & nf & r & E1 & E2 & E3 & E4 & L1 & L2).
  fold (len objs) in L1.
  assert (B : 64 < 2 ^ p).
  { change 64 with (2 ^ 6). apply (proj2 (pow_lt_iff _ _)). lia. }
  assert (A1 := variants_answer I p v). rewrite E2 in A1.
  assert (A4 := rounded_answer I p v). rewrite E4 in A4.
  unfold opcode_as_integer_bitmask_of in H. unfold opcode_as_integer_bitmask_usize.
  rewrite (answer_ok _ _ _ A1 ltac:(lia) bld), (answer_ok _ _ _ A4 ltac:(lia) bld).
  rewrite E2, E3, E1, E4 in H. rewrite E3, E1. cbn [bind] in H |- *.
  set (k := len objs) in *. clearbody k. clear A1 A4 E1 E2 E3 E4.
  assert (S : forall a b r (f : N -> res N), shl_one bld 64 (a + b) = Ok r ->
     (let* s := add_w bld p a b in let* b := shl_one bld 64 s in f b) = f r).
  { intros a b c f E. apply (shift_follow p bld a b c ltac:(lia)) in E.
    destruct (add_w bld p a b) as [s|]; [|discriminate E]. cbn [bind] in E |- *. rewrite E.
    reflexivity. }
  destruct (shl_one bld 64 (0 + set_index I (opcode x))) as [b1|] eqn:F1; [|discriminate H].
  cbn [bind] in H. rewrite (S _ _ _ _ F1).
  rewrite (add_fits p bld 0 k) by lia. cbn [bind].
  destruct (shl_one bld 64 (0 + k + set_sub_index I (opcode x))) as [b2|] eqn:F2; [|discriminate H].
  cbn [bind] in H. rewrite (S _ _ _ _ F2).
  rewrite (add_fits p bld (0 + k) nv) by lia. cbn [bind].
  match type of H with bind ?e _ = _ => destruct e as [e1|] eqn:F3 end; [|discriminate H].
  cbn [bind] in H.
  match goal with |- bind ?e _ = _ => assert (F3' : e = Ok e1) end.
  { rewrite <- F3. cbn [enumerate enumerate_from for_each]. unfold enumerate. cbn [enumerate_from for_each].
    assert (T : forall i (f : N -> res N), i <= 1 ->
      (let* s := add_w bld p (0 + k + nv) i in let* b := shl_one bld 64 s in f b)
      = let* b := shl_one bld 64 (0 + k + nv + i) in f b).
    { intros i f Hi. rewrite add_fits by lia. reflexivity. }
    destruct (fst (flags x)); cbn [bind]; [rewrite T by lia|].
    all: destruct (snd (flags x)); cbn [bind]; try reflexivity.
    all: try (destruct (shl_one bld 64 (0 + k + nv + 0)); cbn [bind]; [|reflexivity]).
    all: try reflexivity.
    all: rewrite add_fits by lia; reflexivity. }
  rewrite F3'. clear F3 F3'. cbn [bind].
  rewrite (add_fits p bld (0 + k + nv) nf) by lia. cbn [bind].
  destruct (shl_one bld 64 (0 + k + nv + nf + _)) as [b4|] eqn:F4; [|discriminate H].
  cbn [bind] in H. rewrite (S _ _ _ _ F4).
  change NUM_INPUT_VARIANTS with 6 in *. change NUM_OUTPUT_VARIANTS with 4 in *.
  change KERNEL_MODE_FLAG_BITS with 1 in *. change CAN_BE_USED_IN_STATIC_CONTEXT_FLAG_BITS with 1 in *.
  change EXPLICIT_PANIC_FLAG_BITS with 1 in *.
  rewrite (add_fits p bld (0 + k + nv + nf) 6) by lia. cbn [bind].
  destruct (shl_one bld 64 (0 + k + nv + nf + 6 + _)) as [b5|] eqn:F5; [|discriminate H].
  cbn [bind] in H. rewrite (S _ _ _ _ F5).
  rewrite (add_fits p bld (0 + k + nv + nf + 6) 4) by lia. cbn [bind].
  destruct (assert_ _); [|discriminate H]. cbn [bind] in H |- *.
  match type of H with bind ?e _ = _ => destruct e as [e2|] end; [|discriminate H].
  cbn [bind] in H |- *. rewrite (add_fits p bld r 1) by lia. cbn [bind].
  match type of H with bind ?e _ = _ => destruct e as [e3|] end; [|discriminate H].
  cbn [bind] in H |- *. rewrite (add_fits p bld (r + 1) 1) by lia. cbn [bind].
  match type of H with bind ?e _ = _ => destruct e as [e4|] end; [|discriminate H].
  cbn [bind] in H |- *. rewrite (add_fits p bld (r + 1 + 1) 1) by lia. exact H.
Qed.

Lemma mask_debug I p x v m :
  opcode_as_integer_bitmask_usize I p Debug x v = Ok m ->
  opcode_as_integer_bitmask_of I Debug x v = Ok m.
Proof.
  unfold opcode_as_integer_bitmask_of, opcode_as_integer_bitmask_usize. intros H.
  destruct (max_num_variants_for_version_usize I p Debug v) as [nv|] eqn:E1; [|discriminate H].
  rewrite (answer_debug _ _ _ _ (variants_answer I p v) E1). cbn [bind] in H |- *.
  destruct (max_num_flags_for_version_of I v) as [nf|]; [|discriminate H]. cbn [bind] in H |- *.
  assert (A : forall a b (f : N -> res N) m, bind (add_w Debug p a b) f = Ok m -> f (a + b) = Ok m).
  { intros a b f n K. destruct (add_w Debug p a b) as [s|] eqn:E; [|discriminate K].
    apply add_debug in E. subst s. exact K. }
  apply A in H.
  destruct (shl_one Debug 64 (0 + _)) as [b1|]; [|discriminate H]. cbn [bind] in H |- *.
  destruct (set_objects I) as [objs|]; [|discriminate H]. cbn [bind] in H |- *.
  apply A in H. apply A in H.
  destruct (shl_one Debug 64 (0 + len objs + _)) as [b2|]; [|discriminate H]. cbn [bind] in H |- *.
  apply A in H.
  match type of H with bind ?e _ = _ => destruct e as [e1|] eqn:F3 end; [|discriminate H].
  cbn [bind] in H.
  match goal with |- bind ?e _ = _ => assert (F3' : e = Ok e1) end.
  { revert F3. generalize (N.lor (N.lor 0 b1) b2). generalize (enumerate [fst (flags x); snd (flags x)]).
    intros l. induction l as [|[i f] l IH]; intros s; cbn [for_each]; [intros F; exact F|].
    destruct f; [|cbn [bind]; apply IH].
    destruct (add_w Debug p (0 + len objs + nv) i) as [t|] eqn:Et; [|discriminate].
    apply add_debug in Et. subst t. cbn [bind].
    destruct (shl_one Debug 64 _); [|discriminate]. cbn [bind]. apply IH. }
  rewrite F3'. clear F3 F3'. cbn [bind].
  apply A in H. apply A in H.
  destruct (shl_one Debug 64 (0 + len objs + nv + nf + _)) as [b4|]; [|discriminate H].
  cbn [bind] in H |- *. apply A in H. apply A in H.
  destruct (shl_one Debug 64 (0 + len objs + nv + nf + NUM_INPUT_VARIANTS + _)) as [b5|]; [|discriminate H].
  cbn [bind] in H |- *. apply A in H.
  destruct (total_description_bits_rounded_for_version_usize I p Debug v) as [r|] eqn:E4; [|discriminate H].
  rewrite (answer_debug _ _ _ _ (rounded_answer I p v) E4). cbn [bind] in H |- *.
  destruct (assert_ _); [|discriminate H]. cbn [bind] in H |- *.
  match type of H with bind ?e _ = _ => destruct e as [e2|] end; [|discriminate H].
  cbn [bind] in H |- *. apply A in H.
  match type of H with bind ?e _ = _ => destruct e as [e3|] end; [|discriminate H].
  cbn [bind] in H |- *. apply A in H.
  match type of H with bind ?e _ = _ => destruct e as [e4|] end; [|discriminate H].
  cbn [bind] in H |- *. apply A in H. exact H.
Qed.

(** Bitmasks on [p]-bit integers, which in Rust have at least 16 bits: with overflow checks the
    mask is that of exact arithmetic and fails with it; without them a mask that exists in exact
    arithmetic is the same. *)
Lemma pf_C82_mask :
  forall I p x v, 16 <= p ->
    opcode_as_integer_bitmask_usize I p Debug x v = opcode_as_integer_bitmask_of I Debug x v /\
    (forall m, opcode_as_integer_bitmask_of I Release x v = Ok m ->
               opcode_as_integer_bitmask_usize I p Release x v = Ok m).
Proof.
  intros I p x v P. split; [|intros m; apply mask_follow; lia].
  destruct (opcode_as_integer_bitmask_of I Debug x v) as [m|] eqn:E.
  - apply mask_follow; [lia|exact E].
  - destruct (opcode_as_integer_bitmask_usize I p Debug x v) as [m|] eqn:E'; [|reflexivity].
    apply mask_debug in E'. rewrite E in E'. discriminate E'.
Qed.

Lemma for_each_impl {A S} (f g : S -> A -> res S) l :
  (forall s x r, f s x = Ok r -> g s x = Ok r) ->
  forall s r, for_each f l s = Ok r -> for_each g l s = Ok r.
Proof.
  intros H. induction l as [|x l IH]; intros s r E; cbn in E |- *; [exact E|].
  destruct (f s x) as [s1|] eqn:E1; [|discriminate E]. rewrite (H _ _ _ E1). cbn in E |- *.
  apply IH, E.
Qed.

(** Lists of bitmasks, likewise. *)
Lemma pf_C82_descriptions :
  forall I p l v, 16 <= p ->
    synthesize_bit_decomposition_table_usize I p Debug l v
    = synthesize_bit_decomposition_table_of I Debug l v /\
    (forall t, synthesize_bit_decomposition_table_of I Release l v = Ok t ->
               synthesize_bit_decomposition_table_usize I p Release l v = Ok t).
Proof.
  intros I p l v P. unfold synthesize_bit_decomposition_table_usize,
    synthesize_bit_decomposition_table_of.
  split; destruct (set_objects I) as [ops|]; cbn [bind]; [| |intros t|discriminate].
  - destruct (assert_ (len ops =? OPCODE_TYPE_BITS)); [|reflexivity].
    cbn [bind]. destruct (assert_ _); [|reflexivity]. cbn [bind].
    apply for_each_ext. intros s x. rewrite (proj1 (pf_C82_mask I p x v P)). reflexivity.
  - reflexivity.
  - destruct (assert_ (len ops =? OPCODE_TYPE_BITS)); [|discriminate].
    cbn [bind]. destruct (assert_ _); [|discriminate]. cbn [bind].
    apply for_each_impl. intros s x r H.
    destruct (opcode_as_integer_bitmask_of I Release x v) as [m|] eqn:E; [|discriminate H].
    rewrite (proj2 (pf_C82_mask I p x v P) m E). exact H.
Qed.

Lemma map_index_release p v : forall objs ms,
  Forall2 (fun o m => max_variant_idx o v = Ok m) objs ms ->
  map_res (fun op => let* m := max_variant_idx op v in add_w Release p m 1) objs
  = Ok (map (fun m => (m + 1) mod 2 ^ p) ms).
Proof.
  induction 1 as [|o m objs ms H F IH]; [reflexivity|]. cbn [map_res map].
  rewrite H. cbn [bind]. rewrite add_release. cbn [bind]. rewrite IH. reflexivity.
Qed.

Lemma fold_max_right r : forall x, N.max x (fold_right N.max 0 r) = fold_left N.max r x.
Proof.
  induction r as [|y r IH]; intros x; cbn [fold_right fold_left]; [apply N.max_0_r|].
  rewrite <- IH. lia.
Qed.

Lemma add_again p a b : add_w Release p (a mod 2 ^ p) b = Ok ((a + b) mod 2 ^ p).
Proof. rewrite add_release, N.add_mod_idemp_l; [reflexivity|]. assert (Z := pow_pos p). lia. Qed.

(** What an unchecked build makes of widths that do not fit. *)
Lemma pf_C82_unchecked :
  forall I p v objs ms nf, 16 <= p ->
    set_objects I = Ok objs -> objs <> [] ->
    Forall2 (fun o m => max_variant_idx o v = Ok m) objs ms ->
    max_num_flags_for_version_of I v = Ok nf ->
    let nv := fold_right N.max 0 (map (fun m => (m + 1) mod 2 ^ p) ms) in
    let t := (16 + nv + nf + 6 + 4) mod 2 ^ p in
    let r := ((t + 15) / 16 * 16) mod 2 ^ p in
    let no := N.of_nat (List.length objs) in
    max_num_variants_for_version_usize I p Release v = Ok nv /\
    total_description_bits_for_version_usize I p Release v = Ok t /\
    total_description_bits_rounded_for_version_usize I p Release v = Ok r /\
    total_opcode_description_and_aux_bits_for_version_usize I p Release v
      = Ok ((r + 3) mod 2 ^ p) /\
    (forall x, opcode_as_integer_bitmask_usize I p Release x v
       = if ((no + nv + nf + 10) mod 2 ^ p <=? r) && ((r + 3) mod 2 ^ p <=? 64)
         then Ok (word_with_bits (description_places I no nv nf r x)) else Panic).
Proof.
  intros I p v objs ms nf P HO HN HM HF nv t r no.
  assert (Z := pow_pos p).
  assert (B : 2 ^ 16 <= 2 ^ p) by (apply N.pow_le_mono_r; [discriminate|exact P]).
  change (2 ^ 16) with 65536 in B.
  assert (V : max_num_variants_for_version_usize I p Release v = Ok nv).
  { unfold max_num_variants_for_version_usize. rewrite HO. cbn [bind].
    rewrite (map_index_release p v objs ms HM). cbn [bind]. unfold nv.
    destruct HM as [|o m objs ms]; [contradiction HN; reflexivity|].
    cbn [map iter_max unwrap]. f_equal. symmetry. apply fold_max_right. }
  assert (T : total_description_bits_for_version_usize I p Release v = Ok t).
  { unfold total_description_bits_for_version_usize. rewrite V. cbn [bind].
    rewrite HF, add_release. cbn [bind]. rewrite add_again. cbn [bind].
    rewrite add_again. cbn [bind]. rewrite add_again. reflexivity. }
  assert (R : total_description_bits_rounded_for_version_usize I p Release v = Ok r).
  { rewrite machine_rounded, T. cbn [bind]. rewrite round_step. unfold r.
    change WIDTH_MULTIPLE with 16. assert (D := N.div_mod t 16 ltac:(discriminate)).
    assert (L := N.mod_lt t 16 ltac:(discriminate)).
    destruct (t mod 16 =? 0) eqn:E; cbn [negb].
    - replace ((t + 15) / 16) with (t / 16); [|apply (N.div_unique _ _ _ 15); lia].
      f_equal. rewrite N.mod_small; [lia|].
      replace (t / 16 * 16) with t by lia. apply N.mod_lt. lia.
    - rewrite add_release. f_equal. f_equal.
      replace ((t + 15) / 16) with (t / 16 + 1);
        [lia|apply (N.div_unique _ _ _ (t mod 16 - 1)); lia]. }
  split; [exact V|]. split; [exact T|]. split; [exact R|]. split.
  { unfold total_opcode_description_and_aux_bits_for_version_usize. rewrite R. cbn [bind].
    apply add_release. }
  intros x. unfold opcode_as_integer_bitmask_usize. rewrite V, HF, HO, R. cbn [bind].
  assert (K : forall a, 2 ^ ((a mod 2 ^ p) mod 64) = 2 ^ (a mod 64)).
  { intros a. f_equal. assert (E64 : 2 ^ p = 64 * 2 ^ (p - 6)).
    { replace p with (6 + (p - 6)) at 1 by lia. rewrite N.pow_add_r. reflexivity. }
    assert (Q := pow_pos (p - 6)).
    rewrite E64, N.mod_mul_r by lia. rewrite N.mul_comm, N.mod_add by lia.
    apply N.mod_mod. lia. }
  rewrite add_release. cbn [bind]. rewrite shl_release, K by reflexivity. cbn [bind].
  rewrite add_release. cbn [bind].
  repeat (rewrite ?add_again, ?shl_release, ?K by reflexivity; cbn [bind]).
  change (enumerate [fst (flags x); snd (flags x)]) with [(0, fst (flags x)); (1, snd (flags x))].
  assert (F : forall (b : bool) s w,
    (if b then let* q := add_w Release p ((0 + len objs + nv) mod 2 ^ p) s in
               let* c := shl_one Release 64 q in Ok (N.lor w c) else Ok w)
    = Ok (if b then N.lor w (2 ^ ((no + nv + s) mod 64)) else w)).
  { intros [] s w; [|reflexivity]. rewrite add_again. cbn [bind].
    rewrite shl_release, K by reflexivity. reflexivity. }
  cbn [for_each]. rewrite !F. cbn [bind]. rewrite F. cbn [bind].
  rewrite add_release. cbn [bind]. rewrite add_again. cbn [bind].
  assert (G : forall (b : bool) a w,
    (if b then let* c := shl_one Release 64 (a mod 2 ^ p) in Ok (N.lor w c) else Ok w)
    = Ok (if b then N.lor w (2 ^ (a mod 64)) else w)).
  { intros [] a w; [|reflexivity]. rewrite shl_release, K by reflexivity. reflexivity. }
  change (len objs) with no. rewrite explicit_panic, !operand_idx_eq.
  change (0 + no) with no. change (0 + set_index I (opcode x)) with (set_index I (opcode x)).
  replace (no + nv + nf + NUM_INPUT_VARIANTS + NUM_OUTPUT_VARIANTS) with (no + nv + nf + 10)
    by (change NUM_INPUT_VARIANTS with 6; change NUM_OUTPUT_VARIANTS with 4; lia).
  destruct ((no + nv + nf + 10) mod 2 ^ p <=? r); cbn [assert_ bind andb]; [|reflexivity].
  rewrite (operand_idx_eq (dst0_operand_type x)), add_again, N.add_0_r.
  change NUM_INPUT_VARIANTS with 6. change KERNEL_MODE_FLAG_BITS with 1.
  change CAN_BE_USED_IN_STATIC_CONTEXT_FLAG_BITS with 1. change EXPLICIT_PANIC_FLAG_BITS with 1.
  replace (r + 1 + 1 + 1) with (r + 3) by lia. replace (r + 1 + 1) with (r + 2) by lia.
  unfold description_places, word_with_bits. clearbody no nv r.
  destruct (set_kernel I (opcode x)), (set_static I (opcode x)), (spec_is_invalid (opcode x));
    cbn [bind]; rewrite ?shl_release, ?K by reflexivity; cbn [bind];
    rewrite ?shl_release, ?K by reflexivity; cbn [bind];
    (destruct ((r + 3) mod 2 ^ p <=? 64); cbn [assert_ bind]; [|reflexivity]);
    destruct (fst (flags x)), (snd (flags x)); reflexivity.
Qed.


Lemma synthesis_same I p bld :
  (forall u, compute_encoding_density_usize I p bld u = compute_encoding_density_of I u) ->
  forall bits v,
    synthesize_opcode_decoding_tables_usize I p bld bits v
    = synthesize_opcode_decoding_tables_of I p bld bits v /\
    synthesize_opcode_decoding_tables_legacy_usize I p bld bits v
    = synthesize_opcode_decoding_tables_legacy_of I p bld bits v.
Proof.
  intros D bits v.
  split.
  - destruct (procedure_new I p bld bits v) as [-> ->]. unfold procedure.
    destruct (set_objects I) as [ops|]; [|reflexivity]. cbn [bind].
    destruct (check_unique_names ops); [|reflexivity]. cbn [bind].
    destruct (shl_one bld p bits); [|reflexivity]. cbn [bind].
    rewrite (for_each_ext (new_step I (compute_encoding_density_usize I p bld))
               (new_step I (compute_encoding_density_of I))); [reflexivity|].
    intros r u. unfold new_step. rewrite (D u). reflexivity.
  - destruct (procedure_legacy I p bld bits v) as [-> ->]. unfold procedure.
    destruct (set_objects I) as [ops|]; [|reflexivity]. cbn [bind].
    destruct (check_unique_names ops); [|reflexivity]. cbn [bind].
    destruct (shl_one bld p bits); [|reflexivity]. cbn [bind].
    rewrite (for_each_ext (legacy_step I ops (compute_encoding_density_usize I p bld))
               (legacy_step I ops (compute_encoding_density_of I))); [reflexivity|].
    intros r u. unfold legacy_step. rewrite (D u). reflexivity.
Qed.

(** The crate as it is: on every target, in every build, all of these are what they are in exact
    arithmetic. *)
Lemma pf_C82_current :
  forall p bld v, 16 <= p ->
    compute_encoding_density_usize current_set p bld v = compute_encoding_density v /\
    max_num_variants_for_version_usize current_set p bld v = max_num_variants_for_version v /\
    total_description_bits_for_version_usize current_set p bld v
      = total_description_bits_for_version v /\
    total_description_bits_rounded_for_version_usize current_set p bld v
      = total_description_bits_rounded_for_version v /\
    total_opcode_description_and_aux_bits_for_version_usize current_set p bld v
      = total_opcode_description_and_aux_bits_for_version v /\
    (forall x, opcode_as_integer_bitmask_usize current_set p bld x v
               = opcode_as_integer_bitmask bld x v) /\
    (forall l, synthesize_bit_decomposition_table_usize current_set p bld l v
               = synthesize_bit_decomposition_table bld l v) /\
    (forall bits, synthesize_opcode_decoding_tables_usize current_set p bld bits v
                  = synthesize_opcode_decoding_tables_of current_set p bld bits v) /\
    (forall bits, synthesize_opcode_decoding_tables_legacy_usize current_set p bld bits v
                  = synthesize_opcode_decoding_tables_legacy_of current_set p bld bits v).
Proof.
  intros p bld v P.
  assert (B : 2 ^ 16 <= 2 ^ p) by (apply N.pow_le_mono_r; [discriminate|exact P]).
  change (2 ^ 16) with 65536 in B.
  assert (G : forall e m, machine_answer p e m ->
     (forall n, e = Ok n -> n < 65536) -> m bld = e).
  { intros e m A H. destruct e as [n|]; [|apply A].
    apply (answer_ok _ _ _ A). specialize (H n eq_refl). lia. }
  destruct (pf_C23_widths v) as [W1 W2].
  assert (D : forall u, compute_encoding_density_usize current_set p bld u = compute_encoding_density u).
  { intros u. apply (G _ (fun bld => compute_encoding_density_usize current_set p bld u)).
    - apply density_answer. lia.
    - intros n E. change (compute_encoding_density u = Ok n) in E.
      destruct (pf_C20_enumeration u) as [Q1 Q2].
      destruct (N.le_gt_cases u 1) as [C|C].
      + destruct (Q1 C) as (l & k & _ & Ek & _ & _ & -> & _). rewrite Ek in E. injection E as <-.
        destruct (u =? 0); reflexivity.
      + destruct (Q2 C) as [_ Ek]. rewrite Ek in E. discriminate E. }
  split; [exact (D v)|].
  destruct (pf_C82_widths current_set p v) as (A1 & A2 & A3 & A4).
  assert (V : max_num_variants_for_version_usize current_set p bld v = max_num_variants_for_version v).
  { apply (G _ _ A1). intros n E. change (max_num_variants_for_version v = Ok n) in E.
    destruct (N.le_gt_cases v 1) as [C|C].
    - destruct (W1 C) as (E1 & _). rewrite E1 in E. injection E as <-. reflexivity.
    - destruct (W2 C) as (E1 & _). rewrite E1 in E. discriminate E. }
  split; [exact V|].
  split.
  { apply (G _ _ A2). intros n E. change (total_description_bits_for_version v = Ok n) in E.
    destruct (N.le_gt_cases v 1) as [C|C].
    - destruct (W1 C) as (_ & _ & E1 & _). rewrite E1 in E. injection E as <-. reflexivity.
    - destruct (W2 C) as (_ & _ & E1 & _). rewrite E1 in E. discriminate E. }
  split.
  { apply (G _ _ A3). intros n E. change (total_description_bits_rounded_for_version v = Ok n) in E.
    destruct (N.le_gt_cases v 1) as [C|C].
    - destruct (W1 C) as (_ & _ & _ & E1 & _). rewrite E1 in E. injection E as <-. reflexivity.
    - destruct (W2 C) as (_ & _ & _ & E1 & _). rewrite E1 in E. discriminate E. }
  split.
  { apply (G _ _ A4). intros n E.
    change (total_opcode_description_and_aux_bits_for_version v = Ok n) in E.
    destruct (N.le_gt_cases v 1) as [C|C].
    - destruct (W1 C) as (_ & _ & _ & _ & E1). rewrite E1 in E. injection E as <-. reflexivity.
    - destruct (W2 C) as (_ & _ & _ & _ & E1). rewrite E1 in E. discriminate E. }
  assert (M : forall x, opcode_as_integer_bitmask_usize current_set p bld x v
                        = opcode_as_integer_bitmask bld x v).
  { intros x. destruct (pf_C21_bits bld x v) as [M1 M2].
    destruct (N.le_gt_cases v 1) as [C|C].
    - destruct (M1 C) as (m & E & _). rewrite E. apply mask_follow; [lia|exact E].
    - rewrite (M2 C). unfold opcode_as_integer_bitmask_usize. rewrite V.
      destruct (W2 C) as (-> & _). reflexivity. }
  split; [exact M|].
  split.
  { intros l. unfold synthesize_bit_decomposition_table_usize, synthesize_bit_decomposition_table,
      synthesize_bit_decomposition_table_of.
    destruct (set_objects current_set) as [ops|]; [|reflexivity]. cbn [bind].
    destruct (assert_ _); [|reflexivity]. cbn [bind].
    destruct (assert_ _); [|reflexivity]. cbn [bind].
    apply for_each_ext. intros s x. rewrite M.
    unfold opcode_as_integer_bitmask. reflexivity. }
  split; intros bits; apply (synthesis_same current_set p bld D).
Qed.

(** Expected: a set whose widths do not fit is rejected by every build.  False: without overflow
    checks the number of sub-variants wraps around to a small one, and masks are made with it. *)
Lemma pf_C82_refuted :
  let x := mkOpcodeVariant (Op_Nop nopOpcode) RegOnly RegOnly (false, false) in
  opcode_as_integer_bitmask_of wide_set Release x 0 = Panic /\
  opcode_as_integer_bitmask_usize wide_set 64 Debug x 0 = Panic /\
  opcode_as_integer_bitmask_usize wide_set 64 Release x 0
    = Ok (2 ^ 1 + 2 ^ 2 + 2 ^ 3 + 2 ^ 9 + 2 ^ 33) /\
  max_num_variants_for_version_usize wide_set 64 Release 0 = Ok 1 /\
  compute_encoding_density_of flagged_set 0 = Ok (6 * 2 ^ 64) /\
  compute_encoding_density_usize flagged_set 64 Debug 0 = Panic /\
  compute_encoding_density_usize flagged_set 64 Release 0 = Ok 6.
Proof. vm_compute. repeat split; reflexivity. Qed.

Example pf_C82_example :
  machine_answer 8 (Ok 255) (fun bld => add_w bld 8 254 1) /\
  machine_answer 8 (Ok 256) (fun bld => add_w bld 8 255 1) /\
  add_w Release 8 255 1 = Ok 0 /\
  compute_encoding_density_usize toy_set 6 Release 1 = Ok (99 - 64) /\
  compute_encoding_density_usize toy_set 6 Debug 1 = Panic /\
  compute_encoding_density_usize toy_set 7 Debug 1 = Ok 99 /\
  (exists objs, set_objects wide_set = Ok objs /\ objs <> [] /\
     Forall2 (fun o m => max_variant_idx o 0 = Ok m) objs [0; 2 ^ 64 - 1] /\
     max_num_flags_for_version_of wide_set 0 = Ok 0 /\
     description_places wide_set 2 1 0 32
       (mkOpcodeVariant (Op_Nop nopOpcode) RegOnly RegOnly (false, false)) = [1; 2; 3; 9; 33]).
Proof.
  split; [vm_compute; intros []; reflexivity|]. split; [vm_compute; reflexivity|].
  split; [reflexivity|]. split; [vm_compute; reflexivity|]. split; [vm_compute; reflexivity|].
  split; [vm_compute; reflexivity|].
  eexists. split; [reflexivity|]. split; [discriminate|].
  split; [repeat constructor|]. split; vm_compute; reflexivity.
Qed.
