(** * Proofs about the circuits a run fills (C95) *)

From Coq Require Import Arith NArith List Bool Lia.
From Verif Require Import Machine Constants Operands OpcodeTrait Opcodes AllOpcodes Tables PricingGen
  SpecIsa SpecFamilies SpecCodec SpecLayout SpecPricing SpecBudget SpecCircuits.
From Verif Require Import TableProofs CodecProofs2 ProofsBudget.
Import ListNotations.
Open Scope N_scope.

(** ** The share of a circuit that a cycle takes *)

(** A common multiple of the capacities. *)
Definition whole : N := 2109827720000.

Definition share (x : option OpcodeVariant) : N :=
  fold_right (fun c n => snd c x * (whole / fst c) + n) 0 circuits.

Lemma share_sweep :
  forallb (fun x => negb (spec_well_formed 1 x) ||
             match opcode x with
             | Op_Invalid _ => true
             | Op_NearCall _ | Op_FarCall _ =>
                 104937 * share (Some x) + 5 * whole <=? Opcode_ergs_price (opcode x) * whole
             | _ => 104937 * share (Some x) <=? Opcode_ergs_price (opcode x) * whole
             end) spec_all_variants = true.
Proof. vm_compute. reflexivity. Qed.

Lemma share_case x : in_table x ->
  match opcode x with
  | Op_Invalid _ => True
  | Op_NearCall _ | Op_FarCall _ =>
      104937 * share (Some x) + 5 * whole <= Opcode_ergs_price (opcode x) * whole
  | _ => 104937 * share (Some x) <= Opcode_ergs_price (opcode x) * whole
  end.
Proof.
  intros H. apply in_table_wf in H. assert (S := forall_variants _ share_sweep x). cbv beta in S.
  rewrite H in S. cbn [negb orb] in S.
  destruct (opcode x); try exact I; apply N.leb_le; exact S.
Qed.

Lemma share_panic : 104937 * share None <= 5 * whole.
Proof. apply N.leb_le. vm_compute. reflexivity. Qed.

Lemma share_bound l : Forall from_table l -> forall d, nested d (opcodes l) ->
  104937 * units share l <= total_price (opcodes l) * whole + 5 * whole * N.of_nat d.
Proof.
  assert (SP := share_panic).
  induction 1 as [|x l H _ IH]; intros d N; [apply N.le_0_l|].
  destruct d as [|d]; [destruct N|].
  change (units share (x :: l)) with (share x + units share l).
  change (opcodes (x :: l)) with (option_map opcode x :: opcodes l) in *.
  replace (N.of_nat (S d)) with (N.of_nat d + 1) by lia.
  destruct x as [x|]; cbn [option_map] in *.
  2:{ change (total_price (None :: opcodes l)) with (total_price (opcodes l)).
      specialize (IH d N). rewrite !N.mul_add_distr_l. lia. }
  change (total_price (Some (opcode x) :: opcodes l))
    with (Opcode_ergs_price (opcode x) + total_price (opcodes l)).
  assert (C := share_case x H). rewrite N.mul_add_distr_r, !N.mul_add_distr_l.
  destruct (keeps_frame (opcode x)) eqn:K.
  { rewrite nested_plain in N by exact K. specialize (IH (S d) N).
    replace (N.of_nat (S d)) with (N.of_nat d + 1) in IH by lia. rewrite N.mul_add_distr_l in IH.
    assert (C' : 104937 * share (Some x) <= Opcode_ergs_price (opcode x) * whole)
      by (destruct (opcode x); try exact C; discriminate K).
    clear C. lia. }
  destruct (opcode x) as [j|j|j|j|j|j|j|j|j|j|j|j|j|j|j|j] eqn:O; try discriminate K; cbn [nested] in N;
    try contradiction; specialize (IH _ N).
  - replace (N.of_nat (S (S d))) with (N.of_nat d + 1 + 1) in IH by lia.
    rewrite !N.mul_add_distr_l in IH. lia.
  - replace (N.of_nat (S (S d))) with (N.of_nat d + 1 + 1) in IH by lia.
    rewrite !N.mul_add_distr_l in IH. lia.
  - lia.
Qed.

(** ** Instances filled *)

Lemma units_add f g l : units (fun x => f x + g x) l = units f l + units g l.
Proof. induction l as [|x l IH]; [reflexivity|]. cbn [units fold_right] in *. fold (units f l) (units g l) in *. unfold units in *. lia. Qed.

Lemma units_mul f k l : units (fun x => f x * k) l = units f l * k.
Proof.
  induction l as [|x l IH]; [reflexivity|]. unfold units in *. cbn [fold_right].
  rewrite IH, N.mul_add_distr_r. reflexivity.
Qed.

Lemma units_zero l : units (fun _ => 0) l = 0.
Proof. induction l as [|x l IH]; [reflexivity|exact IH]. Qed.

Lemma units_shares cs l :
  units (fun x => fold_right (fun c n => snd c x * (whole / fst c) + n) 0 cs) l
  = fold_right (fun c n => units (snd c) l * (whole / fst c) + n) 0 cs.
Proof.
  induction cs as [|c cs IH]; [apply units_zero|]. cbn [fold_right]. rewrite <- IH, <- units_mul.
  apply (units_add (fun x => snd c x * (whole / fst c))).
Qed.

Lemma instances (cs : list (N * (option OpcodeVariant -> N))) l :
  forallb (fun c => negb (fst c =? 0) && (whole mod fst c =? 0)) cs = true ->
  fold_right (fun c n => units (snd c) l / fst c + n) 0 cs * whole
  <= fold_right (fun c n => units (snd c) l * (whole / fst c) + n) 0 cs.
Proof.
  induction cs as [|[c f] cs IH]; [reflexivity|]. cbn [forallb fold_right fst snd]. intros H.
  apply andb_true_iff in H as [H Hc]. specialize (IH Hc). rewrite N.mul_add_distr_r.
  apply N.add_le_mono; [|exact IH].
  apply andb_true_iff in H as [H0 H1]. apply negb_true_iff, N.eqb_neq in H0. apply N.eqb_eq in H1.
  assert (E : whole = c * (whole / c)) by (apply N.div_exact; assumption).
  rewrite E at 1. rewrite N.mul_assoc. apply N.mul_le_mono_r. rewrite N.mul_comm.
  apply N.mul_div_le. exact H0.
Qed.

Lemma filled_shares l : filled l * whole <= units share l.
Proof.
  unfold share. rewrite units_shares. apply instances. vm_compute. reflexivity.
Qed.

Lemma filled_bound e u l s :
  vm_run (vm_start e) (opcodes l) s -> unpaid s <= u -> Forall from_table l ->
  104937 * filled l <= e + Opcode_ergs_price (Op_NearCall nearCallOpcode) * u + 5.
Proof.
  intros R U F. destruct (proj1 (pf_C94_exact e u (opcodes l))) as [N P]; [exists s; split; assumption|].
  assert (B := share_bound l F 1 N). assert (A := filled_shares l). fold pn in *.
  assert (P' : total_price (opcodes l) <= e + pn * u).
  { assert (M : pn * N.min u (near_calls (opcodes l)) <= pn * u) by (apply N.mul_le_mono_l, N.le_min_l). lia. }
  apply (N.mul_le_mono_pos_r _ _ whole); [reflexivity|].
  apply (N.mul_le_mono_r _ _ whole) in P'. rewrite !N.mul_add_distr_r in *. lia.
Qed.

(** ** Sequences that reach the bound *)

Definition precompile_call : OpcodeVariant :=
  mkOpcodeVariant (Op_Log LogOpcode_PrecompileCall) RegOnly RegOnly (false, false).
Definition context_read : OpcodeVariant :=
  mkOpcodeVariant (Op_Context ContextOpcode_This) RegOnly RegOnly (false, false).
Definition storage_read : OpcodeVariant :=
  mkOpcodeVariant (Op_Log LogOpcode_StorageRead) RegOnly RegOnly (false, false).

Definition two (a b : OpcodeVariant) (m n : N) : list (option OpcodeVariant) :=
  repeat (Some a) (N.to_nat m) ++ repeat (Some b) (N.to_nat n).

Lemma units_repeat f x n : units f (repeat x n) = N.of_nat n * f x.
Proof. induction n as [|n IH]; [reflexivity|]. unfold units in *. cbn [repeat fold_right]. rewrite IH. lia. Qed.

Lemma units_app f l l' : units f (l ++ l') = units f l + units f l'.
Proof. induction l as [|x l IH]; [reflexivity|]. unfold units in *. cbn [List.app fold_right]. rewrite IH. lia. Qed.

Lemma two_units f a b m n : units f (two a b m n) = m * f (Some a) + n * f (Some b).
Proof. unfold two. rewrite units_app, !units_repeat, !N2Nat.id. reflexivity. Qed.

Lemma price_app l l' : total_price (l ++ l') = total_price l + total_price l'.
Proof.
  induction l as [|[x|] l IH]; [reflexivity| |exact IH]. unfold total_price in *.
  cbn [List.app fold_right]. rewrite IH. lia.
Qed.

Lemma map_repeat {A B} (f : A -> B) x n : map f (repeat x n) = repeat (f x) n.
Proof. induction n as [|n IH]; [reflexivity|]. cbn [repeat map]. rewrite IH. reflexivity. Qed.

Lemma two_price a b m n :
  total_price (opcodes (two a b m n))
  = m * Opcode_ergs_price (opcode a) + n * Opcode_ergs_price (opcode b).
Proof.
  unfold opcodes, two. rewrite map_app, !map_repeat, price_app. cbn [option_map].
  rewrite !repeat_price, !N2Nat.id. reflexivity.
Qed.

Lemma plain_nested l : Forall (fun o => match o with Some o => keeps_frame o = true | None => False end) l ->
  forall d, nested (S d) l.
Proof.
  induction 1 as [|[o|] l H _ IH]; intros d; [exact I| |destruct H].
  rewrite nested_plain by exact H. apply IH.
Qed.

Lemma Forall_repeat {A} (P : A -> Prop) x n : P x -> Forall P (repeat x n).
Proof. intros H. induction n; constructor; assumption. Qed.

Lemma two_run a b m n e :
  in_table a -> in_table b -> keeps_frame (opcode a) = true -> keeps_frame (opcode b) = true ->
  m * Opcode_ergs_price (opcode a) + n * Opcode_ergs_price (opcode b) <= e ->
  Forall from_table (two a b m n) /\
  exists s, vm_run (vm_start e) (opcodes (two a b m n)) s /\ unpaid s = 0.
Proof.
  intros A B KA KB P. split; [apply Forall_app; split; apply Forall_repeat; assumption|].
  destruct (proj2 (pf_C94_exact e 0 (opcodes (two a b m n)))) as (s & R & U).
  - split.
    + apply plain_nested. unfold opcodes, two. rewrite map_app, !map_repeat.
      apply Forall_app. split; apply Forall_repeat; assumption.
    + rewrite two_price, N.min_0_l, N.mul_0_r, N.add_0_r. exact P.
  - exists s. split; [exact R|lia].
Qed.

Lemma two_exists a b m n e :
  in_table a -> in_table b -> keeps_frame (opcode a) = true -> keeps_frame (opcode b) = true ->
  m * Opcode_ergs_price (opcode a) + n * Opcode_ergs_price (opcode b) <= e ->
  exists l s, vm_run (vm_start e) (opcodes l) s /\ unpaid s = 0 /\ Forall from_table l /\
    forall f, units f l = m * f (Some a) + n * f (Some b).
Proof.
  intros A B KA KB P. destruct (two_run a b m n e A B KA KB P) as (F & s & R & U).
  exists (two a b m n), s. split; [exact R|]. split; [exact U|]. split; [exact F|].
  intros f. apply two_units.
Qed.

Lemma two_filled a b m n l : (forall f, units f l = m * f (Some a) + n * f (Some b)) ->
  filled l = fold_right (fun c k => (m * snd c (Some a) + n * snd c (Some b)) / fst c + k) 0 circuits.
Proof.
  intros H. unfold filled. generalize circuits. induction l0 as [|c cs IH]; [reflexivity|].
  cbn [fold_right]. rewrite IH, H. reflexivity.
Qed.

Lemma in_precompile : in_table precompile_call.
Proof. apply in_table_wf. reflexivity. Qed.
Lemma in_context : in_table context_read.
Proof. apply in_table_wf. reflexivity. Qed.
Lemma in_storage : in_table storage_read.
Proof. apply in_table_wf. reflexivity. Qed.

(** ** The theorems *)

(** The instances that the cycles of a run fill, of all the circuits together, cost at least 104937
    ergs each, up to a last panic that is free; and not more can be said. *)
Lemma pf_C95_filled :
  forall p,
    (forall e u l s, vm_run (vm_start e) (opcodes l) s -> unpaid s <= u -> Forall from_table l ->
       p * filled l <= e + Opcode_ergs_price (Op_NearCall nearCallOpcode) * u + 5)
    <-> p <= 104937.
Proof.
  intros p. split.
  - intros H.
    destruct (two_exists precompile_call context_read 1213940000 0 7283640000) as (l & s & R & U & F & E);
      [exact in_precompile|exact in_context|reflexivity|reflexivity|discriminate|].
    assert (B := H 7283640000 0 l s R). rewrite U in B. specialize (B (N.le_refl 0) F).
    apply two_filled in E.
    match type of E with _ = ?x => change x with 69409 in E end. rewrite E, N.mul_0_r, N.add_0_r in B. lia.
  - intros P e u l s R U F. assert (B := filled_bound e u l s R U F).
    apply (N.mul_le_mono_r _ _ (filled l)) in P. lia.
Qed.

(** A transaction fills at most 762 instances, fewer than its ergs limit is worth, and can fill that
    many. *)
Lemma pf_C95_transaction :
  (forall l s, vm_run (vm_start MAX_TX_ERGS_LIMIT) (opcodes l) s -> unpaid s = 0 ->
     Forall from_table l -> filled l <= 762) /\
  (exists l s, vm_run (vm_start MAX_TX_ERGS_LIMIT) (opcodes l) s /\ unpaid s = 0 /\
     Forall from_table l /\ filled l = 762) /\
  762 * ERGS_PER_CIRCUIT < MAX_TX_ERGS_LIMIT.
Proof.
  split; [|split; [|reflexivity]].
  - intros l s R U F. assert (B := filled_bound _ 0 l s R). rewrite U in B.
    specialize (B (N.le_refl 0) F). rewrite N.mul_0_r, N.add_0_r in B. unfold MAX_TX_ERGS_LIMIT in B. lia.
  - destruct (two_exists precompile_call context_read 13296500 44200 MAX_TX_ERGS_LIMIT)
      as (l & s & R & U & F & E);
      [exact in_precompile|exact in_context|reflexivity|reflexivity|discriminate|].
    exists l, s. split; [exact R|]. split; [exact U|]. split; [exact F|].
    apply two_filled in E. rewrite E. reflexivity.
Qed.

Lemma extra_bound xs : Forall (fun x => In (fst x) metered_circuits) xs ->
  80004 * filled_extra xs <= cost_extra xs.
Proof.
  induction 1 as [|[[c q] n] xs H _ IH]; [reflexivity|]. cbn [filled_extra cost_extra fold_right].
  fold (filled_extra xs) (cost_extra xs). cbn [fst] in H.
  assert (C : 80004 <= c * q /\ c <> 0).
  { repeat (destruct H as [H|H]; [injection H as <- <-; split; discriminate|]). destruct H. }
  destruct C as [C Z]. assert (D := N.mul_div_le n c Z). apply (N.mul_le_mono_r _ _ q) in D.
  apply (N.mul_le_mono_r _ _ (n / c)) in C. rewrite N.mul_add_distr_l.
  replace (c * q * (n / c)) with (c * (n / c) * q) in C by lia. lia.
Qed.

(** Together with units of any circuit bought in addition, instances cost at least 80004 ergs each,
    which is more than a circuit is worth; and not more can be said.  With the limit of a transaction
    that is at most 999 of them, and so many can be filled. *)
Lemma pf_C95_extra :
  (forall p,
     (forall e u l s xs, vm_run (vm_start e) (opcodes l) s -> unpaid s <= u -> Forall from_table l ->
        Forall (fun x => In (fst x) metered_circuits) xs ->
        p * (filled l + filled_extra xs)
        <= e + cost_extra xs + Opcode_ergs_price (Op_NearCall nearCallOpcode) * u + 5)
     <-> p <= 80004) /\
  ERGS_PER_CIRCUIT <= 80004 /\
  (forall e l s xs, vm_run (vm_start e) (opcodes l) s -> unpaid s = 0 -> Forall from_table l ->
     Forall (fun x => In (fst x) metered_circuits) xs -> e + cost_extra xs <= MAX_TX_ERGS_LIMIT ->
     filled l + filled_extra xs <= 999) /\
  (exists e l s xs, vm_run (vm_start e) (opcodes l) s /\ unpaid s = 0 /\ Forall from_table l /\
     Forall (fun x => In (fst x) metered_circuits) xs /\ e + cost_extra xs <= MAX_TX_ERGS_LIMIT /\
     filled l + filled_extra xs = 999).
Proof.
  assert (G : forall e u l s xs, vm_run (vm_start e) (opcodes l) s -> unpaid s <= u -> Forall from_table l ->
     Forall (fun x => In (fst x) metered_circuits) xs ->
     80004 * (filled l + filled_extra xs)
     <= e + cost_extra xs + Opcode_ergs_price (Op_NearCall nearCallOpcode) * u + 5).
  { intros e u l s xs R U F X. assert (A := filled_bound e u l s R U F). assert (B := extra_bound xs X).
    rewrite N.mul_add_distr_l. lia. }
  assert (T : forall k, Forall (fun x : N * N * N => In (fst x) metered_circuits)
                          [(CYCLES_PER_STORAGE_APPLICATION, STORAGE_APPLICATION_COST_IN_ERGS, k)]).
  { intros k. constructor; [do 3 right; left; reflexivity|constructor]. }
  split; [|split; [discriminate|split]].
  - intros p. split.
    + intros H. assert (B := H 0 0 [] (vm_start 0) _ (run_nil _) (N.le_refl 0) (Forall_nil _) (T (118 * 1000))).
      match type of B with p * ?x <= ?y => change x with 1000 in B; change y with 80004005 in B end. lia.
    + intros P e u l s xs R U F X. assert (B := G e u l s xs R U F X).
      apply (N.mul_le_mono_r _ _ (filled l + filled_extra xs)) in P. lia.
  - intros e l s xs R U F X E. assert (B := G e 0 l s xs R). rewrite U in B.
    specialize (B (N.le_refl 0) F X). rewrite N.mul_0_r in B. unfold MAX_TX_ERGS_LIMIT in *. lia.
  - eexists 0, [], (vm_start 0), _.
    split; [apply run_nil|]. split; [reflexivity|]. split; [constructor|].
    split; [apply (T (118 * 999))|]. split; [discriminate|reflexivity].
Qed.

(** Expected: so do the reads of storage with the circuits that look up slots.  False: the price of a
    read is less than that of a look-up, and reads of different slots fill 4290 instances. *)
Lemma pf_C95_storage_refuted :
  In (CYCLES_PER_STORAGE_APPLICATION, STORAGE_APPLICATION_COST_IN_ERGS) metered_circuits /\
  Opcode_ergs_price (Op_Log LogOpcode_StorageRead) < STORAGE_APPLICATION_COST_IN_ERGS /\
  ~ (forall l s, vm_run (vm_start MAX_TX_ERGS_LIMIT) (opcodes l) s -> unpaid s = 0 ->
       Forall from_table l ->
       units slots_read l / CYCLES_PER_STORAGE_APPLICATION * ERGS_PER_CIRCUIT <= MAX_TX_ERGS_LIMIT) /\
  exists l s, vm_run (vm_start MAX_TX_ERGS_LIMIT) (opcodes l) s /\ unpaid s = 0 /\
    Forall from_table l /\ units slots_read l / CYCLES_PER_STORAGE_APPLICATION = 4290.
Proof.
  split; [do 3 right; left; reflexivity|]. split; [reflexivity|].
  destruct (two_exists storage_read storage_read 506329 0 MAX_TX_ERGS_LIMIT)
    as (l & s & R & U & F & E0); [exact in_storage|exact in_storage|reflexivity|reflexivity|discriminate|].
  assert (E : units slots_read l / CYCLES_PER_STORAGE_APPLICATION = 4290)
    by (rewrite E0; reflexivity).
  split.
  - intros H. specialize (H _ s R U F). rewrite E in H. apply H. reflexivity.
  - exists l, s. split; [exact R|]. split; [exact U|]. split; [exact F|exact E].
Qed.

(** The capacities are those the prices are made from; and what some cycles take of them. *)
Example pf_C95_example :
  Forall (fun c => exists q, In (fst c, q) metered_circuits) circuits /\
  (let add := mkOpcodeVariant (Op_Add AddOpcode_Add) (Full UseCodePage) (Full UseStackWithOffset)
                (false, false) in
   in_table add /\ map (fun c => snd c (Some add)) circuits = [1; 3; 0; 0; 0; 0]) /\
  (let call := mkOpcodeVariant (Op_FarCall FarCallOpcode_Normal) RegOnly RegOnly (false, false) in
   in_table call /\ map (fun c => snd c (Some call)) circuits = [2; 1; 1; 1; 0; 1]) /\
  map (fun c => snd c None) circuits = [1; 1; 0; 0; 0; 0].
Proof.
  split.
  { repeat constructor; eexists; [left|do 1 right; left|do 5 right; left|do 6 right; left
                                 |do 7 right; left|do 4 right; left]; reflexivity. }
  split; [split; [apply in_table_wf|]; reflexivity|].
  split; [split; [apply in_table_wf|]; reflexivity|]. reflexivity.
Qed.
