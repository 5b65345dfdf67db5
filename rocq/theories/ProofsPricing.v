(** * Proofs of the price, limit and constant properties (C49-C56, C61). *)

From Coq Require Import Arith NArith Lia ZArith List Bool String Ascii.
From Coq Require Import ZifyBool ZifyNat ZifyN.
From Verif Require Import Machine Constants Opcodes AllOpcodes Abi PricingGen SpecFamilies SpecAbi
  SpecPricing.
From Verif Require Import TableProofs2.
Import ListNotations.
Open Scope N_scope.

Lemma length_to_le n x : List.length (to_le_bytes n x) = n.
Proof. revert x. induction n as [|n IH]; intros x; cbn; [|rewrite IH]; reflexivity. Qed.

Lemma bytes_to_le n x : Forall (fun b => b < 256) (to_le_bytes n x).
Proof.
  revert x. induction n as [|n IH]; intros x; cbn [to_le_bytes]; constructor; [|apply IH].
  apply N.mod_lt. discriminate.
Qed.

Lemma value_to_le n x :
  fold_right (fun b acc => b + 256 * acc) 0 (to_le_bytes n x) = x mod 256 ^ N.of_nat n.
Proof.
  revert x. induction n as [|n IH]; intros x; cbn [to_le_bytes fold_right].
  - rewrite N.mod_1_r. reflexivity.
  - rewrite IH, Nat2N.inj_succ, N.pow_succ_r'.
    rewrite N.mod_mul_r by (try apply N.pow_nonzero; discriminate). reflexivity.
Qed.

Lemma value_be l : fold_left (fun acc b => acc * 256 + b) l 0
  = fold_right (fun b acc => b + 256 * acc) 0 (rev l).
Proof.
  rewrite <- fold_left_rev_right. induction (rev l) as [|b r IH]; cbn [fold_right]; [reflexivity|].
  rewrite IH. lia.
Qed.

(** ** C49 *)

(** What the generator writes is the committed file, in both builds. *)
Lemma pf_C49_text :
  forall bld, generator_main bld = Ok ("src/circuit_prices.rs"%string, committed_circuit_prices).
Proof. intros []; vm_compute; reflexivity. Qed.

(** The capacities of the specification are the generator's, and its division yields the
    committed price of every metered circuit, in both builds. *)
Lemma pf_C49_capacities :
  map fst metered_circuits =
    [CYCLES_PER_VM_SNAPSHOT; CYCLES_PER_RAM_PERMUTATION; 2 * CYCLES_PER_CODE_DECOMMITTER;
     CYCLES_PER_STORAGE_APPLICATION; CYCLES_FOR_CODE_DECOMMITTER_SORTER; CYCLES_FOR_LOG_DEMUXER;
     CYCLES_FOR_STORAGE_SORTER; CYCLES_FOR_EVENTS_OR_L1_MESSAGES_SORTER;
     LIMIT_FOR_INITIAL_WRITES_PUBDATA_HASHER; LIMIT_FOR_REPEATED_WRITES_PUBDATA_HASHER;
     CYCLES_FOR_CODE_DECOMMITTER_SORTER; CYCLES_PER_KECCAK256_CIRCUIT; CYCLES_PER_SHA256_CIRCUIT;
     CYCLES_PER_ECRECOVER_CIRCUIT] /\
  LIMIT_FOR_L1_MESSAGES_MERKLIZER = 512 /\ LIMIT_FOR_INITIAL_WRITES_PUBDATA_HASHER = 4600 /\
  LIMIT_FOR_REPEATED_WRITES_PUBDATA_HASHER = 7400 /\
  (forall bld c q, In (c, q) metered_circuits -> ceil_div bld ERGS_PER_CIRCUIT c = Ok q) /\
  (forall bld, ceil_div bld MAX_TX_ERGS_LIMIT LIMIT_FOR_L1_MESSAGES_MERKLIZER
               = Ok L1_MESSAGE_MIN_COST_IN_ERGS).
Proof.
  do 4 (split; [reflexivity|]). split.
  - intros bld c q H. cbn [metered_circuits In] in H.
    repeat (destruct H as [H|H]; [injection H as <- <-; destruct bld; reflexivity|]). destruct H.
  - intros []; reflexivity.
Qed.

(** Every committed constant is the generator's formula over the capacities. *)
Lemma pf_C49_formulas :
  (forall c q, In (c, q) metered_circuits -> ceiling_of ERGS_PER_CIRCUIT c q) /\
  ceiling_of MAX_TX_ERGS_LIMIT 512 L1_MESSAGE_MIN_COST_IN_ERGS /\
  (MAX_PUBDATA_PER_BLOCK <= 4600 * INITIAL_STORAGE_WRITE_PUBDATA_BYTES /\
   INITIAL_WRITES_PUBDATA_HASHER_MIN_COST_IN_ERGS = 0) /\
  (MAX_PUBDATA_PER_BLOCK <= 7400 * REPEATED_STORAGE_WRITE_PUBDATA_BYTES /\
   REPEATED_WRITES_PUBDATA_HASHER_MIN_COST_IN_ERGS = 0) /\
  STORAGE_WRITE_HASHER_MIN_COST_IN_ERGS =
    N.max INITIAL_WRITES_PUBDATA_HASHER_MIN_COST_IN_ERGS
          REPEATED_WRITES_PUBDATA_HASHER_MIN_COST_IN_ERGS.
Proof.
  assert (G : forall a b q, 0 < b -> (a <=? q * b) && ((q - 1) * b <? a) = true ->
    0 < q -> ceiling_of a b q).
  { intros a b q Hb H Hq. apply andb_prop in H as [H1 H2]. split; [lia|].
    intros q' Hq'. destruct (N.lt_ge_cases q' q) as [L|L]; [|exact L].
    assert (q' * b <= (q - 1) * b) by (apply N.mul_le_mono_r; lia). lia. }
  split.
  - intros c q H. cbn [metered_circuits In] in H.
    repeat (destruct H as [H|H];
      [injection H as <- <-; apply G; reflexivity|]). destruct H.
  - split; [apply G; reflexivity|]. split; [split; [discriminate|reflexivity]|].
    split; [split; [discriminate|reflexivity]|reflexivity].
Qed.

Example pf_C49_example :
  In (2050, 40) metered_circuits /\ ceil_div Debug ERGS_PER_CIRCUIT 2050 = Ok 40 /\
  ceiling_of ERGS_PER_CIRCUIT 2050 40 /\ ~ ceiling_of ERGS_PER_CIRCUIT 2050 41.
Proof.
  assert (I : In (2050, 40) metered_circuits)
    by (do 11 right; left; reflexivity).
  split; [exact I|]. split; [reflexivity|]. split; [apply pf_C49_formulas, I|].
  intros [_ H]. specialize (H 40 ltac:(discriminate)). revert H. apply N.lt_nge. reflexivity.
Qed.

(** ** C50 *)

(** Ceiling division of [u32] values, in both builds. *)
Lemma pf_C50_ceil_div :
  forall a b, a < 2 ^ 32 -> b < 2 ^ 32 ->
    (b = 0 -> forall bld, ceil_div bld a b = Panic) /\
    (0 < b -> a + b < 2 ^ 32 -> forall bld,
       exists q, ceil_div bld a b = Ok q /\ ceiling_of a b q) /\
    (0 < b -> 2 ^ 32 <= a + b -> ceil_div Debug a b = Panic) /\
    (0 < b -> 2 ^ 32 <= a + b -> exists q,
       ceil_div Release a b = Ok q /\ q = ((a + b - 1) mod 2 ^ 32) / b /\
       forall q0, ceiling_of a b q0 ->
         (a + b = 2 ^ 32 -> q = q0) /\ (2 ^ 32 < a + b -> q < q0)).
Proof.
  intros a b Ha Hb.
  assert (C : 0 < b -> ceiling_of a b ((a + b - 1) / b)).
  { intros B. split.
    - assert (D := N.div_mod (a + b - 1) b ltac:(lia)).
      assert (M := N.mod_lt (a + b - 1) b ltac:(lia)). lia.
    - intros q' H. apply N.lt_succ_r. apply N.div_lt_upper_bound; lia. }
  assert (U : forall q q', ceiling_of a b q -> ceiling_of a b q' -> q = q').
  { intros q q' [A1 A2] [B1 B2]. specialize (A2 q' B1). specialize (B2 q A1). lia. }
  split; [|split; [|split]].
  - intros -> bld. unfold ceil_div, add_w, sub_w, div_w.
    destruct (a + 0 <? 2 ^ 32) eqn:E; cbn [bind]; [|destruct bld; cbn [bind]; [reflexivity|]].
    + destruct (1 <=? a + 0); cbn [bind N.eqb]; [reflexivity|destruct bld; reflexivity].
    + destruct (1 <=? wrapping_add_w 32 a 0); cbn [bind N.eqb]; reflexivity.
  - intros B S bld. exists ((a + b - 1) / b). split; [|apply C, B].
    unfold ceil_div, add_w. replace (a + b <? 2 ^ 32) with true by lia. cbn [bind].
    unfold sub_w. replace (1 <=? a + b) with true by lia. cbn [bind].
    unfold div_w. replace (b =? 0) with false by lia. reflexivity.
  - intros B S. unfold ceil_div, add_w. replace (a + b <? 2 ^ 32) with false by lia. reflexivity.
  - intros B S. exists (((a + b - 1) mod 2 ^ 32) / b). split; [|split; [reflexivity|]].
    + unfold ceil_div, add_w. replace (a + b <? 2 ^ 32) with false by lia. cbn [bind].
      unfold wrapping_add_w.
      replace ((a + b) mod 2 ^ 32) with (a + b - 2 ^ 32).
      2: { replace (a + b) with (a + b - 2 ^ 32 + 1 * 2 ^ 32) at 2 by lia.
           rewrite N.mod_add by discriminate. symmetry. apply N.mod_small. lia. }
      unfold sub_w, wrapping_sub_w, div_w. replace (b =? 0) with false by lia.
      destruct (N.eq_dec (a + b) (2 ^ 32)) as [E|E].
      * rewrite E. reflexivity.
      * replace (1 <=? a + b - 2 ^ 32) with true by lia. cbn [bind]. f_equal. f_equal.
        replace (a + b - 1) with (a + b - 2 ^ 32 - 1 + 1 * 2 ^ 32) by lia.
        rewrite N.mod_add by discriminate. symmetry. apply N.mod_small. lia.
    + intros q0 H0. rewrite (U q0 _ H0 (C B)). split; intros E.
      * rewrite N.mod_small by lia. reflexivity.
      * replace (a + b - 1) with (a + b - 1 - 2 ^ 32 + 1 * 2 ^ 32) at 1 by lia.
        rewrite N.mod_add by discriminate. rewrite N.mod_small by lia.
        apply N.div_lt_upper_bound; [lia|].
        assert (D := N.div_mod (a + b - 1) b ltac:(lia)).
        assert (M := N.mod_lt (a + b - 1) b ltac:(lia)). lia.
Qed.

Example pf_C50_example :
  ceil_div Debug 80000 23000 = Ok 4 /\ ceil_div Release (2 ^ 32 - 1) 10 = Ok 0 /\
  ceil_div Debug (2 ^ 32 - 1) 10 = Panic /\ ceil_div Release 0 0 = Panic.
Proof. repeat split. Qed.

(** ** C51 *)

(** A unit price pays for every completely filled circuit exactly when it is at least the
    committed one. *)
Lemma pf_C51_circuits :
  forall c q, In (c, q) metered_circuits ->
    forall p, (forall n, ERGS_PER_CIRCUIT * (n / c) <= n * p) <-> q <= p.
Proof.
  intros c q H. destruct (proj1 pf_C49_formulas c q H) as [A B].
  assert (C0 : 0 < c).
  { cbn [metered_circuits In] in H.
    repeat (destruct H as [H|H]; [injection H as <- <-; reflexivity|]). destruct H. }
  intros p. split.
  - intros P. specialize (P c). rewrite N.div_same in P by lia. apply B. lia.
  - intros P n. assert (D := N.div_mod n c ltac:(lia)).
    assert (ERGS_PER_CIRCUIT <= p * c) by (assert (q * c <= p * c) by (apply N.mul_le_mono_r; exact P); lia).
    assert (ERGS_PER_CIRCUIT * (n / c) <= p * c * (n / c)) by (apply N.mul_le_mono_r; assumption).
    assert (p * (c * (n / c)) <= p * n) by (apply N.mul_le_mono_l; lia). lia.
Qed.

(** The single-instance circuits cannot be exhausted: L1 messages by their price, the write
    hashers by the pubdata limit. *)
Lemma pf_C51_limits :
  (forall n, n * Opcode_ergs_price (Op_Log LogOpcode_ToL1Message) <= MAX_TX_ERGS_LIMIT ->
     n <= LIMIT_FOR_L1_MESSAGES_MERKLIZER) /\
  ceiling_of MAX_TX_ERGS_LIMIT LIMIT_FOR_L1_MESSAGES_MERKLIZER
    (Opcode_ergs_price (Op_Log LogOpcode_ToL1Message)) /\
  (forall i r, i * INITIAL_STORAGE_WRITE_PUBDATA_BYTES + r * REPEATED_STORAGE_WRITE_PUBDATA_BYTES
               <= MAX_PUBDATA_PER_BLOCK ->
     i <= LIMIT_FOR_INITIAL_WRITES_PUBDATA_HASHER /\
     r <= LIMIT_FOR_REPEATED_WRITES_PUBDATA_HASHER).
Proof.
  rewrite price_eq. unfold spec_price, MAX_TX_ERGS_LIMIT, LIMIT_FOR_L1_MESSAGES_MERKLIZER,
    INITIAL_STORAGE_WRITE_PUBDATA_BYTES, REPEATED_STORAGE_WRITE_PUBDATA_BYTES,
    MAX_PUBDATA_PER_BLOCK, LIMIT_FOR_INITIAL_WRITES_PUBDATA_HASHER,
    LIMIT_FOR_REPEATED_WRITES_PUBDATA_HASHER.
  split; [intros n; lia|]. split; [|intros i r; lia].
  split; [discriminate|]. intros q'. lia.
Qed.

Example pf_C51_example :
  In (118, 678) metered_circuits /\ 80000 * (236 / 118) <= 236 * 678 /\
  ~ 80000 * (236 / 118) <= 236 * 677.
Proof. split; [cbn; auto|]. split; [discriminate|]. intros H. apply H. reflexivity. Qed.

(** ** The paying machine *)

Definition total (s : vm) : N := fold_right N.add 0 (frames s).

Lemma price_min o : 5 <= Opcode_ergs_price o.
Proof. rewrite price_eq. each_opcode o; discriminate. Qed.

Lemma price_near i : Opcode_ergs_price (Op_NearCall i) = 25.
Proof. destruct i. reflexivity. Qed.
Lemma price_far i : Opcode_ergs_price (Op_FarCall i) = 182.
Proof. destruct i; reflexivity. Qed.

(** Ergs are never created. *)
Lemma step_total s o s' : vm_step s o s' ->
  total s' + match o with
             | Some (Op_NearCall i) => 0
             | Some o => Opcode_ergs_price o
             | None => 0
             end <= total s.
Proof.
  intros H. destruct H; unfold total; cbn [frames fold_right].
  - destruct o; try discriminate H; lia.
  - lia.
  - lia.
  - lia.
  - lia.
  - lia.
  - lia.
Qed.

Lemma run_total s l s' : vm_run s l s' -> total s' <= total s.
Proof.
  intros H. induction H as [|s o s' l s'' S R IH]; [lia|].
  apply step_total in S. lia.
Qed.

Lemma run_price s l s' o : vm_run s l s' -> In (Some o) l -> keeps_frame o = true ->
  Opcode_ergs_price o <= total s.
Proof.
  intros H. induction H as [|s o' s' l s'' S R IH]; intros I K; [destruct I|].
  assert (T := step_total _ _ _ S). destruct I as [->|I].
  - destruct o; try discriminate K; lia.
  - specialize (IH I K). lia.
Qed.

(** ** C52 *)

(** No history paid from a stipend contains a storage write, with any nesting of calls. *)
Lemma pf_C52_stipends :
  forall e l s, e <= 2300 \/ e <= MSG_VALUE_SIMULATOR_ADDITIVE_COST
                                  - MSG_VALUE_SIMULATOR_MIN_USED_ERGS ->
    vm_run (vm_start e) l s -> ~ In (Some (Op_Log LogOpcode_StorageWrite)) l.
Proof.
  intros e l s He R I. apply (run_price _ _ _ _ R) in I; [|reflexivity].
  unfold total, vm_start in I. cbn [frames fold_right] in I.
  assert (P : Opcode_ergs_price (Op_Log LogOpcode_StorageWrite) = 3501) by reflexivity.
  rewrite P in I. unfold MSG_VALUE_SIMULATOR_ADDITIVE_COST, MSG_VALUE_SIMULATOR_MIN_USED_ERGS,
    DECOMMITMENT_MSG_VALUE_SIMULATOR_OVERHEAD in He. lia.
Qed.

(** The price is the least that does this. *)
Lemma pf_C52_least :
  MSG_VALUE_SIMULATOR_MIN_USED_ERGS <= MSG_VALUE_SIMULATOR_ADDITIVE_COST /\
  Opcode_ergs_price (Op_Log LogOpcode_StorageWrite) = MIN_STORAGE_WRITE_COST /\
  (forall p, MIN_STORAGE_WRITE_PRICE_FOR_REENTRANCY_PROTECTION <= p <->
     forall e, e <= 2300 \/ e <= MSG_VALUE_SIMULATOR_ADDITIVE_COST
                                   - MSG_VALUE_SIMULATOR_MIN_USED_ERGS -> e < p) /\
  (forall p, MIN_STORAGE_WRITE_COST <= p <->
     MIN_STORAGE_WRITE_PRICE_FOR_REENTRANCY_PROTECTION <= p /\
     STORAGE_WRITE_HASHER_MIN_COST_IN_ERGS <= p).
Proof.
  split; [discriminate|]. split; [reflexivity|].
  unfold MIN_STORAGE_WRITE_COST, MIN_STORAGE_WRITE_PRICE_FOR_REENTRANCY_PROTECTION, max_u32,
    MSG_VALUE_SIMULATOR_ADDITIVE_COST, MSG_VALUE_SIMULATOR_MIN_USED_ERGS,
    DECOMMITMENT_MSG_VALUE_SIMULATOR_OVERHEAD, STORAGE_WRITE_HASHER_MIN_COST_IN_ERGS.
  change (11500 + 64000 - (8000 + 64000)) with 3500.
  cbn [N.add N.ltb N.compare Pos.compare Pos.compare_cont Pos.add Pos.succ].
  split.
  - intros p. split; [intros H e [A|A]; lia|]. intros H. specialize (H 3500 (or_intror (N.le_refl _))).
    lia.
  - intros p. lia.
Qed.

Example pf_C52_example :
  vm_run (vm_start 3501) [Some (Op_Log LogOpcode_StorageWrite)] (mkVm [0] 1 0 0) /\
  vm_run (vm_start 3500) [Some (Op_Log LogOpcode_StorageRead); Some (Op_FarCall FarCallOpcode_Normal)]
    (mkVm [3000; 160] 2 1 0).
Proof.
  split.
  - apply run_cons with (mkVm [0] 1 0 0); [|apply run_nil].
    apply (step_plain (Op_Log LogOpcode_StorageWrite) 3501 0 [] 0 0 0); [reflexivity|discriminate].
  - apply run_cons with (mkVm [3342] 1 0 0).
    + apply (step_plain (Op_Log LogOpcode_StorageRead) 3500 3342 [] 0 0 0); [reflexivity|discriminate].
    + apply run_cons with (mkVm [3000; 160] 2 1 0); [|apply run_nil].
      apply (step_far FarCallOpcode_Normal 3342 160 3000 [] 1 0 0). discriminate.
Qed.

(** ** C53 *)

Lemma step_depth s o s' : vm_step s o s' ->
  total s' + 25 * len (frames s') + 25 * unpaid s <= total s + 25 * len (frames s) + 25 * unpaid s'.
Proof.
  intros H. destruct H; unfold total, len; cbn [frames fold_right List.length unpaid];
    try rewrite price_near in *; try rewrite price_far in *;
    try assert (P := price_min (Op_Ret i)); lia.
Qed.

Lemma run_depth s l s' : vm_run s l s' ->
  total s' + 25 * len (frames s') + 25 * unpaid s <= total s + 25 * len (frames s) + 25 * unpaid s'.
Proof.
  intros H. induction H as [|s o s' l s'' S R IH]; [lia|].
  apply step_depth in S. lia.
Qed.

(** The callstack never outgrows its limit, with up to eighty unpaid internal calls; the
    limit fits a [u32]. *)
Lemma pf_C53_depth :
  (forall e l s, e <= VM_INITIAL_FRAME_ERGS -> vm_run (vm_start e) l s -> unpaid s <= 80 ->
     len (frames s) <= VM_MAX_STACK_DEPTH) /\
  VM_MAX_STACK_DEPTH < 2 ^ 32.
Proof.
  split; [|reflexivity]. intros e l s He R U. apply run_depth in R.
  unfold vm_start, total at 2, len at 2 in R. cbn [frames fold_right unpaid List.length] in R.
  change VM_MAX_STACK_DEPTH with 214748444. unfold VM_INITIAL_FRAME_ERGS in He. lia.
Qed.

Lemma run_app s l s' l' s'' : vm_run s l s' -> vm_run s' l' s'' -> vm_run s (l ++ l') s''.
Proof.
  intros R. induction R as [|s o s1 l s2 S R IH]; intros R'; [exact R'|].
  cbn [app]. eapply run_cons; [exact S|apply IH, R'].
Qed.

(** [n] calls, each passing everything on. *)
Lemma paid_chain n : forall f r c k u,
  exists l s, vm_run (mkVm ((f + 25 * N.of_nat n) :: r) c k u) l s /\
    unpaid s = u /\ len (frames s) = 1 + N.of_nat n + len r /\ exists r', frames s = f :: r'.
Proof.
  induction n as [|n IH]; intros f r c k u.
  - exists [], (mkVm ((f + 25 * N.of_nat 0) :: r) c k u). split; [apply run_nil|].
    split; [reflexivity|]. split; [unfold len; cbn [frames List.length]; lia|].
    exists r. cbn [frames]. f_equal. lia.
  - destruct (IH f (0 :: r) (c + 1) k u) as (l & s & R & U & L & r' & F).
    exists (Some (Op_NearCall nearCallOpcode) :: l), s. split; [|split; [exact U|split]].
    + eapply run_cons; [|exact R]. apply step_near. rewrite price_near. lia.
    + rewrite L. unfold len. cbn [List.length]. lia.
    + exists r'. exact F.
Qed.

Lemma unpaid_chain n : forall f r c k u,
  exists l s, vm_run (mkVm (f :: r) c k u) l s /\
    unpaid s = u + N.of_nat n /\ len (frames s) = 1 + N.of_nat n + len r.
Proof.
  induction n as [|n IH]; intros f r c k u.
  - exists [], (mkVm (f :: r) c k u). split; [apply run_nil|].
    unfold len; cbn [frames unpaid List.length]. lia.
  - destruct (IH f (0 :: r) (c + 1) k (u + 1)) as (l & s & R & U & L).
    exists (Some (Op_NearCall nearCallOpcode) :: l), s. split; [|split].
    + eapply run_cons; [|exact R]. apply step_unpaid. lia.
    + rewrite U. lia.
    + rewrite L. unfold len. cbn [List.length]. lia.
Qed.

(** The deepest callstack that [e] ergs and [u] unpaid calls can reach, and that it is
    reached; the exported limit leaves room above it. *)
Lemma pf_C53_exact :
  (forall e u, let deepest := 1 + e / Opcode_ergs_price (Op_NearCall nearCallOpcode) + u in
     (forall l s, vm_run (vm_start e) l s -> unpaid s <= u -> len (frames s) <= deepest) /\
     (exists l s, vm_run (vm_start e) l s /\ unpaid s = u /\ len (frames s) = deepest)) /\
  1 + VM_INITIAL_FRAME_ERGS / Opcode_ergs_price (Op_NearCall nearCallOpcode) + 80
    < VM_MAX_STACK_DEPTH.
Proof.
  split; [|reflexivity]. intros e u. rewrite price_near. cbv zeta. split.
  - intros l s R U. apply run_depth in R.
    unfold vm_start, total at 2, len at 2 in R. cbn [frames fold_right unpaid List.length] in R.
    assert (B : len (frames s) <= (e + 25 * (1 + u)) / 25) by (apply N.div_le_lower_bound; lia).
    replace (e + 25 * (1 + u)) with (e + (1 + u) * 25) in B by lia.
    rewrite N.div_add in B by discriminate. lia.
  - assert (E := N.div_mod e 25 ltac:(discriminate)).
    destruct (paid_chain (N.to_nat (e / 25)) (e mod 25) [] 0 0 0) as (l & s & R & U & L & r & F).
    replace (e mod 25 + 25 * N.of_nat (N.to_nat (e / 25))) with e in R by lia.
    destruct s as [fr c k u0]. cbn [frames unpaid] in U, L, F. subst fr u0.
    destruct (unpaid_chain (N.to_nat u) (e mod 25) r c k 0) as (l' & s' & R' & U' & L').
    exists (l ++ l'), s'. split; [eapply run_app; [exact R|exact R']|].
    unfold len in *. cbn [List.length] in *. lia.
Qed.

(** Frames of callers cannot be touched: whatever runs above a frame, the ergs below it are
    only changed by returning into it. *)
Lemma pf_C53_callers :
  forall f r c k u o s', vm_step (mkVm (f :: r) c k u) o s' ->
    (exists f', frames s' = f' :: r) \/ (exists p f', frames s' = p :: f' :: r /\ p + f' <= f) \/
    (exists g r' g', r = g :: r' /\ frames s' = g' :: r' /\ g' <= g + f) \/ frames s' = r.
Proof.
  intros f r c k u o s' H. inversion H; subst; cbn [frames].
  - left. eauto.
  - right; left. do 2 eexists. split; [reflexivity|lia].
  - right; left. do 2 eexists. split; [reflexivity|lia].
  - right; right; left. do 3 eexists. split; [reflexivity|]. split; [reflexivity|lia].
  - right; right; right. reflexivity.
  - right; right; right. reflexivity.
  - right; left. do 2 eexists. split; [reflexivity|lia].
Qed.

Example pf_C53_example :
  vm_run (vm_start VM_INITIAL_FRAME_ERGS)
    [Some (Op_NearCall nearCallOpcode); Some (Op_NearCall nearCallOpcode); None]
    (mkVm [0; 100] 3 0 0) /\ VM_MAX_STACK_DEPTH = 214748444.
Proof.
  split; [|reflexivity]. apply run_cons with (mkVm [1000; 100] 1 0 0).
  - apply (step_near nearCallOpcode VM_INITIAL_FRAME_ERGS 100 1000 [] 0 0 0). discriminate.
  - apply run_cons with (mkVm [900; 0; 100] 2 0 0).
    + apply (step_near nearCallOpcode 1000 0 900 [100] 1 0 0). discriminate.
    + apply run_cons with (mkVm [0; 100] 3 0 0); [|apply run_nil]. apply step_panic.
Qed.

(** ** C54 *)

Lemma step_far_calls s o s' : vm_step s o s' ->
  total s' + 182 * far_calls s' <= total s + 182 * far_calls s.
Proof.
  intros H. destruct H; unfold total; cbn [frames fold_right far_calls];
    try rewrite price_far in *; try assert (P := price_min (Op_Ret i)); lia.
Qed.

Lemma run_far_calls s l s' : vm_run s l s' ->
  total s' + 182 * far_calls s' <= total s + 182 * far_calls s.
Proof.
  intros H. induction H as [|s o s' l s'' S R IH]; [lia|]. apply step_far_calls in S. lia.
Qed.

Lemma step_cycles s o s' : vm_step s o s' ->
  total s' + 5 * cycles s' + 5 * len (frames s') + 10 * unpaid s
  <= total s + 5 * cycles s + 5 * len (frames s) + 10 * unpaid s'.
Proof.
  intros H. destruct H; unfold total, len; cbn [frames fold_right cycles unpaid List.length];
    try rewrite price_far in *; try rewrite price_near in *;
    try assert (P := price_min (Op_Ret i)); try assert (P := price_min o); lia.
Qed.

Lemma run_cycles s l s' : vm_run s l s' ->
  total s' + 5 * cycles s' + 5 * len (frames s') + 10 * unpaid s
  <= total s + 5 * cycles s + 5 * len (frames s) + 10 * unpaid s'.
Proof.
  intros H. induction H as [|s o s' l s'' S R IH]; [lia|]. apply step_cycles in S. lia.
Qed.

(** Page groups of distinct far calls are disjoint, apart from the reserved pages, and fit
    [u32]. *)
Lemma pf_C54_pages :
  forall e l s, e <= VM_INITIAL_FRAME_ERGS -> vm_run (vm_start e) l s ->
    forall k p, k < far_calls s -> In p (page_group (base_page k)) ->
      p < 2 ^ 32 /\ p <> UNMAPPED_PAGE /\ ~ In p bootloader_pages /\
      forall k', k' < far_calls s -> k' <> k -> ~ In p (page_group (base_page k')).
Proof.
  intros e l s He R k p Hk Hp. apply run_far_calls in R.
  unfold vm_start, total at 2 in R. cbn [frames fold_right far_calls] in R.
  unfold VM_INITIAL_FRAME_ERGS in He.
  unfold page_group, base_page, STARTING_BASE_PAGE, NEW_MEMORY_PAGES_PER_FAR_CALL in *.
  cbn [In] in Hp.
  split; [lia|]. split; [unfold UNMAPPED_PAGE; lia|]. split.
  - unfold bootloader_pages, BOOTLOADER_CALLDATA_PAGE, BOOTLOADER_CODE_PAGE, BOOTLOADER_STACK_PAGE,
      BOOTLOADER_HEAP_PAGE, BOOTLOADER_AUX_HEAP_PAGE, BOOTLOADER_BASE_PAGE. cbn [In]. lia.
  - intros k' _ Hne. cbn [In]. lia.
Qed.

(** The bootloader's own pages are distinct, mapped and laid out like any other group, after
    one calldata page.  The unmapped page is the one the empty pointer names. *)
Lemma pf_C54_bootloader :
  NoDup (UNMAPPED_PAGE :: bootloader_pages) /\
  bootloader_pages = (BOOTLOADER_BASE_PAGE - 1) :: page_group BOOTLOADER_BASE_PAGE /\
  fp_memory_page FatPointer_empty = UNMAPPED_PAGE.
Proof.
  split; [|split; reflexivity].
  repeat (constructor; [intros H; cbn in H;
    repeat (destruct H as [H|H]; [discriminate H|]); destruct H|]). constructor.
Qed.

(** Page groups are aligned: the last three bits of a page number tell which page of its group
    it is, the rest which group, for the bootloader and every far call alike. *)
Lemma pf_C54_alignment :
  forall b, b = BOOTLOADER_BASE_PAGE \/ (exists k, b = base_page k) ->
  forall i p, nth_error (page_group b) i = Some p ->
    p mod NEW_MEMORY_PAGES_PER_FAR_CALL = N.of_nat i /\
    p / NEW_MEMORY_PAGES_PER_FAR_CALL = b / NEW_MEMORY_PAGES_PER_FAR_CALL.
Proof.
  intros b Hb.
  assert (A : exists q, b = 8 * q).
  { destruct Hb as [->|[k ->]]; [exists 1; reflexivity|]. exists (256 + k).
    unfold base_page, STARTING_BASE_PAGE, NEW_MEMORY_PAGES_PER_FAR_CALL. lia. }
  destruct A as [q ->]. clear Hb. change NEW_MEMORY_PAGES_PER_FAR_CALL with 8.
  assert (B : forall j, j < 8 -> (8 * q + j) mod 8 = j /\ (8 * q + j) / 8 = q).
  { intros j Hj. rewrite N.mul_comm, N.add_comm. split.
    - rewrite N.mod_add by lia. apply N.mod_small, Hj.
    - rewrite N.div_add, N.div_small by lia. reflexivity. }
  rewrite (N.mul_comm 8 q), N.div_mul by lia. rewrite (N.mul_comm q 8).
  assert (J : forall x y : N, Some x = Some y -> y = x) by congruence.
  intros [|[|[|[|[|i]]]]] p H; try discriminate H; apply J in H; subst p;
    [assert (K := B 0 eq_refl); rewrite N.add_0_r in K; exact K|..]; apply B; reflexivity.
Qed.

(** Timestamps: all the instants of a cycle precede those of the next, and fit [u32]. *)
Lemma pf_C54_timestamps :
  forall e l s, e <= VM_INITIAL_FRAME_ERGS -> vm_run (vm_start e) l s -> unpaid s <= 80 ->
    timestamp (cycles s) + 3 < 2 ^ 32 /\
    (forall c c', c < c' -> timestamp c + 3 < timestamp c') /\
    cycles s = N.of_nat (List.length l).
Proof.
  intros e l s He R U.
  assert (L : forall s l s', vm_run s l s' -> cycles s' = cycles s + N.of_nat (List.length l)).
  { clear. intros s l s' H. induction H as [|s o s' l s'' S R IH]; cbn [List.length]; [lia|].
    rewrite IH. destruct S; cbn [cycles]; lia. }
  assert (C := L _ _ _ R). cbn [vm_start cycles] in C.
  apply run_cycles in R. unfold vm_start, total at 2, len at 2 in R.
  cbn [frames fold_right cycles unpaid List.length] in R. unfold VM_INITIAL_FRAME_ERGS in He.
  unfold timestamp, STARTING_TIMESTAMP, TIME_DELTA_PER_CYCLE.
  split; [lia|]. split; [intros; lia|]. lia.
Qed.

Lemma far_chain (i : FarCallOpcode) n : forall f r c k u,
  exists l s, vm_run (mkVm ((f + 182 * N.of_nat n) :: r) c k u) l s /\
    far_calls s = k + N.of_nat n.
Proof.
  induction n as [|n IH]; intros f r c k u.
  - exists [], (mkVm ((f + 182 * N.of_nat 0) :: r) c k u). split; [apply run_nil|].
    cbn [far_calls]. lia.
  - destruct (IH f (0 :: r) (c + 1) (k + 1) u) as (l & s & R & K).
    exists (Some (Op_FarCall i) :: l), s. split; [|rewrite K; lia].
    eapply run_cons; [|exact R]. apply step_far. rewrite price_far. lia.
Qed.

Lemma plain_chain n : forall f r c k u,
  exists l, vm_run (mkVm ((f + 5 * N.of_nat n) :: r) c k u) l
                   (mkVm (f :: r) (c + N.of_nat n) k u).
Proof.
  induction n as [|n IH]; intros f r c k u.
  - exists []. replace (f + 5 * N.of_nat 0) with f by lia. replace (c + N.of_nat 0) with c by lia.
    apply run_nil.
  - destruct (IH f r (c + 1) k u) as (l & R). exists (Some (Op_Context ContextOpcode_This) :: l).
    eapply run_cons; [|replace (c + N.of_nat (S n)) with (c + 1 + N.of_nat n) by lia; exact R].
    apply step_plain; [reflexivity|]. change (Opcode_ergs_price (Op_Context ContextOpcode_This)) with 5. lia.
Qed.

Lemma call_chain n : forall f r c k u,
  exists l r', vm_run (mkVm (f :: r) c k u) l (mkVm r' (c + N.of_nat n) k (u + N.of_nat n)) /\
    List.length r' = (S (List.length r) + n)%nat.
Proof.
  induction n as [|n IH]; intros f r c k u.
  - exists [], (f :: r). replace (c + N.of_nat 0) with c by lia.
    replace (u + N.of_nat 0) with u by lia. split; [apply run_nil|cbn [List.length]; lia].
  - destruct (IH f (0 :: r) (c + 1) k (u + 1)) as (l & r' & R & L).
    exists (Some (Op_NearCall nearCallOpcode) :: l), r'. split.
    + eapply run_cons; [|replace (c + N.of_nat (S n)) with (c + 1 + N.of_nat n) by lia;
                        replace (u + N.of_nat (S n)) with (u + 1 + N.of_nat n) by lia; exact R].
      apply step_unpaid. lia.
    + cbn [List.length] in L. lia.
Qed.

Lemma panic_chain r : forall c k u,
  exists l, vm_run (mkVm r c k u) l (mkVm [] (c + len r) k u).
Proof.
  induction r as [|f r IH]; intros c k u.
  - exists []. unfold len. cbn [List.length]. replace (c + N.of_nat 0) with c by lia. apply run_nil.
  - destruct (IH (c + 1) k u) as (l & R). exists (None :: l).
    eapply run_cons; [apply step_panic|].
    replace (c + len (f :: r)) with (c + 1 + len r) by (unfold len; cbn [List.length]; lia).
    exact R.
Qed.

(** The most far calls and the most cycles that [e] ergs (and [u] unpaid calls) allow, and
    that both are reached. *)
Lemma pf_C54_exact :
  (forall e i, let most := e / Opcode_ergs_price (Op_FarCall i) in
     (forall l s, vm_run (vm_start e) l s -> far_calls s <= most) /\
     (exists l s, vm_run (vm_start e) l s /\ far_calls s = most)) /\
  (forall e u, let most := e / Opcode_ergs_price (Op_Context ContextOpcode_This) + 1 + 2 * u in
     (forall l s, vm_run (vm_start e) l s -> unpaid s <= u -> cycles s <= most) /\
     (exists l s, vm_run (vm_start e) l s /\ unpaid s = u /\ cycles s = most)).
Proof.
  split.
  - intros e i. rewrite price_far. cbv zeta. split.
    + intros l s R. apply run_far_calls in R. unfold vm_start, total at 2 in R.
      cbn [frames fold_right far_calls] in R. apply N.div_le_lower_bound; lia.
    + assert (E := N.div_mod e 182 ltac:(discriminate)).
      destruct (far_chain i (N.to_nat (e / 182)) (e mod 182) [] 0 0 0) as (l & s & R & K).
      replace (e mod 182 + 182 * N.of_nat (N.to_nat (e / 182))) with e in R by lia.
      exists l, s. split; [exact R|lia].
  - intros e u. change (Opcode_ergs_price (Op_Context ContextOpcode_This)) with 5. cbv zeta. split.
    + intros l s R U. apply run_cycles in R. unfold vm_start, total at 2, len at 2 in R.
      cbn [frames fold_right cycles unpaid List.length] in R.
      assert (B : cycles s <= (e + 5 * (1 + 2 * u)) / 5) by (apply N.div_le_lower_bound; lia).
      replace (e + 5 * (1 + 2 * u)) with (e + (1 + 2 * u) * 5) in B by lia.
      rewrite N.div_add in B by discriminate. lia.
    + assert (E := N.div_mod e 5 ltac:(discriminate)).
      destruct (plain_chain (N.to_nat (e / 5)) (e mod 5) [] 0 0 0) as (l1 & R1).
      replace (e mod 5 + 5 * N.of_nat (N.to_nat (e / 5))) with e in R1 by lia.
      destruct (call_chain (N.to_nat u) (e mod 5) [] (0 + N.of_nat (N.to_nat (e / 5))) 0 0)
        as (l2 & r & R2 & L).
      destruct (panic_chain r (0 + N.of_nat (N.to_nat (e / 5)) + N.of_nat (N.to_nat u)) 0
                  (0 + N.of_nat (N.to_nat u))) as (l3 & R3).
      eexists _, _. split; [eapply run_app; [exact R1|]; eapply run_app; [exact R2|exact R3]|].
      cbn [unpaid cycles List.length] in *. unfold len. lia.
Qed.

Example pf_C54_example :
  page_group (base_page 1) = [2056; 2057; 2058; 2059] /\ timestamp 2 = 1032 /\
  vm_run (vm_start 400) [Some (Op_FarCall FarCallOpcode_Delegate); Some (Op_Ret RetOpcode_Ok)]
    (mkVm [207] 2 1 0).
Proof.
  split; [reflexivity|]. split; [reflexivity|].
  apply run_cons with (mkVm [100; 112] 1 1 0).
  - apply (step_far FarCallOpcode_Delegate 400 112 100 [] 0 0 0). discriminate.
  - apply run_cons with (mkVm [207] 2 1 0); [|apply run_nil].
    apply (step_ret RetOpcode_Ok 100 112 207 [] 1 1 0); discriminate.
Qed.

(** ** C55 *)

Lemma be_inj n x y : to_be_bytes n x = to_be_bytes n y ->
  x mod 256 ^ N.of_nat n = y mod 256 ^ N.of_nat n.
Proof.
  intros E. rewrite <- !value_to_le. f_equal.
  unfold to_be_bytes in E. rewrite <- (rev_involutive (to_le_bytes n x)), E, rev_involutive.
  reflexivity.
Qed.

(** Embedding a [u64] as an address. *)
Lemma pf_C55_embedding :
  (forall x, x < 2 ^ 64 -> address_of x (Address_from_low_u64_be x) /\
     firstn 12 (Address_from_low_u64_be x) = repeat 0 12) /\
  (forall x y, x < 2 ^ 64 -> y < 2 ^ 64 ->
     Address_from_low_u64_be x = Address_from_low_u64_be y -> x = y).
Proof.
  assert (V : forall x, x < 2 ^ 64 ->
    fold_left (fun acc b => acc * 256 + b) (Address_from_low_u64_be x) 0 = x).
  { intros x Hx. unfold Address_from_low_u64_be. rewrite fold_left_app.
    replace (fold_left (fun acc b => acc * 256 + b) (repeat 0 12) 0) with 0 by reflexivity.
    rewrite value_be. unfold to_be_bytes. rewrite rev_involutive, value_to_le.
    apply N.mod_small. exact Hx. }
  split.
  - intros x Hx. split; [|reflexivity]. split; [|split; [|apply V, Hx]].
    + unfold Address_from_low_u64_be, to_be_bytes.
      rewrite app_length, repeat_length, rev_length, length_to_le. reflexivity.
    + unfold Address_from_low_u64_be, to_be_bytes. apply Forall_app. split.
      * repeat constructor.
      * apply Forall_rev, bytes_to_le.
  - intros x y Hx Hy E. rewrite <- (V x Hx), <- (V y Hy), E. reflexivity.
Qed.

(** The system contract constants are distinct and below the unrestricted space. *)
Lemma pf_C55_distinct :
  NoDup system_addresses /\ Forall (fun a => 0 < a /\ a < ADDRESS_UNRESTRICTED_SPACE) system_addresses /\
  ADDRESS_UNRESTRICTED_SPACE = 2 ^ 16.
Proof.
  split; [|split; [|reflexivity]].
  - repeat (constructor; [intros H; cbn in H;
      repeat (destruct H as [H|H]; [discriminate H|]); destruct H|]). constructor.
  - repeat (constructor; [split; reflexivity|]). constructor.
Qed.

(** The precompiles Ethereum has keep their Ethereum numbers; the system contracts are
    numbered without gaps from the start of kernel space, Keccak apart. *)
Lemma pf_C55_ranges :
  (forall k a, nth_error system_addresses k = Some a ->
     a = if (k <? 4)%nat then N.of_nat k + 1
         else if (k <? 17)%nat then 2 ^ 15 + N.of_nat k - 3
         else 2 ^ 15 + 16) /\
  List.length system_addresses = 18%nat /\
  (forall a, In a system_addresses -> (a <= 2 ^ 15 <-> a <= 9)).
Proof.
  split; [|split; [reflexivity|]].
  - intros k a H.
    do 18 (destruct k as [|k]; [injection H as <-; reflexivity|]).
    destruct k; discriminate H.
  - intros a H. cbn [In system_addresses] in H.
    repeat (destruct H as [<-|H]; [split; intros C; vm_compute in C |- *; congruence|]).
    destruct H.
Qed.

(** The exported formal addresses. *)
Lemma pf_C55_formal :
  address_of ADDRESS_BOOTLOADER BOOTLOADER_FORMAL_ADDRESS /\
  address_of ADDRESS_NONCE_HOLDER NONCE_MANAGER_SYSTEM_CONTRACT_ADDRESS /\
  address_of ADDRESS_KNOWN_CODES_STORAGE KNOWN_CODE_FACTORY_SYSTEM_CONTRACT_ADDRESS /\
  address_of ADDRESS_KECCAK256 KECCAK256_ROUND_FUNCTION_PRECOMPILE_FORMAL_ADDRESS /\
  address_of ADDRESS_SHA256 SHA256_ROUND_FUNCTION_PRECOMPILE_FORMAL_ADDRESS /\
  address_of ADDRESS_ECRECOVER ECRECOVER_INNER_FUNCTION_PRECOMPILE_FORMAL_ADDRESS /\
  address_of ADDRESS_ACCOUNT_CODE_STORAGE DEPLOYER_SYSTEM_CONTRACT_ADDRESS /\
  KECCAK256_ROUND_FUNCTION_PRECOMPILE_ADDRESS = ADDRESS_KECCAK256 /\
  SHA256_ROUND_FUNCTION_PRECOMPILE_ADDRESS = ADDRESS_SHA256 /\
  ECRECOVER_INNER_FUNCTION_PRECOMPILE_ADDRESS = ADDRESS_ECRECOVER /\
  BOOTLOADER_FORMAL_ADDRESS_LOW = ADDRESS_BOOTLOADER.
Proof.
  assert (G : forall x, x <? 2 ^ 64 = true -> address_of x (Address_from_low_u64_be x)).
  { intros x Hx. apply (proj1 pf_C55_embedding). lia. }
  repeat match goal with |- _ /\ _ => split end;
    try (apply G; reflexivity); reflexivity.
Qed.

(** Expected: the deployer's address is the contract deployer's.  False: it is that of the
    account code storage. *)
Lemma pf_C55_refuted :
  ~ address_of ADDRESS_CONTRACT_DEPLOYER DEPLOYER_SYSTEM_CONTRACT_ADDRESS /\
  DEPLOYER_SYSTEM_CONTRACT_ADDRESS_LOW = ADDRESS_ACCOUNT_CODE_STORAGE /\
  DEPLOYER_SYSTEM_CONTRACT_ADDRESS_LOW <> ADDRESS_CONTRACT_DEPLOYER.
Proof.
  split; [|split; [reflexivity|discriminate]].
  intros (_ & _ & H). vm_compute in H. discriminate.
Qed.

Example pf_C55_example :
  Address_from_low_u64_be 0x8001
  = [0; 0; 0; 0; 0; 0; 0; 0; 0; 0; 0; 0; 0; 0; 0; 0; 0; 0; 128; 1].
Proof. reflexivity. Qed.

(** ** C56 *)

(** The largest offset at which a word can be read or written. *)
Lemma pf_C56_deref :
  (forall x, x < 2 ^ 32 -> (x <= MAX_OFFSET_TO_DEREF_LOW_U32 <-> x + 32 <= 2 ^ 32 - 1)) /\
  u256_value MAX_OFFSET_TO_DEREF = 2 ^ 32 - 33 /\ u256_ok MAX_OFFSET_TO_DEREF /\
  u256_value MAX_OFFSET_FOR_ADD_SUB = 2 ^ 32 /\ u256_ok MAX_OFFSET_FOR_ADD_SUB /\
  (forall v, u256_ok v -> (u256_value v < u256_value MAX_OFFSET_FOR_ADD_SUB <->
     limb0 v < 2 ^ 32 /\ limb1 v = 0 /\ limb2 v = 0 /\ limb3 v = 0)).
Proof.
  split; [intros x Hx; change MAX_OFFSET_TO_DEREF_LOW_U32 with 4294967263; lia|].
  split; [reflexivity|]. split; [repeat split|]. split; [reflexivity|]. split; [repeat split|].
  intros v (H0 & H1 & H2 & H3). change (u256_value MAX_OFFSET_FOR_ADD_SUB) with (2 ^ 32).
  unfold u256_value. lia.
Qed.

Example pf_C56_example :
  MAX_OFFSET_TO_DEREF_LOW_U32 = 4294967263 /\ 4294967263 + 32 = 2 ^ 32 - 1.
Proof. split; reflexivity. Qed.

(** ** C61 *)

(** At a far call every register has exactly one role. *)
Lemma pf_C61_call_registers :
  forall r, r < REGISTERS_COUNT ->
    (if r =? CALL_IMPLICIT_CALLDATA_FAT_PTR_REGISTER then 1 else 0) +
    (if r =? CALL_IMPLICIT_CONSTRUCTOR_MARKER_REGISTER then 1 else 0) +
    (if (fst CALL_SYSTEM_ABI_REGISTERS <=? r) && (r <? snd CALL_SYSTEM_ABI_REGISTERS)
     then 1 else 0) +
    (if (fst CALL_RESERVED_RANGE <=? r) && (r <? snd CALL_RESERVED_RANGE) then 1 else 0) +
    (if r =? CALL_IMPLICIT_PARAMETER_REG_IDX then 1 else 0) = 1.
Proof.
  intros r Hr. unfold REGISTERS_COUNT in Hr.
  cbn [fst snd CALL_SYSTEM_ABI_REGISTERS CALL_RESERVED_RANGE].
  unfold CALL_IMPLICIT_CALLDATA_FAT_PTR_REGISTER, CALL_IMPLICIT_CONSTRUCTOR_MARKER_REGISTER,
    CALL_IMPLICIT_PARAMETER_REG_IDX.
  destruct (r =? 0) eqn:E0, (r =? 1) eqn:E1, (2 <=? r) eqn:E2, (r <? 12) eqn:E3,
    (12 <=? r) eqn:E4, (r <? 14) eqn:E5, (r =? 14) eqn:E6; cbn [andb N.add Pos.add]; lia.
Qed.

(** A return writes the first four registers, the data pointer where a call has it. *)
Lemma pf_C61_distinct :
  NoDup [RET_IMPLICIT_RETURNDATA_PARAMS_REGISTER; RET_RESERVED_REGISTER_0;
         RET_RESERVED_REGISTER_1; RET_RESERVED_REGISTER_2] /\
  (forall r, In r [RET_IMPLICIT_RETURNDATA_PARAMS_REGISTER; RET_RESERVED_REGISTER_0;
                   RET_RESERVED_REGISTER_1; RET_RESERVED_REGISTER_2] <-> r < 4) /\
  RET_RESERVED_REGISTER_0 < RET_RESERVED_REGISTER_1 < RET_RESERVED_REGISTER_2 /\
  4 <= REGISTERS_COUNT /\
  RET_IMPLICIT_RETURNDATA_PARAMS_REGISTER = CALL_IMPLICIT_CALLDATA_FAT_PTR_REGISTER.
Proof.
  split; [|split; [|split; [split; reflexivity|split; [discriminate|reflexivity]]]].
  - repeat (constructor; [intros H; cbn in H;
      repeat (destruct H as [H|H]; [discriminate H|]); destruct H|]). constructor.
  - intros r. unfold RET_IMPLICIT_RETURNDATA_PARAMS_REGISTER, RET_RESERVED_REGISTER_0,
      RET_RESERVED_REGISTER_1, RET_RESERVED_REGISTER_2. cbn [In]. lia.
Qed.

(** The query kinds of the log queue are numbered 0 to 3 in the order storage, event,
    L1 message, precompile. *)
Lemma pf_C61_kinds :
  (forall b, In b [STORAGE_AUX_BYTE; EVENT_AUX_BYTE; L1_MESSAGE_AUX_BYTE; PRECOMPILE_AUX_BYTE]
             <-> b < 4) /\
  STORAGE_AUX_BYTE < EVENT_AUX_BYTE /\ EVENT_AUX_BYTE < L1_MESSAGE_AUX_BYTE /\
  L1_MESSAGE_AUX_BYTE < PRECOMPILE_AUX_BYTE.
Proof.
  split; [|repeat split].
  intros b. unfold STORAGE_AUX_BYTE, EVENT_AUX_BYTE, L1_MESSAGE_AUX_BYTE, PRECOMPILE_AUX_BYTE.
  cbn [In]. lia.
Qed.

Example pf_C61_example : CALL_SYSTEM_ABI_REGISTERS = (2, 12) /\ 13 < REGISTERS_COUNT.
Proof. split; reflexivity. Qed.
