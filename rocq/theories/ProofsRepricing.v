(** * Proofs about opcode prices for arbitrary price constants (C83). *)

From Coq Require Import Arith NArith Lia ZArith List Bool String.
From Verif Require Import Machine Constants Operands OpcodeTrait Opcodes AllOpcodes Tables PricingGen
  Repricing SpecIsa SpecFamilies SpecCodec SpecPricing SpecGenerator SpecLayout SpecRepricing.
From Coq Require Import ZifyBool ZifyNat ZifyN.
From Verif Require Import BitLemmas TableProofs TableProofs2 TableProofs3 CodecProofs2 ProofsOverflow
  ProofsPricing ProofsGenerator.
Import ListNotations.
Open Scope N_scope.

(** ** Sums on a [u32] *)

(** The number [n] computed on a [u32]. *)
Definition on_u32 (bld : build) (n : N) : res N :=
  if n <? 2 ^ 32 then Ok n
  else match bld with Debug => Panic | Release => Ok (n mod 2 ^ 32) end.

Lemma on_fits bld n : n < 2 ^ 32 -> on_u32 bld n = Ok n.
Proof. intros H. unfold on_u32. destruct (N.ltb_spec n (2 ^ 32)); [reflexivity|lia]. Qed.

Lemma on_over n : 2 ^ 32 <= n -> on_u32 Debug n = Panic.
Proof. intros H. unfold on_u32. destruct (N.ltb_spec n (2 ^ 32)); [lia|reflexivity]. Qed.

Lemma on_release n : on_u32 Release n = Ok (n mod 2 ^ 32).
Proof.
  unfold on_u32. destruct (N.ltb_spec n (2 ^ 32)); [|reflexivity].
  rewrite N.mod_small by assumption. reflexivity.
Qed.

Lemma plus_on bld a b : plus_u32 bld (on_u32 bld a) (on_u32 bld b) = on_u32 bld (a + b).
Proof.
  unfold plus_u32. destruct bld.
  - destruct (N.lt_ge_cases a (2 ^ 32)) as [A|A]; [rewrite (on_fits _ a A), bind_Ok|].
    + destruct (N.lt_ge_cases b (2 ^ 32)) as [B|B]; [rewrite (on_fits _ b B), bind_Ok|].
      * reflexivity.
      * rewrite (on_over b B). symmetry. apply on_over. lia.
    + rewrite (on_over a A). symmetry. apply on_over. lia.
  - rewrite !on_release, !bind_Ok, add_release, <- N.add_mod by discriminate. reflexivity.
Qed.

Lemma times_on bld k a : times_u32 bld k (on_u32 bld a) = on_u32 bld (k * a) \/ k = 0.
Proof.
  destruct (N.eq_dec k 0) as [->|K]; [right; reflexivity|left].
  unfold times_u32. destruct bld.
  - destruct (N.lt_ge_cases a (2 ^ 32)) as [A|A]; [rewrite (on_fits _ a A), bind_Ok|].
    + reflexivity.
    + rewrite (on_over a A). symmetry. apply on_over.
      assert (1 * a <= k * a) by (apply N.mul_le_mono_r; lia). lia.
  - rewrite !on_release, !bind_Ok, mul_release, N.mul_mod_idemp_r by discriminate. reflexivity.
Qed.

Lemma times_2 bld a : times_u32 bld 2 (on_u32 bld a) = on_u32 bld (2 * a).
Proof. destruct (times_on bld 2 a); [assumption|discriminate]. Qed.
Lemma times_3 bld a : times_u32 bld 3 (on_u32 bld a) = on_u32 bld (3 * a).
Proof. destruct (times_on bld 3 a); [assumption|discriminate]. Qed.
Lemma times_5 bld a : times_u32 bld 5 (on_u32 bld a) = on_u32 bld (5 * a).
Proof. destruct (times_on bld 5 a); [assumption|discriminate]. Qed.

(** ** Every price *)

Lemma max_u32_eq a b : max_u32 a b = N.max a b.
Proof. unfold max_u32. destruct (N.ltb_spec b a); lia. Qed.

Lemma write_floor_eq P : compiles P ->
  MIN_STORAGE_WRITE_COST_at P
  = Ok (floor_price P (Op_Log LogOpcode_StorageWrite)).
Proof.
  intros (_ & L & F & _). unfold MIN_STORAGE_WRITE_COST_at,
    MIN_STORAGE_WRITE_PRICE_FOR_REENTRANCY_PROTECTION_at, sub_w.
  destruct (N.leb_spec (simulator_min_used P) (simulator_additive P)); [|lia].
  rewrite bind_Ok, add_fits, bind_Ok by assumption.
  change (add_w Debug 32 2300 1) with (Ok 2301 : res N). rewrite !bind_Ok, !max_u32_eq.
  unfold floor_price. f_equal. lia.
Qed.

Lemma average_eq P bld : compiles P ->
  AVERAGE_OPCODE_ERGS_at P = on_u32 bld (vm_cycle P + ram_permutation P).
Proof.
  intros (C & _). rewrite on_fits by lia. unfold AVERAGE_OPCODE_ERGS_at, plus_u32.
  rewrite !bind_Ok. apply add_fits. lia.
Qed.

Lemma rich_eq P bld : compiles P ->
  RICH_ADDRESSING_OPCODE_ERGS_at P = on_u32 bld (vm_cycle P + 2 * ram_permutation P).
Proof.
  intros (C & _). rewrite on_fits by assumption.
  unfold RICH_ADDRESSING_OPCODE_ERGS_at, plus_u32, times_u32.
  rewrite !bind_Ok, mul_fits, bind_Ok by lia. apply add_fits. lia.
Qed.

Lemma typed_fields P : typed_constants P ->
  (vm_cycle P < 2 ^ 32 /\ ram_permutation P < 2 ^ 32 /\ log_demuxer P < 2 ^ 32 /\
   storage_sorter P < 2 ^ 32 /\ events_sorter P < 2 ^ 32 /\ decommitment_sorter P < 2 ^ 32) /\
  (storage_read_io P < 2 ^ 32 /\ storage_write_io P < 2 ^ 32 /\ event_io P < 2 ^ 32 /\
   l1_message_io P < 2 ^ 32 /\ call_like P < 2 ^ 32).
Proof.
  intros H. unfold typed_constants, unit_prices in H. cbn [app] in H.
  repeat (apply Forall_cons_iff in H; destruct H as [? H]). repeat split; assumption.
Qed.

Ltac expand_charged :=
  unfold charged, dot, unit_prices; cbn [charges combine fold_right].

Lemma ok_on bld n : n < 2 ^ 32 -> Ok n = on_u32 bld n.
Proof. intros H. symmetry. apply on_fits, H. Qed.

Lemma price_at_eq P bld o : typed_constants P -> compiles P ->
  Opcode_ergs_price_at P bld o
  = (let* s := on_u32 bld (charged P o) in Ok (N.max s (floor_price P o))).
Proof.
  intros T C. destruct (typed_fields P T) as ((V & R & D & S & E & M) & (SR & SW & EV & L1 & CL)).
  assert (N0 : forall s : res N, (let* x := s in Ok (N.max x 0)) = s).
  { intros [x|]; [|reflexivity]. rewrite bind_Ok, N.max_0_r. reflexivity. }
  assert (AV := average_eq P bld C). assert (RI := rich_eq P bld C).
  assert (WF := write_floor_eq P C).
  destruct o as [i|i|i|i|i|i|i|i|i|i|i|i|i|i|i|i];
    try (cbn [Opcode_ergs_price_at floor_price]; rewrite N0;
         first [rewrite RI | rewrite AV]; f_equal; expand_charged; lia).
  - (* invalid *) reflexivity.
  - (* near call *)
    cbn [Opcode_ergs_price_at floor_price]. unfold NearCallOpcode_ergs_price_at.
    rewrite N0, AV, (ok_on bld _ CL), plus_on. f_equal. expand_charged. lia.
  - (* log *)
    cbn [Opcode_ergs_price_at]. unfold LogOpcode_ergs_price_at. cbv zeta.
    rewrite (ok_on bld _ V), (ok_on bld _ R), (ok_on bld _ D), (ok_on bld _ S), (ok_on bld _ E),
      (ok_on bld _ SR), (ok_on bld _ SW), (ok_on bld _ EV), (ok_on bld _ L1).
    rewrite !times_2, !plus_on.
    destruct i; try (cbn [floor_price]; rewrite N0; f_equal; expand_charged; lia).
    + rewrite WF.
      replace (charged P (Op_Log LogOpcode_StorageWrite))
        with (storage_write_io P + 2 * vm_cycle P + ram_permutation P + 2 * log_demuxer P
              + 2 * storage_sorter P) by (expand_charged; lia).
      reflexivity.
    + replace (charged P (Op_Log LogOpcode_ToL1Message))
        with (l1_message_io P + 2 * vm_cycle P + ram_permutation P + 2 * log_demuxer P
              + 2 * events_sorter P) by (expand_charged; lia).
      reflexivity.
  - (* far call *)
    cbn [Opcode_ergs_price_at floor_price]. unfold FarCallOpcode_ergs_price_at. cbv zeta.
    rewrite (ok_on bld _ V), (ok_on bld _ R), (ok_on bld _ S), (ok_on bld _ M),
      (ok_on bld _ SR), (ok_on bld _ CL), times_2, !plus_on, N0.
    f_equal. expand_charged. lia.
  - (* UMA *)
    cbn [Opcode_ergs_price_at]. unfold UMAOpcode_ergs_price_at.
    rewrite (ok_on bld _ V), (ok_on bld _ R), times_2, times_3, times_5, !plus_on.
    destruct i; cbn [floor_price]; rewrite N0; f_equal; expand_charged; lia.
Qed.

(** The price of every instruction for every choice of the constants, in both builds. *)
Lemma pf_C83_price :
  forall P o, typed_constants P -> compiles P ->
    (charged P o < 2 ^ 32 ->
       forall bld, Opcode_ergs_price_at P bld o = Ok (N.max (charged P o) (floor_price P o))) /\
    (2 ^ 32 <= charged P o ->
       Opcode_ergs_price_at P Debug o = Panic /\
       Opcode_ergs_price_at P Release o
       = Ok (N.max (charged P o mod 2 ^ 32) (floor_price P o))).
Proof.
  intros P o T C. split; [intros H bld | intros H; split]; rewrite price_at_eq by assumption.
  - rewrite on_fits by assumption. reflexivity.
  - rewrite on_over by assumption. reflexivity.
  - rewrite on_release. reflexivity.
Qed.

(** Which choices of the constants compile, and what the derived constants are. *)
Lemma pf_C83_compiles :
  forall P, typed_constants P ->
    (compiles P <->
       exists rich average floor depth,
         RICH_ADDRESSING_OPCODE_ERGS_at P = Ok rich /\ AVERAGE_OPCODE_ERGS_at P = Ok average /\
         MIN_STORAGE_WRITE_COST_at P = Ok floor /\ VM_MAX_STACK_DEPTH_at P = Ok depth) /\
    (compiles P ->
       RICH_ADDRESSING_OPCODE_ERGS_at P = Ok (vm_cycle P + 2 * ram_permutation P) /\
       AVERAGE_OPCODE_ERGS_at P = Ok (vm_cycle P + ram_permutation P) /\
       MIN_STORAGE_WRITE_COST_at P = Ok (floor_price P (Op_Log LogOpcode_StorageWrite)) /\
       VM_MAX_STACK_DEPTH_at P = Ok ((2 ^ 32 - 1) / call_like P + 80)) /\
    (forall x, AVERAGE_OPCODE_ERGS_at P = Ok x <->
       x = vm_cycle P + ram_permutation P /\ x < 2 ^ 32).
Proof.
  intros P T.
  assert (V : compiles P ->
       RICH_ADDRESSING_OPCODE_ERGS_at P = Ok (vm_cycle P + 2 * ram_permutation P) /\
       AVERAGE_OPCODE_ERGS_at P = Ok (vm_cycle P + ram_permutation P) /\
       MIN_STORAGE_WRITE_COST_at P = Ok (floor_price P (Op_Log LogOpcode_StorageWrite)) /\
       VM_MAX_STACK_DEPTH_at P = Ok ((2 ^ 32 - 1) / call_like P + 80)).
  { intros C. assert (C' := C). destruct C' as (C1 & C2 & C3 & C4 & C5).
    split; [rewrite (rich_eq P Debug C); apply on_fits; assumption|].
    split; [rewrite (average_eq P Debug C); apply on_fits; lia|].
    split; [apply write_floor_eq, C|].
    unfold VM_MAX_STACK_DEPTH_at, div_w. destruct (N.eqb_spec (call_like P) 0); [lia|].
    rewrite bind_Ok. apply add_fits. exact C5. }
  split; [|split; [exact V|]].
  2:{ destruct (typed_fields P T) as ((Tv & Tr & _) & _). intros x.
      unfold AVERAGE_OPCODE_ERGS_at. rewrite (ok_on Debug _ Tv), (ok_on Debug _ Tr), plus_on.
      destruct (N.lt_ge_cases (vm_cycle P + ram_permutation P) (2 ^ 32)) as [L|L].
      - rewrite on_fits by exact L. split; [intros E; injection E as <-; auto|].
        intros [-> _]. reflexivity.
      - rewrite (on_over _ L). split; [discriminate|intros [-> L']; lia]. }
  split.
  - intros C. destruct (V C) as (A & B & D & E). repeat eexists; eassumption.
  - intros (ri & av & fl & de & A & _ & D & E). destruct (typed_fields P T) as ((Tv & Tr & _) & _).
    unfold compiles. split; [|split; [|split; [|split]]].
    + unfold RICH_ADDRESSING_OPCODE_ERGS_at in A.
      rewrite (ok_on Debug _ Tv), (ok_on Debug _ Tr), times_2, plus_on in A.
      destruct (N.lt_ge_cases (vm_cycle P + 2 * ram_permutation P) (2 ^ 32)) as [L|L]; [exact L|].
      rewrite (on_over _ L) in A. discriminate A.
    + unfold MIN_STORAGE_WRITE_COST_at, MIN_STORAGE_WRITE_PRICE_FOR_REENTRANCY_PROTECTION_at,
        sub_w in D.
      destruct (N.leb_spec (simulator_min_used P) (simulator_additive P)); [assumption|discriminate D].
    + unfold MIN_STORAGE_WRITE_COST_at, MIN_STORAGE_WRITE_PRICE_FOR_REENTRANCY_PROTECTION_at,
        sub_w in D.
      destruct (N.leb_spec (simulator_min_used P) (simulator_additive P)); [|discriminate D].
      rewrite bind_Ok in D.
      destruct (N.lt_ge_cases (simulator_additive P - simulator_min_used P + 1) (2 ^ 32))
        as [L|L]; [exact L|].
      rewrite (add_over 32 _ _ L) in D. discriminate D.
    + unfold VM_MAX_STACK_DEPTH_at, div_w in E.
      destruct (N.eqb_spec (call_like P) 0); [discriminate E|lia].
    + unfold VM_MAX_STACK_DEPTH_at, div_w in E.
      destruct (N.eqb_spec (call_like P) 0); [discriminate E|]. rewrite bind_Ok in E.
      destruct (N.lt_ge_cases ((2 ^ 32 - 1) / call_like P + 80) (2 ^ 32)) as [L|L]; [exact L|].
      change VM_INITIAL_FRAME_ERGS with (2 ^ 32 - 1) in E.
      rewrite (add_over 32 _ _ L) in E. discriminate E.
Qed.

(** ** The table *)

Lemma Ok_inj {A} (a b : A) : Ok a = Ok b -> a = b.
Proof. intros H. congruence. Qed.

Lemma for_each_prices {A} (f : A -> res N) l : forall acc,
  for_each (fun r x => let* p := f x in Ok (r ++ [p])) l acc
  = let* ps := map_res f l in Ok (acc ++ ps).
Proof.
  induction l as [|x l IH]; intros acc; cbn [for_each map_res].
  - rewrite bind_Ok, app_nil_r. reflexivity.
  - destruct (f x) as [p|]; [rewrite !bind_Ok, IH|reflexivity].
    destruct (map_res f l) as [ps|]; [rewrite !bind_Ok|reflexivity].
    rewrite <- app_assoc. reflexivity.
Qed.

Lemma map_res_ok {A} (f : A -> res N) (g : A -> N) l :
  (forall x, In x l -> f x = Ok (g x)) -> map_res f l = Ok (map g l).
Proof.
  induction l as [|x l IH]; intros H; [reflexivity|]. cbn [map_res map].
  rewrite (H x (or_introl eq_refl)), bind_Ok, IH, bind_Ok by (intros y Y; apply H; right; exact Y).
  reflexivity.
Qed.

Lemma map_res_panic {A} (f : A -> res N) x l : In x l -> f x = Panic -> map_res f l = Panic.
Proof.
  intros I F. induction l as [|y l IH]; [destruct I|]. cbn [map_res]. destruct I as [->|I].
  - rewrite F. reflexivity.
  - rewrite (IH I). destruct (f y); reflexivity.
Qed.

Lemma every_opcode_in_table o : exists x, In x padded_table /\ opcode x = o.
Proof.
  assert (S : forallb (fun o => existsb (fun x => Opcode_beq (opcode x) o) spec_table_v1)
                spec_all_opcodes = true) by (vm_compute; reflexivity).
  assert (H := forall_opcodes _ S o). apply existsb_exists in H. destruct H as (x & I & E).
  exists x. split; [unfold padded_table; apply in_or_app; left; exact I|].
  apply internal_Opcode_dec_bl. exact E.
Qed.

(** The price table, for every choice of the constants: with overflow checks it exists exactly
    if all sums fit, and then each entry is the price of the instruction there; without, it
    always exists. *)
Lemma pf_C83_table :
  forall P bld, typed_constants P -> compiles P ->
    ((exists p, OPCODES_PRICES_at P bld = Ok p) <->
       bld = Release \/ forall o, charged P o < 2 ^ 32) /\
    (forall p, OPCODES_PRICES_at P bld = Ok p ->
       exists t, OPCODES_TABLE = Ok t /\ List.length p = List.length t /\
         forall i x, nth_error t i = Some x ->
           nth_error p i
           = Some (N.max (charged P (opcode x) mod 2 ^ 32) (floor_price P (opcode x)))).
Proof.
  intros P bld T C.
  assert (U : OPCODES_PRICES_at P bld
              = let* r := map_res (fun x => Opcode_ergs_price_at P bld (opcode x)) padded_table in
                into_array (2 ^ OPCODES_TABLE_WIDTH) r).
  { unfold OPCODES_PRICES_at. rewrite OPCODES_TABLE_eq, bind_Ok, for_each_prices.
    destruct (map_res _ padded_table) as [r|]; [rewrite !bind_Ok|]; reflexivity. }
  assert (G : bld = Release \/ (forall o, charged P o < 2 ^ 32) ->
     OPCODES_PRICES_at P bld
     = Ok (map (fun x => N.max (charged P (opcode x) mod 2 ^ 32) (floor_price P (opcode x)))
             padded_table)).
  { intros F. rewrite U.
    rewrite (map_res_ok _ (fun x => N.max (charged P (opcode x) mod 2 ^ 32)
                                      (floor_price P (opcode x)))).
    - rewrite bind_Ok. apply into_array_ok. unfold len. rewrite map_length, padded_length.
      reflexivity.
    - intros x _. rewrite (price_at_eq P bld _ T C). destruct F as [->|F].
      + rewrite on_release, bind_Ok. reflexivity.
      + rewrite on_fits, bind_Ok, N.mod_small by apply F. reflexivity. }
  assert (B : (exists p, OPCODES_PRICES_at P bld = Ok p) ->
              bld = Release \/ forall o, charged P o < 2 ^ 32).
  { intros (p & H). destruct bld; [right|left; reflexivity]. intros o.
    destruct (N.lt_ge_cases (charged P o) (2 ^ 32)) as [L|L]; [exact L|exfalso].
    destruct (every_opcode_in_table o) as (x & I & E). rewrite U in H.
    rewrite (map_res_panic _ x _ I) in H; [discriminate H|]. rewrite E.
    apply (pf_C83_price P o T C), L. }
  split; [split; [exact B|]|].
  - intros F. eexists. apply G, F.
  - intros p H. exists padded_table. split; [apply OPCODES_TABLE_eq|].
    rewrite G in H by (apply B; exists p; exact H). apply Ok_inj in H. subst p.
    split; [apply map_length|]. intros i x Hx. rewrite nth_error_map', Hx. reflexivity.
Qed.

(** ** Raising prices *)

Lemma dot_le c a b : Forall2 N.le a b -> dot c a <= dot c b.
Proof.
  unfold dot. intros H. revert c. induction H as [|x y a b L _ IH]; intros [|z c];
    cbn [combine fold_right]; try lia.
  specialize (IH c). nia.
Qed.

Lemma debug_price P price o : typed_constants P -> compiles P -> priced_by P Debug price ->
  charged P o < 2 ^ 32 /\ price o = N.max (charged P o) (floor_price P o).
Proof.
  intros T C H. specialize (H o). destruct (pf_C83_price P o T C) as [A B].
  destruct (N.lt_ge_cases (charged P o) (2 ^ 32)) as [L|L].
  - split; [exact L|]. rewrite (A L Debug) in H. injection H as <-. reflexivity.
  - destruct (B L) as [E _]. rewrite E in H. discriminate H.
Qed.

(** Raising unit prices and floors, with the stipends as they are, never makes an instruction
    cheaper, as long as no sum overflows; and if no sum overflows for the higher unit prices,
    none does for the lower ones. *)
Lemma pf_C83_monotone :
  (forall P P' price price', typed_constants P -> compiles P -> typed_constants P' -> compiles P' ->
     priced_by P Debug price -> priced_by P' Debug price' ->
     Forall2 N.le (unit_prices P) (unit_prices P') -> l1_message_min P <= l1_message_min P' ->
     storage_write_hasher_min P <= storage_write_hasher_min P' ->
     simulator_additive P - simulator_min_used P <= simulator_additive P' - simulator_min_used P' ->
     forall o, price o <= price' o) /\
  (forall P P', typed_constants P -> compiles P -> typed_constants P' -> compiles P' ->
     (exists price', priced_by P' Debug price') ->
     Forall2 N.le (unit_prices P) (unit_prices P') -> exists price, priced_by P Debug price).
Proof.
  split.
  - intros P P' price price' T C T' C' H H' U L W S o.
    destruct (debug_price P price o T C H) as [_ ->].
    destruct (debug_price P' price' o T' C' H') as [_ ->].
    assert (D := dot_le (charges o) _ _ U). unfold charged.
    assert (F : floor_price P o <= floor_price P' o).
    { destruct o as [i|i|i|i|i|i|i|i|i|i|i|i|i|i|i|i]; try destruct i; cbn [floor_price]; lia. }
    lia.
  - intros P P' T C T' C' (price' & H') U.
    exists (fun o => N.max (charged P o) (floor_price P o)). intros o.
    apply (pf_C83_price P o T C). destruct (debug_price P' price' o T' C' H') as [L _].
    assert (D := dot_le (charges o) _ _ U). unfold charged in *. lia.
Qed.

(** Without overflow checks raising the price of a storage access can make a storage read
    free. *)
Lemma pf_C83_wrap_refuted :
  exists P P', typed_constants P /\ compiles P /\ typed_constants P' /\ compiles P' /\
    Forall2 N.le (unit_prices P) (unit_prices P') /\
    Opcode_ergs_price_at P Release (Op_Log LogOpcode_StorageRead) = Ok 158 /\
    Opcode_ergs_price_at P' Release (Op_Log LogOpcode_StorageRead) = Ok 0 /\
    Opcode_ergs_price_at P' Debug (Op_Log LogOpcode_StorageRead) = Panic.
Proof.
  exists current_constants, (mkPriceConstants 4 1 1 2 1 1 156250 0 (2 ^ 32 - 8) 250 25 100 20 75500 72000).
  split; [repeat constructor|]. split; [repeat split; discriminate|].
  split; [repeat constructor|]. split; [repeat split; discriminate|].
  split; [repeat constructor; discriminate|]. repeat split.
Qed.

(** ** The paying machine *)

Lemma paying_total price s o s' : paying_step price s o s' ->
  total s' + match o with
             | Some (Op_NearCall i) => 0
             | Some o => price o
             | None => 0
             end <= total s.
Proof.
  intros H. destruct H; unfold total; cbn [frames fold_right]; try lia.
  destruct o; try discriminate H; lia.
Qed.

Lemma paying_price price s l s' o : paying_run price s l s' -> In (Some o) l ->
  keeps_frame o = true -> price o <= total s.
Proof.
  intros H. induction H as [|s o' s' l s'' S R IH]; intros I K; [destruct I|].
  assert (T := paying_total _ _ _ _ S). destruct I as [->|I].
  - destruct o; try discriminate K; lia.
  - specialize (IH I K). lia.
Qed.

(** Whatever the constants, in both builds and even when the sums wrap around, a storage write
    is dearer than either stipend, so no history paid from one contains a storage write. *)
Lemma pf_C83_stipends :
  forall P bld price, typed_constants P -> compiles P -> priced_by P bld price ->
    (2300 < price (Op_Log LogOpcode_StorageWrite) /\
     simulator_additive P - simulator_min_used P < price (Op_Log LogOpcode_StorageWrite)) /\
    (forall e l s, e <= 2300 \/ e <= simulator_additive P - simulator_min_used P ->
       paying_run price (vm_start e) l s -> ~ In (Some (Op_Log LogOpcode_StorageWrite)) l).
Proof.
  intros P bld price T C H.
  assert (F : 2300 < price (Op_Log LogOpcode_StorageWrite) /\
     simulator_additive P - simulator_min_used P < price (Op_Log LogOpcode_StorageWrite)).
  { specialize (H (Op_Log LogOpcode_StorageWrite)). rewrite (price_at_eq P bld _ T C) in H.
    destruct (on_u32 bld _) as [s|]; [|discriminate H]. rewrite bind_Ok in H. injection H as <-.
    unfold floor_price. lia. }
  split; [exact F|]. intros e l s He R I.
  apply (paying_price _ _ _ _ _ R) in I; [|reflexivity].
  unfold total, vm_start in I. cbn [frames fold_right] in I. lia.
Qed.

(** ** Depth *)

Lemma paying_depth price n s o s' :
  (forall i, price (Op_NearCall i) = n) -> (forall i, n <= price (Op_FarCall i)) ->
  paying_step price s o s' ->
  total s' + n * len (frames s') + n * unpaid s <= total s + n * len (frames s) + n * unpaid s'.
Proof.
  intros Hn Hf H. destruct H; unfold total, len; cbn [frames fold_right List.length unpaid];
    try rewrite Hn in *; try specialize (Hf i); nia.
Qed.

Lemma paying_run_depth price n s l s' :
  (forall i, price (Op_NearCall i) = n) -> (forall i, n <= price (Op_FarCall i)) ->
  paying_run price s l s' ->
  total s' + n * len (frames s') + n * unpaid s <= total s + n * len (frames s) + n * unpaid s'.
Proof.
  intros Hn Hf H. induction H as [|s o s' l s'' S R IH]; [lia|].
  apply (paying_depth price n _ _ _ Hn Hf) in S. lia.
Qed.

Lemma paying_app price s l s' l' s'' :
  paying_run price s l s' -> paying_run price s' l' s'' -> paying_run price s (l ++ l') s''.
Proof.
  intros R. induction R as [|s o s1 l s2 S R IH]; intros R'; [exact R'|].
  cbn [app]. eapply paying_cons; [exact S|apply IH, R'].
Qed.

Lemma paying_chain price n : (forall i, price (Op_NearCall i) = n) ->
  forall k f r c j u,
  exists l s, paying_run price (mkVm ((f + n * N.of_nat k) :: r) c j u) l s /\
    unpaid s = u /\ len (frames s) = 1 + N.of_nat k + len r /\ exists r', frames s = f :: r'.
Proof.
  intros Hn. induction k as [|k IH]; intros f r c j u.
  - exists [], (mkVm ((f + n * N.of_nat 0) :: r) c j u). split; [apply paying_nil|].
    split; [reflexivity|]. split; [unfold len; cbn [frames List.length]; lia|].
    exists r. cbn [frames]. f_equal. lia.
  - destruct (IH f (0 :: r) (c + 1) j u) as (l & s & R & U & L & r' & F).
    exists (Some (Op_NearCall nearCallOpcode) :: l), s. split; [|split; [exact U|split]].
    + eapply paying_cons; [|exact R]. apply pay_near. rewrite Hn. nia.
    + rewrite L. unfold len. cbn [List.length]. lia.
    + exists r'. exact F.
Qed.

Lemma paying_unpaid_chain price k : forall f r c j u,
  exists l s, paying_run price (mkVm (f :: r) c j u) l s /\
    unpaid s = u + N.of_nat k /\ len (frames s) = 1 + N.of_nat k + len r.
Proof.
  induction k as [|k IH]; intros f r c j u.
  - exists [], (mkVm (f :: r) c j u). split; [apply paying_nil|].
    unfold len; cbn [frames unpaid List.length]. lia.
  - destruct (IH f (0 :: r) (c + 1) j (u + 1)) as (l & s & R & U & L).
    exists (Some (Op_NearCall nearCallOpcode) :: l), s. split; [|split].
    + eapply paying_cons; [|exact R]. apply pay_unpaid. lia.
    + rewrite U. lia.
    + rewrite L. unfold len. cbn [List.length]. lia.
Qed.

Lemma deepest_reached price n : 0 < n ->
  (forall i, price (Op_NearCall i) = n) -> (forall i, n <= price (Op_FarCall i)) ->
  forall e u,
  (forall l s, paying_run price (vm_start e) l s -> unpaid s <= u ->
     len (frames s) <= 1 + e / n + u) /\
  (exists l s, paying_run price (vm_start e) l s /\ unpaid s = u /\
     len (frames s) = 1 + e / n + u).
Proof.
  intros N0 Hn Hf e u. split.
  - intros l s R U. apply (paying_run_depth price n _ _ _ Hn Hf) in R.
    unfold vm_start, total at 2, len at 2 in R. cbn [frames fold_right unpaid List.length] in R.
    assert (B : len (frames s) <= (e + (1 + u) * n) / n) by (apply N.div_le_lower_bound; nia).
    rewrite N.div_add in B by lia. lia.
  - assert (E := N.div_mod e n ltac:(lia)).
    destruct (paying_chain price n Hn (N.to_nat (e / n)) (e mod n) [] 0 0 0)
      as (l & s & R & U & L & r & F).
    replace (e mod n + n * N.of_nat (N.to_nat (e / n))) with e in R by lia.
    destruct s as [fr c k u0]. cbn [frames unpaid] in U, L, F. subst fr u0.
    destruct (paying_unpaid_chain price (N.to_nat u) (e mod n) r c k 0) as (l' & s' & R' & U' & L').
    exists (l ++ l'), s'. split; [eapply paying_app; [exact R|exact R']|].
    unfold len in *. cbn [List.length] in *. lia.
Qed.

(** How deep the callstack gets for other constants, when the exported limit bounds it, and
    that it does whenever instructions are not free and a callstack item costs less than
    [2^16]. *)
Lemma pf_C83_depth :
  forall P price limit, typed_constants P -> compiles P -> priced_by P Debug price ->
    VM_MAX_STACK_DEPTH_at P = Ok limit ->
    let call := price (Op_NearCall nearCallOpcode) in
    (forall e u,
       (forall l s, paying_run price (vm_start e) l s -> unpaid s <= u ->
          len (frames s) <= 1 + e / call + u) /\
       (exists l s, paying_run price (vm_start e) l s /\ unpaid s = u /\
          len (frames s) = 1 + e / call + u)) /\
    ((forall e l s, e <= 2 ^ 32 - 1 -> paying_run price (vm_start e) l s -> unpaid s <= 80 ->
        len (frames s) <= limit) <->
     1 + (2 ^ 32 - 1) / call <= (2 ^ 32 - 1) / call_like P) /\
    (0 < vm_cycle P + ram_permutation P -> call_like P < 2 ^ 16 ->
     forall e l s, e <= 2 ^ 32 - 1 -> paying_run price (vm_start e) l s -> unpaid s <= 80 ->
       len (frames s) <= limit).
Proof.
  intros P price limit T C H HL call.
  assert (Hn : call = vm_cycle P + ram_permutation P + call_like P).
  { unfold call. destruct (debug_price P price (Op_NearCall nearCallOpcode) T C H) as [_ ->].
    cbn [floor_price]. expand_charged. lia. }
  assert (Hi : forall i, price (Op_NearCall i) = call) by (intros []; reflexivity).
  assert (Hf : forall i, call <= price (Op_FarCall i)).
  { intros i. rewrite Hn. destruct (debug_price P price (Op_FarCall i) T C H) as [_ ->].
    expand_charged. lia. }
  assert (D := pf_C83_compiles P T). destruct D as (_ & D & _). destruct (D C) as (_ & _ & _ & D').
  rewrite D' in HL. apply Ok_inj in HL. clear D D'.
  assert (N0 : 0 < call_like P) by apply C. clearbody call.
  assert (R := deepest_reached price call ltac:(lia) Hi Hf).
  assert (B : (forall e l s, e <= 2 ^ 32 - 1 -> paying_run price (vm_start e) l s ->
                 unpaid s <= 80 -> len (frames s) <= limit) <->
              1 + (2 ^ 32 - 1) / call <= (2 ^ 32 - 1) / call_like P).
  { split.
    - intros A. destruct (R (2 ^ 32 - 1) 80) as [_ (l & s & Rn & U & L)].
      specialize (A _ l s (N.le_refl _) Rn). rewrite L, U in A. lia.
    - intros A e l s He Rn U. destruct (R e 80) as [Q _]. specialize (Q l s Rn U).
      assert (M := N.div_le_mono e (2 ^ 32 - 1) call ltac:(lia) He). lia. }
  split; [exact R|]. split; [exact B|]. intros V L. apply B.
  set (c := call_like P) in *. change (2 ^ 16) with 65536 in L.
  assert (M : (2 ^ 32 - 1) / call <= (2 ^ 32 - 1) / (c + 1)).
  { apply N.div_le_compat_l. lia. }
  set (q := (2 ^ 32 - 1) / (c + 1)) in *.
  assert (Q1 : c <= q).
  { unfold q. apply N.div_le_lower_bound; [lia|]. change (2 ^ 32 - 1) with 4294967295. nia. }
  assert (Q2 : (c + 1) * q <= 2 ^ 32 - 1) by (unfold q; apply N.mul_div_le; lia).
  apply N.le_trans with (1 + q); [lia|].
  apply N.div_le_lower_bound; [lia|]. nia.
Qed.

(** A callstack item priced at [2^16] outgrows the exported limit. *)
Lemma pf_C83_depth_refuted :
  exists P price limit, typed_constants P /\ compiles P /\ priced_by P Debug price /\
    VM_MAX_STACK_DEPTH_at P = Ok limit /\ 0 < vm_cycle P + ram_permutation P /\
    call_like P = 2 ^ 16 /\
    ~ (forall e l s, e <= 2 ^ 32 - 1 -> paying_run price (vm_start e) l s -> unpaid s <= 80 ->
         len (frames s) <= limit).
Proof.
  set (P := mkPriceConstants 1 0 1 2 1 1 156250 0 150 250 25 100 65536 75500 72000).
  set (price := fun o => N.max (charged P o) (floor_price P o)).
  assert (T : typed_constants P) by repeat constructor.
  assert (C : compiles P) by (repeat split; discriminate).
  assert (H : priced_by P Debug price).
  { intros o. apply (pf_C83_price P o T C).
    each_opcode o; reflexivity. }
  exists P, price, 65615. split; [exact T|]. split; [exact C|]. split; [exact H|].
  split; [reflexivity|]. split; [reflexivity|]. split; [reflexivity|].
  destruct (pf_C83_depth P price 65615 T C H eq_refl) as (_ & B & _).
  intros A. apply (proj1 B) in A. vm_compute in A. apply A. reflexivity.
Qed.

(** ** Circuits *)

Lemma charged_units_cons n o l : charged_units n (o :: l) = nth n (charges o) 0 + charged_units n l.
Proof. reflexivity. Qed.

Lemma charges_paid P price l : typed_constants P -> compiles P -> priced_by P Debug price ->
  charged_units 0 l * vm_cycle P + charged_units 1 l * ram_permutation P
  + charged_units 2 l * log_demuxer P + charged_units 3 l * storage_sorter P
  + charged_units 4 l * events_sorter P + charged_units 5 l * decommitment_sorter P
  <= sum_over price l.
Proof.
  intros T C H. induction l as [|o l IH]; [reflexivity|].
  rewrite !charged_units_cons. cbn [sum_over fold_right]. fold (sum_over price l).
  destruct (debug_price P price o T C H) as [_ E].
  assert (L : nth 0 (charges o) 0 * vm_cycle P + nth 1 (charges o) 0 * ram_permutation P
    + nth 2 (charges o) 0 * log_demuxer P + nth 3 (charges o) 0 * storage_sorter P
    + nth 4 (charges o) 0 * events_sorter P + nth 5 (charges o) 0 * decommitment_sorter P
    <= charged P o).
  { expand_charged. destruct o as [i|i|i|i|i|i|i|i|i|i|i|i|i|i|i|i]; try destruct i;
      cbn [charges nth combine fold_right]; lia. }
  lia.
Qed.

Lemma filled_paid e c p u : e <= p * c -> e * (u / c) <= u * p.
Proof.
  intros H. destruct (N.eq_dec c 0) as [->|C].
  - replace e with 0 by lia. lia.
  - assert (D := N.mul_div_le u c C). nia.
Qed.

(** With the unit prices that the generator writes for any capacities, the instructions of any
    program pay for all circuit instances that their charges fill, of all six circuits
    together. *)
Lemma pf_C83_circuits :
  forall Q v P price l, prices Q v -> typed_constants P -> compiles P -> priced_by P Debug price ->
    map (fun '(_, n) => v n) (charged_circuits Q) = firstn 6 (unit_prices P) ->
    ergs_per_circuit Q * filled_circuits Q l <= sum_over price l.
Proof.
  intros Q v P price l (M & _) T C H E.
  cbn [charged_circuits map firstn unit_prices] in E. injection E as E0 E1 E2 E3 E4 E5.
  assert (B := charges_paid P price l T C H).
  assert (F : forall n c u, In (n, c) (metered Q) ->
                ergs_per_circuit Q * (u / c) <= u * v n).
  { intros n c u I. apply filled_paid. apply (M n c I). }
  unfold filled_circuits, charged_circuits. cbn [combine seq sum_over fold_right].
  assert (F0 := F _ _ (charged_units 0 l)
    (or_introl eq_refl : In ("VM_CYCLE_COST_IN_ERGS"%string, cycles_per_vm_snapshot Q) (metered Q))).
  assert (F1 := F "RAM_PERMUTATION_COST_IN_ERGS"%string (cycles_per_ram_permutation Q)
    (charged_units 1 l) ltac:(cbn; tauto)).
  assert (F2 := F "LOG_DEMUXER_COST_IN_ERGS"%string (cycles_for_log_demuxer Q)
    (charged_units 2 l) ltac:(cbn; tauto)).
  assert (F3 := F "STORAGE_SORTER_COST_IN_ERGS"%string (cycles_for_storage_sorter Q)
    (charged_units 3 l) ltac:(cbn; tauto)).
  assert (F4 := F "EVENTS_OR_L1_MESSAGES_SORTER_COST_IN_ERGS"%string
    (cycles_for_events_or_l1_messages_sorter Q) (charged_units 4 l) ltac:(cbn; tauto)).
  assert (F5 := F "CODE_DECOMMITMENT_SORTER_COST_IN_ERGS"%string
    (cycles_for_code_decommitter_sorter Q) (charged_units 5 l) ltac:(cbn; tauto)).
  rewrite E0 in F0. rewrite E1 in F1. rewrite E2 in F2. rewrite E3 in F3. rewrite E4 in F4.
  rewrite E5 in F5. clear - B F0 F1 F2 F3 F4 F5.
  rewrite !N.mul_add_distr_l, N.mul_0_r, N.add_0_r.
  eapply N.le_trans; [|exact B]. rewrite <- !N.add_assoc.
  repeat (apply N.add_le_mono; [assumption|]). assumption.
Qed.

Lemma paying_spent price s o s' : paying_step price s o s' ->
  total s' + match o with Some x => price x | None => 0 end
  + price (Op_NearCall nearCallOpcode) * unpaid s
  <= total s + price (Op_NearCall nearCallOpcode) * unpaid s'.
Proof.
  intros H. destruct H; unfold total; cbn [frames fold_right unpaid]; try destruct i; lia.
Qed.

Lemma paying_run_spent price s l s' : paying_run price s l s' ->
  total s' + sum_over price (executed l) + price (Op_NearCall nearCallOpcode) * unpaid s
  <= total s + price (Op_NearCall nearCallOpcode) * unpaid s'.
Proof.
  intros H. induction H as [|s o s' l s'' S R IH]; [cbn; lia|].
  apply paying_spent in S. destruct o as [x|].
  - change (sum_over price (executed (Some x :: l))) with (price x + sum_over price (executed l)).
    lia.
  - change (executed (None :: l)) with (executed l). lia.
Qed.

(** Hence a frame with [e] ergs cannot make the machine fill more circuit instances than those
    ergs, and the near calls it was not charged for, pay for. *)
Lemma pf_C83_budget :
  forall Q v P price e l s, prices Q v -> typed_constants P -> compiles P ->
    priced_by P Debug price ->
    map (fun '(_, n) => v n) (charged_circuits Q) = firstn 6 (unit_prices P) ->
    paying_run price (vm_start e) l s ->
    ergs_per_circuit Q * filled_circuits Q (executed l)
    <= e + price (Op_NearCall nearCallOpcode) * unpaid s.
Proof.
  intros Q v P price e l s V T C H E R.
  eapply N.le_trans; [exact (pf_C83_circuits Q v P price (executed l) V T C H E)|].
  apply paying_run_spent in R. unfold vm_start, total at 2 in R.
  cbn [frames fold_right unpaid] in R. lia.
Qed.

(** ** Work *)

Lemma work_at_sweep :
  forallb (fun x => negb (spec_well_formed 1 x) || spec_is_invalid (opcode x)
     || (let q := 1 + operand_queries (src0_operand_type x) + operand_queries (dst0_operand_type x)
                  + heap_queries (opcode x) in
         if both_in_memory x
         then (cycles_of (opcode x) =? 1) && (q =? 3) && (nth 0 (charges (opcode x)) 0 =? 1)
              && (nth 1 (charges (opcode x)) 0 =? 2) && (floor_price current_constants (opcode x) =? 0)
              && forallb (fun n => n =? 0) (skipn 2 (charges (opcode x)))
         else (cycles_of (opcode x) <=? nth 0 (charges (opcode x)) 0)
              && (q <=? nth 1 (charges (opcode x)) 0))) spec_all_variants = true.
Proof. vm_compute. reflexivity. Qed.

Lemma first_two P o :
  nth 0 (charges o) 0 * vm_cycle P + nth 1 (charges o) 0 * ram_permutation P <= charged P o.
Proof.
  expand_charged. destruct o as [i|i|i|i|i|i|i|i|i|i|i|i|i|i|i|i]; try destruct i;
    cbn [charges nth combine fold_right]; lia.
Qed.

Lemma work_at_case P price x : typed_constants P -> compiles P -> priced_by P Debug price ->
  in_table x -> spec_is_invalid (opcode x) = false ->
  if both_in_memory x
  then price (opcode x) = vm_cycle P + 2 * ram_permutation P /\
       worst_work_at P x = vm_cycle P + 3 * ram_permutation P
  else worst_work_at P x <= price (opcode x).
Proof.
  intros T C H I Hi. apply in_table_wf in I.
  assert (S := forall_variants _ work_at_sweep x). cbv beta zeta in S. rewrite I, Hi in S.
  cbn [negb orb] in S. destruct (debug_price P price (opcode x) T C H) as [_ E].
  assert (F := first_two P (opcode x)). unfold worst_work_at.
  set (q := 1 + operand_queries (src0_operand_type x) + operand_queries (dst0_operand_type x)
            + heap_queries (opcode x)) in *.
  destruct (both_in_memory x).
  - rewrite !andb_true_iff in S. destruct S as (((((S1 & S2) & S3) & S4) & S5) & S6).
    apply N.eqb_eq in S1, S2. rewrite S1, S2. split; [|lia]. rewrite E. clear - S3 S4 S5 S6.
    destruct (opcode x) as [i|i|i|i|i|i|i|i|i|i|i|i|i|i|i|i]; try destruct i;
      cbn [charges nth skipn forallb N.eqb Pos.eqb andb floor_price] in S3, S4, S5, S6;
      try discriminate; cbn [floor_price]; expand_charged; lia.
  - apply andb_true_iff in S. destruct S as [S1 S2]. apply N.leb_le in S1, S2.
    apply N.le_trans with (charged P (opcode x)); [|rewrite E; lia].
    eapply N.le_trans; [|exact F]. rewrite (N.mul_comm (vm_cycle P)), (N.mul_comm (ram_permutation P)).
    apply N.add_le_mono; apply N.mul_le_mono_r; assumption.
Qed.

(** For any constants, the price covers the worst-case work of an instruction, but for one
    memory query when both operands are in memory; and the factor by which the work of a
    program can exceed what was paid is exactly that of such an instruction. *)
Lemma pf_C83_work :
  forall P price, typed_constants P -> compiles P -> priced_by P Debug price ->
    (forall x, in_table x -> spec_is_invalid (opcode x) = false ->
       (both_in_memory x = false -> worst_work_at P x <= price (opcode x)) /\
       (both_in_memory x = true -> worst_work_at P x = price (opcode x) + ram_permutation P)) /\
    (forall p q,
       (forall l, Forall (fun x => in_table x /\ spec_is_invalid (opcode x) = false) l ->
          q * sum_over (worst_work_at P) l <= p * sum_over (fun x => price (opcode x)) l) <->
       q * (vm_cycle P + 3 * ram_permutation P) <= p * (vm_cycle P + 2 * ram_permutation P)).
Proof.
  intros P price T C H. split.
  - intros x I Hi. assert (W := work_at_case P price x T C H I Hi).
    destruct (both_in_memory x); split; intros E; try discriminate; [|exact W]. lia.
  - intros p q. split.
    + intros A.
      pose (x := mkOpcodeVariant (Op_Add AddOpcode_Add) (Full UseCodePage)
                   (Full UseStackWithOffset) (false, false)).
      assert (I : in_table x) by (apply in_table_wf; reflexivity).
      specialize (A [x]). cbn [sum_over fold_right] in A.
      assert (W := work_at_case P price x T C H I eq_refl).
      change (both_in_memory x) with true in W. destruct W as [W1 W2].
      rewrite W1, W2, !N.add_0_r in A. apply A. constructor; [|constructor].
      split; [exact I|reflexivity].
    + intros A l L. induction L as [|x l [I Hi] _ IH]; [cbn; lia|].
      cbn [sum_over fold_right]. fold (sum_over (worst_work_at P) l).
      fold (sum_over (fun x => price (opcode x)) l).
      assert (W := work_at_case P price x T C H I Hi).
      assert (G : q * worst_work_at P x <= p * price (opcode x)); [|lia].
      destruct (both_in_memory x).
      * destruct W as [-> ->]. exact A.
      * destruct (N.eq_dec (vm_cycle P + 2 * ram_permutation P) 0) as [Z|Z].
        { replace (worst_work_at P x) with 0; [lia|]. unfold worst_work_at.
          replace (vm_cycle P) with 0 by lia. replace (ram_permutation P) with 0 by lia. lia. }
        assert (K : q <= p); [|nia].
        apply N.mul_le_mono_pos_r with (vm_cycle P + 2 * ram_permutation P); [lia|].
        eapply N.le_trans; [|exact A]. apply N.mul_le_mono_l. lia.
Qed.

(** ** The shipped constants *)

Lemma current_typed : typed_constants current_constants.
Proof. repeat constructor. Qed.
Lemma current_compiles : compiles current_constants.
Proof. repeat split; discriminate. Qed.

Lemma current_priced bld : priced_by current_constants bld Opcode_ergs_price.
Proof. intros o. destruct bld; each_opcode o; reflexivity. Qed.

(** The shipped constants give the prices of Opcodes.v in both builds. *)
Lemma pf_C83_current :
  typed_constants current_constants /\ compiles current_constants /\
  (forall bld, priced_by current_constants bld Opcode_ergs_price) /\
  (forall bld, OPCODES_PRICES_at current_constants bld = OPCODES_PRICES) /\
  VM_MAX_STACK_DEPTH_at current_constants = Ok VM_MAX_STACK_DEPTH /\
  unit_prices current_constants = [4; 1; 1; 2; 1; 1; 150; 250; 25; 100; 20] /\
  (forall s o s', paying_step Opcode_ergs_price s o s' <-> vm_step s o s').
Proof.
  split; [exact current_typed|]. split; [exact current_compiles|].
  split; [exact current_priced|]. split; [|split; [reflexivity|split; [reflexivity|]]].
  - intros bld. unfold OPCODES_PRICES_at. rewrite OPCODES_TABLE_eq, bind_Ok, for_each_prices.
    rewrite (map_res_ok _ (fun x => spec_price (opcode x))), !bind_Ok, app_nil_l.
    + rewrite prices_eq. apply into_array_ok. unfold len. rewrite map_length, padded_length.
      reflexivity.
    + intros x _. rewrite (current_priced bld (opcode x)), price_eq. reflexivity.
  - intros s o s'. split; intros H; destruct H; constructor; assumption.
Qed.

(** The constants for the I/O of a storage write and of a message to L1 have no effect up to
    3486 and 156237; the shipped ones are 250 and 100. *)
Lemma pf_C83_slack :
  forall w m bld, w < 2 ^ 32 - 15 -> m < 2 ^ 32 - 13 ->
    let P := mkPriceConstants VM_CYCLE_COST_IN_ERGS RAM_PERMUTATION_COST_IN_ERGS
               LOG_DEMUXER_COST_IN_ERGS STORAGE_SORTER_COST_IN_ERGS
               EVENTS_OR_L1_MESSAGES_SORTER_COST_IN_ERGS CODE_DECOMMITMENT_SORTER_COST_IN_ERGS
               L1_MESSAGE_MIN_COST_IN_ERGS STORAGE_WRITE_HASHER_MIN_COST_IN_ERGS
               STORAGE_READ_IO_PRICE w EVENT_IO_PRICE m CALL_LIKE_ERGS_COST
               MSG_VALUE_SIMULATOR_ADDITIVE_COST MSG_VALUE_SIMULATOR_MIN_USED_ERGS in
    Opcode_ergs_price_at P bld (Op_Log LogOpcode_StorageWrite) = Ok (N.max (w + 15) 3501) /\
    Opcode_ergs_price_at P bld (Op_Log LogOpcode_ToL1Message) = Ok (N.max (m + 13) 156250) /\
    (priced_by P bld Opcode_ergs_price <-> w <= 3486 /\ m <= 156237).
Proof.
  intros w m bld Hw Hm P. change (2 ^ 32) with 4294967296 in Hw, Hm.
  assert (T : typed_constants P).
  { unfold typed_constants, unit_prices, P. cbn [app].
    repeat (apply Forall_cons; [first [reflexivity|
      cbn [storage_write_io l1_message_io]; change (2 ^ 32) with 4294967296; lia]|]).
    apply Forall_nil. }
  assert (C : compiles P) by (repeat split; discriminate).
  assert (CW : charged P (Op_Log LogOpcode_StorageWrite) = w + 15).
  { expand_charged. unfold P. cbn [vm_cycle ram_permutation log_demuxer storage_sorter events_sorter
      decommitment_sorter storage_read_io storage_write_io event_io l1_message_io call_like].
    unfold VM_CYCLE_COST_IN_ERGS, RAM_PERMUTATION_COST_IN_ERGS, LOG_DEMUXER_COST_IN_ERGS,
      STORAGE_SORTER_COST_IN_ERGS. lia. }
  assert (CM : charged P (Op_Log LogOpcode_ToL1Message) = m + 13).
  { expand_charged. unfold P. cbn [vm_cycle ram_permutation log_demuxer storage_sorter events_sorter
      decommitment_sorter storage_read_io storage_write_io event_io l1_message_io call_like].
    unfold VM_CYCLE_COST_IN_ERGS, RAM_PERMUTATION_COST_IN_ERGS, LOG_DEMUXER_COST_IN_ERGS,
      EVENTS_OR_L1_MESSAGES_SORTER_COST_IN_ERGS. lia. }
  assert (PW : Opcode_ergs_price_at P bld (Op_Log LogOpcode_StorageWrite)
               = Ok (N.max (w + 15) 3501)).
  { rewrite (price_at_eq P bld _ T C), CW, on_fits, bind_Ok
      by (change (2 ^ 32) with 4294967296; lia). reflexivity. }
  assert (PM : Opcode_ergs_price_at P bld (Op_Log LogOpcode_ToL1Message)
               = Ok (N.max (m + 13) 156250)).
  { rewrite (price_at_eq P bld _ T C), CM, on_fits, bind_Ok
      by (change (2 ^ 32) with 4294967296; lia). reflexivity. }
  split; [exact PW|]. split; [exact PM|]. split.
  - intros H. assert (A := H (Op_Log LogOpcode_StorageWrite)).
    assert (B := H (Op_Log LogOpcode_ToL1Message)). rewrite PW in A. rewrite PM in B.
    rewrite price_eq in A, B. apply Ok_inj in A, B. cbn [spec_price] in A, B. lia.
  - intros [A B] o. destruct (Opcode_eq_dec o (Op_Log LogOpcode_StorageWrite)) as [->|NW].
    { rewrite PW, price_eq. cbn [spec_price]. f_equal. lia. }
    destruct (Opcode_eq_dec o (Op_Log LogOpcode_ToL1Message)) as [->|NM].
    { rewrite PM, price_eq. cbn [spec_price]. f_equal. lia. }
    destruct bld; each_opcode o; first [congruence | reflexivity].
Qed.

(** Doubled unit prices: they compile, every instruction has a price, and a program that reads
    storage, calls and adds pays for the circuits it fills. *)
Example pf_C83_example :
  let P := mkPriceConstants 8 2 2 4 2 2 312500 0 300 500 50 200 40 75500 72000 in
  let l := repeat (Op_FarCall FarCallOpcode_Normal) 40 ++ repeat (Op_Add AddOpcode_Add) 60 in
  typed_constants P /\ compiles P /\
  priced_by P Debug (fun o => N.max (charged P o) (floor_price P o)) /\
  Opcode_ergs_price_at P Debug (Op_FarCall FarCallOpcode_Normal) = Ok 364 /\
  Opcode_ergs_price_at P Debug (Op_Log LogOpcode_StorageWrite) = Ok 3501 /\
  charged P (Op_Log LogOpcode_StorageWrite) = 530 /\
  Forall2 N.le (unit_prices current_constants) (unit_prices P) /\
  VM_MAX_STACK_DEPTH_at P = Ok 107374262 /\
  charged_units 0 l = 140 /\ charged_units 1 l = 160 /\ charged_units 5 l = 40 /\
  (exists v, prices current_parameters v /\
     map (fun '(_, n) => v n) (charged_circuits current_parameters)
     = firstn 6 (unit_prices current_constants)) /\
  let l' := repeat (Op_FarCall FarCallOpcode_Normal) 5 in
  paying_run Opcode_ergs_price (vm_start 910) (map Some l') (mkVm [0; 0; 0; 0; 0; 0] 5 5 0).
Proof.
  cbv zeta.
  set (P := mkPriceConstants 8 2 2 4 2 2 312500 0 300 500 50 200 40 75500 72000).
  assert (T : typed_constants P) by repeat constructor.
  assert (C : compiles P) by (repeat split; discriminate).
  split; [exact T|]. split; [exact C|].
  split; [intros o; apply (pf_C83_price P o T C); each_opcode o; reflexivity|].
  do 3 (split; [reflexivity|]). split; [repeat constructor; discriminate|].
  do 4 (split; [reflexivity|]). split.
  - destruct pf_C74_current as (T' & N' & K & U).
    destruct (pf_C74_text current_parameters T') as (v & t & V & _); [rewrite N'; exact K|].
    rewrite N' in V. exists v. split; [exact V|]. specialize (U v V).
    unfold price_names in U. cbn [metered map fst app] in U.
    injection U as U0 U1 U2 U3 U4 U5 U6 U7 U8 U9 U10 _.
    cbn [charged_circuits map]. rewrite U0, U1, U5, U6, U7, U10. reflexivity.
  - cbn [repeat map]. unfold vm_start.
    apply paying_cons with (mkVm [728; 0] 1 1 0); [apply pay_far; discriminate|].
    apply paying_cons with (mkVm [546; 0; 0] 2 2 0); [apply pay_far; discriminate|].
    apply paying_cons with (mkVm [364; 0; 0; 0] 3 3 0); [apply pay_far; discriminate|].
    apply paying_cons with (mkVm [182; 0; 0; 0; 0] 4 4 0); [apply pay_far; discriminate|].
    apply paying_cons with (mkVm [0; 0; 0; 0; 0; 0] 5 5 0); [apply pay_far; discriminate|].
    apply paying_nil.
Qed.
