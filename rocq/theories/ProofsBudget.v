(** * Proofs about what an amount of ergs buys (C94) *)

From Coq Require Import Arith NArith List Bool Lia.
From Verif Require Import Machine Constants Opcodes AllOpcodes Repricing SpecPricing SpecRepricing SpecBudget.
Import ListNotations.
Open Scope N_scope.

Definition pn : N := Opcode_ergs_price (Op_NearCall nearCallOpcode).

Lemma near_price i : Opcode_ergs_price (Op_NearCall i) = pn.
Proof. destruct i. reflexivity. Qed.

Definition sum (l : list N) : N := fold_right N.add 0 l.

Lemma nested_plain d o l : keeps_frame o = true ->
  nested (S d) (Some o :: l) = nested (S d) l.
Proof. intros K. cbn [nested]. destruct o; try reflexivity; discriminate K. Qed.

Lemma near_plain o l : keeps_frame o = true -> near_calls (Some o :: l) = near_calls l.
Proof. intros K. unfold near_calls. cbn [fold_right]. destruct o; try reflexivity; discriminate K. Qed.

(** ** No run spends more *)

Definition pn_at (price : Opcode -> N) : N := price (Op_NearCall nearCallOpcode).

Lemma near_at price i : price (Op_NearCall i) = pn_at price.
Proof. destruct i. reflexivity. Qed.

Lemma run_sound price s l s' : paying_run price s l s' ->
  nested (List.length (frames s)) l /\ unpaid s <= unpaid s' /\
  unpaid s' <= unpaid s + near_calls l /\
  sum (frames s') + total_at price l + (pn_at price) * unpaid s <= sum (frames s) + (pn_at price) * unpaid s'.
Proof.
  induction 1 as [s|s o s' l s'' S R (N & U1 & U2 & P)].
  - repeat split; try lia. cbn. lia.
  - destruct S as [o f f' r c k u K L|i f f' p r c k u L|i f f' p r c k u L|i f g g' r c k u L1 L2
                  |i f c k u L|f r c k u|i f f' p r c k u L]; cbn [frames unpaid List.length sum fold_right] in *.
    + rewrite nested_plain, near_plain by exact K. unfold total_at. cbn [fold_right].
      fold (total_at price l). repeat split; try assumption. lia.
    + unfold total_at, near_calls. cbn [fold_right nested]. fold (total_at price l) (near_calls l).
      repeat split; try assumption; lia.
    + unfold total_at, near_calls. cbn [fold_right nested]. fold (total_at price l) (near_calls l).
      repeat split; try assumption; lia.
    + unfold total_at, near_calls. cbn [fold_right nested]. fold (total_at price l) (near_calls l).
      repeat split; try assumption; lia.
    + unfold total_at, near_calls. cbn [fold_right nested]. fold (total_at price l) (near_calls l).
      repeat split; try assumption; lia.
    + unfold total_at, near_calls. cbn [fold_right nested]. fold (total_at price l) (near_calls l).
      repeat split; try assumption; lia.
    + unfold total_at, near_calls. cbn [fold_right nested]. fold (total_at price l) (near_calls l).
      rewrite (near_at price). split; [exact N|]. split; [lia|]. split; [lia|].
      rewrite N.mul_add_distr_l in P. lia.
Qed.

(** ** And a run can spend just that *)

Lemma run_complete price l : forall d u, nested d l ->
  exists ns, List.length ns = d /\ sum ns + (pn_at price) * N.min u (near_calls l) = total_at price l /\
    forall fr c k u0, Forall2 N.le ns fr ->
      exists s', paying_run price (mkVm fr c k u0) l s' /\ unpaid s' = u0 + N.min u (near_calls l).
Proof.
  induction l as [|o l IH]; intros d u H.
  - exists (repeat 0 d). split; [apply repeat_length|]. split.
    + change (near_calls []) with 0. change (total_at price []) with 0. rewrite N.min_0_r, N.mul_0_r, N.add_0_r.
      clear H. induction d as [|d IHd]; [reflexivity|exact IHd].
    + intros fr c k u0 _. eexists. split; [apply paying_nil|]. change (near_calls []) with 0.
      rewrite N.min_0_r, N.add_0_r. reflexivity.
  - destruct d as [|d]; [destruct H|].
    destruct o as [o|].
    2:{ destruct (IH d u H) as (ns & L & S & R). exists (0 :: ns). split; [cbn; congruence|].
        split; [exact S|]. intros fr c k u0 F. inversion F as [|a f ns' r A B]; subst.
        destruct (R r (c + 1) k u0 B) as (s' & X & Y). exists s'. split; [|exact Y].
        eapply paying_cons; [apply pay_panic|exact X]. }
    destruct (keeps_frame o) eqn:K.
    { rewrite nested_plain in H by exact K. destruct (IH (S d) u H) as (ns & L & S & R).
      destruct ns as [|h t]; [discriminate L|]. exists (h + price o :: t).
      rewrite near_plain by exact K. split; [exact L|]. split.
      - unfold total_at. cbn [fold_right sum] in *. fold (total_at price l) in *. lia.
      - intros fr c k u0 F. inversion F as [|a f ns' r A B]; subst.
        destruct (R (h :: r) (c + 1) k u0) as (s' & X & Y); [constructor; [lia|exact B]|].
        exists s'. split; [|exact Y]. eapply paying_cons; [|exact X]. apply pay_plain; assumption. }
    destruct o as [i|i|i|i|i|i|i|i|i|i|i|i|i|i|i|i]; try discriminate K; cbn [nested] in H; try contradiction.
    + (* near call *)
      destruct (N.eq_dec u 0) as [->|NZ].
      * destruct (IH (S (S d)) 0 H) as (ns & L & S & R).
        destruct ns as [|p [|f' t]]; try discriminate L. exists (p + f' + (pn_at price) :: t).
        split; [cbn in *; congruence|]. rewrite N.min_0_l in *. split.
        -- unfold total_at. cbn [fold_right sum] in *. fold (total_at price l) in *.
           rewrite (near_at price). lia.
        -- intros fr c k u0 F. inversion F as [|a f ns' r A B]; subst.
           destruct (R (p :: f' :: r) (c + 1) k u0) as (s' & X & Y);
             [constructor; [lia|constructor; [lia|exact B]]|].
           exists s'. split; [|exact Y]. eapply paying_cons; [|exact X].
           apply pay_near. rewrite (near_at price). lia.
      * destruct (IH (S (S d)) (u - 1) H) as (ns & L & S & R).
        destruct ns as [|p [|f' t]]; try discriminate L. exists (p + f' :: t).
        split; [cbn in *; congruence|].
        assert (M : N.min u (near_calls (Some (Op_NearCall i) :: l)) = 1 + N.min (u - 1) (near_calls l)).
        { unfold near_calls. cbn [fold_right]. fold (near_calls l). lia. }
        rewrite M. split.
        -- unfold total_at. cbn [fold_right sum] in *. fold (total_at price l) in *.
           rewrite (near_at price), N.mul_add_distr_l. lia.
        -- intros fr c k u0 F. inversion F as [|a f ns' r A B]; subst.
           destruct (R (p :: f' :: r) (c + 1) k (u0 + 1)) as (s' & X & Y);
             [constructor; [lia|constructor; [lia|exact B]]|].
           exists s'. split; [|lia]. eapply paying_cons; [|exact X]. apply pay_unpaid. lia.
    + (* far call *)
      destruct (IH (S (S d)) u H) as (ns & L & S & R).
      destruct ns as [|p [|f' t]]; try discriminate L.
      exists (p + f' + price (Op_FarCall i) :: t). split; [cbn in *; congruence|]. split.
      * unfold total_at. cbn [fold_right sum] in *. fold (total_at price l) in *.
        change (near_calls (Some (Op_FarCall i) :: l)) with (near_calls l). lia.
      * intros fr c k u0 F. inversion F as [|a f ns' r A B]; subst.
        destruct (R (p :: f' :: r) (c + 1) (k + 1) u0) as (s' & X & Y);
          [constructor; [lia|constructor; [lia|exact B]]|].
        exists s'. split; [|exact Y]. eapply paying_cons; [|exact X]. apply pay_far.
        change (p + f' + price (Op_FarCall i) <= f) in A. lia.
    + (* return *)
      destruct (IH d u H) as (ns & L & S & R). exists (price (Op_Ret i) :: ns).
      split; [cbn; congruence|]. split.
      * unfold total_at. cbn [fold_right sum]. fold (total_at price l).
        change (near_calls (Some (Op_Ret i) :: l)) with (near_calls l). unfold sum in S. lia.
      * intros fr c k u0 F. inversion F as [|a f ns' r A B]; subst.
        destruct (R r (c + 1) k u0 B) as (s' & X & Y). exists s'. split; [|exact Y].
        change (price (Op_Ret i) <= f) in A.
        eapply paying_cons; [|exact X]. destruct r as [|g r]; [apply pay_exit; exact A|].
        apply pay_ret; lia.
Qed.

(** Whatever the prices: a sequence of cycles can be paid from [e] ergs, with at most [u] calls on the
    system's account, exactly if it is well nested and the sum of its prices is at most [e] and the
    price of the near calls that need not be paid.  How ergs are passed along does not matter. *)
Lemma pf_C94_prices :
  forall price e u l,
    (exists s, paying_run price (vm_start e) l s /\ unpaid s <= u) <->
    nested 1 l /\
    total_at price l <= e + price (Op_NearCall nearCallOpcode) * N.min u (near_calls l).
Proof.
  intros price e u l. fold (pn_at price). split.
  - intros (s & R & U). apply run_sound in R as (N & _ & U2 & P). cbn [vm_start frames unpaid sum fold_right] in *.
    split; [exact N|]. assert (M : unpaid s <= N.min u (near_calls l)) by lia.
    apply (N.mul_le_mono_l _ _ (pn_at price)) in M. lia.
  - intros [N P]. destruct (run_complete price l 1 u N) as (ns & L & S & R).
    destruct ns as [|n [|? ?]]; try discriminate L. cbn [sum fold_right] in S.
    destruct (R [e] 0 0 0) as (s & X & Y); [constructor; [lia|constructor]|].
    exists s. split; [exact X|]. rewrite Y. lia.
Qed.

Lemma run_paying s l s' : vm_run s l s' <-> paying_run Opcode_ergs_price s l s'.
Proof.
  split; induction 1 as [s|s o s' l s'' S _ IH]; try constructor.
  - econstructor; [|exact IH]. destruct S; [apply pay_plain|apply pay_near|apply pay_far|apply pay_ret
      |apply pay_exit|apply pay_panic|apply pay_unpaid]; assumption.
  - econstructor; [|exact IH]. destruct S; [apply step_plain|apply step_near|apply step_far|apply step_ret
      |apply step_exit|apply step_panic|apply step_unpaid]; assumption.
Qed.

(** With the prices of the crate. *)
Lemma pf_C94_exact :
  forall e u l,
    (exists s, vm_run (vm_start e) l s /\ unpaid s <= u) <->
    nested 1 l /\
    total_price l <= e + Opcode_ergs_price (Op_NearCall nearCallOpcode) * N.min u (near_calls l).
Proof.
  intros e u l. rewrite <- (pf_C94_prices Opcode_ergs_price e u l).
  split; intros (s & R & U); exists s; (split; [apply run_paying; exact R|exact U]).
Qed.

Lemma times_price o l : times o l * Opcode_ergs_price o <= total_price l.
Proof.
  induction l as [|x l IH]; [reflexivity|]. unfold times, total_price. cbn [fold_right].
  fold (times o l) (total_price l). destruct x as [x|]; [|exact IH].
  destruct (Opcode_beq x o) eqn:E; [|lia]. apply internal_Opcode_dec_bl in E. subst x. lia.
Qed.

Lemma repeat_nested o n : (forall i, o <> Op_Ret i) -> (forall i, o <> Op_Invalid i) ->
  forall d, nested (S d) (repeat (Some o) n).
Proof.
  intros A B. induction n as [|n IH]; intros d; [exact I|]. cbn [repeat nested].
  destruct o; try apply IH; exfalso; [eapply B|eapply A]; reflexivity.
Qed.

Lemma repeat_price o n : total_price (repeat (Some o) n) = N.of_nat n * Opcode_ergs_price o.
Proof.
  induction n as [|n IH]; [reflexivity|]. unfold total_price in *. cbn [repeat fold_right]. rewrite IH. lia.
Qed.

Lemma repeat_times o n : times o (repeat (Some o) n) = N.of_nat n.
Proof.
  induction n as [|n IH]; [reflexivity|]. unfold times in *. cbn [repeat fold_right]. rewrite IH.
  rewrite internal_Opcode_dec_lb by reflexivity. lia.
Qed.

(** How often an amount of ergs buys an instruction other than a return. *)
Lemma pf_C94_times :
  forall o, (forall i, o <> Op_Ret i) -> (forall i, o <> Op_Invalid i) ->
  forall e,
    (forall l s, vm_run (vm_start e) l s -> unpaid s = 0 -> times o l <= e / Opcode_ergs_price o) /\
    (exists l s, vm_run (vm_start e) l s /\ unpaid s = 0 /\ times o l = e / Opcode_ergs_price o).
Proof.
  intros o A B e.
  assert (Z : Opcode_ergs_price o <> 0).
  { destruct o as [i|i|i|i|i|i|i|i|i|i|i|i|i|i|i|i]; try destruct i; discriminate. }
  split.
  - intros l s R U.
    destruct (proj1 (pf_C94_exact e 0 l)) as [_ P]; [exists s; split; [exact R|rewrite U; reflexivity]|].
    rewrite N.min_0_l, N.mul_0_r, N.add_0_r in P. assert (T := times_price o l).
    apply N.div_le_lower_bound; [exact Z|]. rewrite N.mul_comm. lia.
  - set (n := N.to_nat (e / Opcode_ergs_price o)).
    destruct (proj2 (pf_C94_exact e 0 (repeat (Some o) n))) as (s & R & U).
    + split; [apply repeat_nested; assumption|]. rewrite repeat_price.
      unfold n. rewrite N2Nat.id, N.min_0_l, N.mul_0_r, N.add_0_r, N.mul_comm. apply N.mul_div_le, Z.
    + exists (repeat (Some o) n), s. split; [exact R|]. split; [lia|]. rewrite repeat_times. unfold n. lia.
Qed.

Lemma times_ret i l : forall d, nested d l ->
  times (Op_Ret i) l * (Opcode_ergs_price (Op_Ret i) + pn) <= total_price l + pn * N.of_nat d.
Proof.
  induction l as [|o l IH]; intros d H; [apply N.le_0_l|].
  destruct d as [|d]; [destruct H|]. unfold times, total_price. cbn [fold_right].
  fold (times (Op_Ret i) l) (total_price l).
  destruct o as [o|]; [|specialize (IH d H); lia].
  destruct (keeps_frame o) eqn:K.
  { rewrite nested_plain in H by exact K. specialize (IH (S d) H).
    replace (Opcode_beq o (Op_Ret i)) with false by (destruct o; try reflexivity; discriminate K). lia. }
  destruct o as [j|j|j|j|j|j|j|j|j|j|j|j|j|j|j|j]; try discriminate K; cbn [nested] in H; try contradiction;
    specialize (IH _ H).
  - change (Opcode_beq (Op_NearCall j) (Op_Ret i)) with false. cbn match. rewrite near_price. lia.
  - change (Opcode_beq (Op_FarCall j) (Op_Ret i)) with false. cbn match.
    assert (pn <= Opcode_ergs_price (Op_FarCall j)) by (destruct j; discriminate). lia.
  - assert (Opcode_ergs_price (Op_Ret j) = Opcode_ergs_price (Op_Ret i)) by (destruct i, j; reflexivity).
    destruct (Opcode_beq (Op_Ret j) (Op_Ret i)); lia.
Qed.

Fixpoint returning (i : RetOpcode) (n : nat) : list (option Opcode) :=
  match n with
  | O => [Some (Op_Ret i)]
  | S n => Some (Op_NearCall nearCallOpcode) :: Some (Op_Ret i) :: returning i n
  end.

Lemma returning_ok i n : nested 1 (returning i n) /\ times (Op_Ret i) (returning i n) = N.of_nat n + 1 /\
  total_price (returning i n) = N.of_nat n * (Opcode_ergs_price (Op_Ret i) + pn) + Opcode_ergs_price (Op_Ret i).
Proof.
  assert (E : Opcode_beq (Op_Ret i) (Op_Ret i) = true) by (apply internal_Opcode_dec_lb; reflexivity).
  induction n as [|n (A & B & C)].
  - split; [exact I|]. unfold times, total_price. cbn [returning fold_right]. rewrite E. lia.
  - cbn [returning]. split; [exact A|]. unfold times, total_price in *. cbn [fold_right].
    change (Opcode_beq (Op_NearCall nearCallOpcode) (Op_Ret i)) with false. cbn match. fold pn.
    rewrite E, B, C. generalize (Opcode_ergs_price (Op_Ret i)) pn. intros a b. split; [lia|].
    replace (N.of_nat (S n)) with (N.of_nat n + 1) by lia. rewrite N.mul_add_distr_r. lia.
Qed.

(** Returns need calls before them, except for the last. *)
Lemma pf_C94_returns :
  forall i e,
    let most := (e + Opcode_ergs_price (Op_NearCall nearCallOpcode))
                / (Opcode_ergs_price (Op_Ret i) + Opcode_ergs_price (Op_NearCall nearCallOpcode)) in
    (forall l s, vm_run (vm_start e) l s -> unpaid s = 0 -> times (Op_Ret i) l <= most) /\
    (exists l s, vm_run (vm_start e) l s /\ unpaid s = 0 /\ times (Op_Ret i) l = most).
Proof.
  intros i e most. fold pn in most.
  assert (Z : Opcode_ergs_price (Op_Ret i) + pn <> 0) by (destruct i; discriminate).
  split.
  - intros l s R U.
    destruct (proj1 (pf_C94_exact e 0 l)) as [N P]; [exists s; split; [exact R|rewrite U; reflexivity]|].
    rewrite N.min_0_l, N.mul_0_r, N.add_0_r in P. assert (T := times_ret i l 1 N).
    apply N.div_le_lower_bound; [exact Z|]. rewrite N.mul_comm. lia.
  - assert (D := N.mul_div_le (e + pn) _ Z). fold most in D.
    destruct (N.eq_dec most 0) as [M|M].
    + exists [], (vm_start e). split; [apply run_nil|]. split; [reflexivity|]. rewrite M. reflexivity.
    + set (n := N.to_nat (most - 1)). destruct (returning_ok i n) as (A & B & C).
      assert (NN : N.of_nat n = most - 1) by (unfold n; apply N2Nat.id). rewrite NN in B, C.
      destruct (proj2 (pf_C94_exact e 0 (returning i n))) as (s & R & U).
      * split; [exact A|]. rewrite C, N.min_0_l, N.mul_0_r, N.add_0_r.
        replace most with (most - 1 + 1) in D by lia. rewrite N.mul_add_distr_l in D.
        rewrite (N.mul_comm (most - 1)). lia.
      * exists (returning i n), s. split; [exact R|]. split; [lia|]. rewrite B. lia.
Qed.

(** The instructions of a transaction: at most as many L1 messages as the circuit takes and the
    pubdata of a block holds, and that many can be sent. *)
Lemma pf_C94_messages :
  (forall l s, vm_run (vm_start MAX_TX_ERGS_LIMIT) l s -> unpaid s = 0 ->
     times (Op_Log LogOpcode_ToL1Message) l <= 512 /\
     times (Op_Log LogOpcode_ToL1Message) l * L1_MESSAGE_PUBDATA_BYTES <= MAX_PUBDATA_PER_BLOCK) /\
  (exists l s, vm_run (vm_start MAX_TX_ERGS_LIMIT) l s /\ unpaid s = 0 /\
     times (Op_Log LogOpcode_ToL1Message) l = 512).
Proof.
  destruct (pf_C94_times (Op_Log LogOpcode_ToL1Message)) with (e := MAX_TX_ERGS_LIMIT) as [A B];
    [discriminate|discriminate|].
  change (MAX_TX_ERGS_LIMIT / Opcode_ergs_price (Op_Log LogOpcode_ToL1Message)) with 512 in *.
  split; [|exact B]. intros l s R U. specialize (A l s R U). split; [exact A|].
  unfold L1_MESSAGE_PUBDATA_BYTES, MAX_PUBDATA_PER_BLOCK. clear - A. lia.
Qed.

(** Expected: the storage writes of a transaction fit the pubdata of a block.  False: prices of
    instructions do not bound it, even for writes of existing slots. *)
Lemma pf_C94_writes_refuted :
  ~ (forall l s, vm_run (vm_start MAX_TX_ERGS_LIMIT) l s -> unpaid s = 0 ->
       times (Op_Log LogOpcode_StorageWrite) l * REPEATED_STORAGE_WRITE_PUBDATA_BYTES
       <= MAX_PUBDATA_PER_BLOCK) /\
  exists l s, vm_run (vm_start MAX_TX_ERGS_LIMIT) l s /\ unpaid s = 0 /\
    times (Op_Log LogOpcode_StorageWrite) l = 22850.
Proof.
  destruct (pf_C94_times (Op_Log LogOpcode_StorageWrite)) with (e := MAX_TX_ERGS_LIMIT) as [_ B];
    [discriminate|discriminate|].
  change (MAX_TX_ERGS_LIMIT / Opcode_ergs_price (Op_Log LogOpcode_StorageWrite)) with 22850 in *.
  split; [|exact B]. intros H. destruct B as (l & s & R & U & T). specialize (H l s R U).
  rewrite T in H. apply H. reflexivity.
Qed.

(** A far call that panics, a near call and a return: 193 ergs pay for it if the near call is on the
    system's account, and 218 if not; at 10 ergs for every instruction it
    is 30. *)
Example pf_C94_example :
  let l := [Some (Op_FarCall FarCallOpcode_Normal); None; Some (Op_NearCall nearCallOpcode);
            Some (Op_Ret RetOpcode_Ok); Some (Op_Add AddOpcode_Add)] in
  nested 1 l /\ ~ nested 1 [None; Some (Op_Add AddOpcode_Add)] /\
  (forall e, (exists s, vm_run (vm_start e) l s /\ unpaid s = 0) <-> 218 <= e) /\
  (forall e, (exists s, vm_run (vm_start e) l s /\ unpaid s <= 1) <-> 193 <= e) /\
  (forall e, (exists s, paying_run (fun _ => 10) (vm_start e) l s /\ unpaid s <= 1) <-> 30 <= e).
Proof.
  intros l. split; [exact I|]. split; [intros H; exact H|]. split; [|split]; intros e.
  - assert (X := pf_C94_exact e 0 l). rewrite N.min_0_l, N.mul_0_r, N.add_0_r in X.
    change (total_price l) with 218 in X. split.
    + intros (s & R & U). apply X. exists s. split; [exact R|lia].
    + intros L. destruct (proj2 X (conj I L)) as (s & R & U). exists s. split; [exact R|lia].
  - assert (X := pf_C94_exact e 1 l). change (total_price l) with 218 in X.
    change (Opcode_ergs_price (Op_NearCall nearCallOpcode) * N.min 1 (near_calls l)) with 25 in X. split.
    + intros H. apply X in H. lia.
    + intros L. apply X. split; [exact I|lia].
  - assert (X := pf_C94_prices (fun _ => 10) e 1 l). cbv beta in X.
    change (total_at (fun _ => 10) l) with 40 in X.
    change (10 * N.min 1 (near_calls l)) with 10 in X. split.
    + intros H. apply X in H. lia.
    + intros L. apply X. split; [exact I|lia].
Qed.
