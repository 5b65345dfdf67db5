(** * Proofs about decommitment rounds and collisions of code hashes. *)

From Coq Require Import Arith NArith Lia ZArith List Bool String.
From Verif Require Import Machine Operands OpcodeTrait Opcodes AllOpcodes Tables Decoding Abi
  VersionedHash Constants PricingGen SpecIsa SpecCodec SpecAbi SpecPricing SpecGenerator Sha256
  SpecSha SpecRounds.
From Coq Require Import ZifyBool ZifyNat ZifyN.
From Verif Require Import BitLemmas TableProofs CodecProofs CodecProofs2 ProofsAbi ProofsRelayout
  ProofsSha.
Import ListNotations.
Open Scope N_scope.

(** ** Blocks of a bytecode *)

Fixpoint pairs (ws : list (list N)) (pad : list N) : list (list N) :=
  match ws with
  | a :: b :: r => (a ++ b) :: pairs r pad
  | [a] => [a ++ pad]
  | [] => [pad]
  end.

Lemma pairs_ind (P : list (list N) -> Prop) :
  P [] -> (forall a, P [a]) -> (forall a b r, P r -> P (a :: b :: r)) -> forall ws, P ws.
Proof.
  intros H0 H1 H2 ws. assert (K : P ws /\ forall a, P (a :: ws)); [|apply K].
  induction ws as [|b r [IH1 IH2]]; [auto|]. split; [apply IH2|]. intros a. apply H2, IH1.
Qed.

Lemma pairs_concat ws pad : List.concat (pairs ws pad) = List.concat ws ++ pad.
Proof.
  revert ws. apply pairs_ind; cbn [pairs List.concat].
  - apply app_nil_r.
  - intros a. rewrite !app_nil_r. reflexivity.
  - intros a b r ->. rewrite !app_assoc. reflexivity.
Qed.

Lemma pairs_length ws pad : List.length (pairs ws pad) = S (List.length ws / 2).
Proof.
  revert ws. apply pairs_ind; [reflexivity|reflexivity|].
  intros a b r IH. cbn [pairs List.length]. rewrite IH. f_equal.
  replace (S (S (List.length r))) with (List.length r + 1 * 2)%nat by lia.
  rewrite Nat.div_add by lia. lia.
Qed.

Lemma pairs_widths ws pad : Forall (fun w => List.length w = 32%nat) ws ->
  (N.odd (len ws) = true -> List.length pad = 32%nat) ->
  (N.odd (len ws) = false -> List.length pad = 64%nat) ->
  Forall (fun b => List.length b = 64%nat) (pairs ws pad).
Proof.
  revert ws. apply (pairs_ind (fun ws => Forall (fun w => List.length w = 32%nat) ws ->
    (N.odd (len ws) = true -> List.length pad = 32%nat) ->
    (N.odd (len ws) = false -> List.length pad = 64%nat) ->
    Forall (fun b => List.length b = 64%nat) (pairs ws pad))).
  - intros _ _ H. constructor; [apply H; reflexivity|constructor].
  - intros a F H _. inversion F; subst. constructor; [|constructor].
    rewrite app_length, (H eq_refl). lia.
  - intros a b r IH F H H'. inversion F as [|? ? Ha F']; subst. inversion F' as [|? ? Hb F'']; subst.
    cbn [pairs]. constructor; [rewrite app_length; lia|].
    assert (O : N.odd (len (a :: b :: r)) = N.odd (len r)).
    { unfold len. cbn [List.length]. rewrite !Nat2N.inj_succ, N.odd_succ_succ. reflexivity. }
    rewrite O in H, H'. apply IH; assumption.
Qed.

Lemma pairs_code ws pad j : (2 * j + 1 < List.length ws)%nat -> code_block ws (pairs ws pad) j.
Proof.
  revert j. revert ws. apply (pairs_ind (fun ws => forall j, (2 * j + 1 < List.length ws)%nat ->
    code_block ws (pairs ws pad) j)).
  - intros j H. cbn in H. lia.
  - intros a j H. cbn in H. lia.
  - intros a b r IH [|j] H.
    + exists a, b. repeat split.
    + cbn [List.length] in H. destruct (IH j ltac:(lia)) as (w & w' & A & B & C).
      exists w, w'. replace (2 * S j)%nat with (S (S (2 * j))) by lia. cbn [nth_error pairs Nat.add].
      auto.
Qed.

Lemma pairs_last ws pad : nth_error (pairs ws pad) (List.length (pairs ws pad) - 1)
  = Some ((if N.odd (len ws) then last ws [] else []) ++ pad).
Proof.
  revert ws. apply pairs_ind; [reflexivity|reflexivity|].
  intros a b r IH.
  assert (O : N.odd (len (a :: b :: r)) = N.odd (len r)).
  { unfold len. cbn [List.length]. rewrite !Nat2N.inj_succ, N.odd_succ_succ. reflexivity. }
  rewrite O. cbn [pairs List.length]. rewrite pairs_length in *.
  replace (S (S (List.length r / 2)) - 1)%nat with (S (S (List.length r / 2) - 1)) by lia.
  cbn [nth_error]. rewrite IH. destruct (N.odd (len r)) eqn:E; [|reflexivity].
  destruct r; [discriminate E|reflexivity].
Qed.

Lemma concat_len (ws : list (list N)) : Forall (fun w => List.length w = 32%nat) ws ->
  len (List.concat ws) = 32 * len ws.
Proof. intros F. unfold len. rewrite (concat_length_k 32) by exact F. lia. Qed.

Lemma odd_half n : exists m, n = (2 * m + (if N.odd (N.of_nat n) then 1 else 0))%nat.
Proof.
  rewrite <- N.bit0_odd. exists (n / 2)%nat.
  assert (D := Nat.div_mod n 2 ltac:(lia)). rewrite D at 1. f_equal.
  rewrite N.bit0_odd. destruct (N.odd (N.of_nat n)) eqn:E.
  - apply N.odd_spec in E as [k E]. lia.
  - assert (V : N.even (N.of_nat n) = true) by (rewrite <- N.negb_odd, E; reflexivity).
    apply N.even_spec in V as [k V]. lia.
Qed.

Lemma blocks_pairs ws blocks : Forall (byte_array 32) ws -> len ws < 2 ^ 56 ->
  spec_blocks (List.concat ws) blocks ->
  exists z l, blocks = pairs ws ([128] ++ repeat 0 z ++ l) /\ byte_array 8 l /\
    be_value l = 256 * len ws /\ z = (if N.odd (len ws) then 23 else 55)%nat.
Proof.
  intros F B (Fb & z & l & Hz & [Ll Bl] & Vl & E). exists z, l.
  assert (F' := arrays_length 32 ws F). assert (Fb' := arrays_length 64 blocks Fb).
  rewrite (concat_len ws F') in Vl.
  assert (Z : z = (if N.odd (len ws) then 23 else 55)%nat).
  { assert (L := f_equal (@List.length N) E).
    rewrite (concat_length_k 64) in L by exact Fb'.
    rewrite !app_length, repeat_length, Ll, (concat_length_k 32) in L by exact F'.
    cbn [List.length] in L. destruct (odd_half (List.length ws)) as [m M].
    unfold len. destruct (N.odd (N.of_nat (List.length ws))); lia. }
  split; [|split; [split; assumption|split; [|exact Z]]].
  - apply (concat_inj_n 64); [lia|exact Fb'| |].
    + apply pairs_widths; [exact F'| |]; intros O; rewrite O in Z;
        rewrite !app_length, repeat_length, Ll, Z; reflexivity.
    + rewrite pairs_concat. exact E.
  - rewrite Vl. replace (8 * (32 * len ws)) with (256 * len ws) by lia. apply N.mod_small.
    change (2 ^ 64) with (256 * 2 ^ 56). apply N.mul_lt_mono_pos_l; [lia|exact B].
Qed.

(** ** C88 *)

(** The blocks of a bytecode.  For an odd number of words all blocks hold code: two words each,
    and the last word with all of the padding.  For an even number the last block would hold no
    code. *)
Lemma pf_C88_blocks :
  forall ws blocks, Forall (byte_array 32) ws -> len ws < 2 ^ 56 ->
    spec_blocks (List.concat ws) blocks ->
    (forall j, (2 * j + 1 < List.length ws)%nat -> code_block ws blocks j) /\
    (N.odd (len ws) = true ->
       2 * len blocks = len ws + 1 /\ last_block blocks (last ws []) 23 (len ws)) /\
    (N.even (len ws) = true ->
       2 * len blocks = len ws + 2 /\ last_block blocks [] 55 (len ws)).
Proof.
  intros ws blocks F B H. destruct (blocks_pairs ws blocks F B H) as (z & l & -> & Al & Vl & Z).
  set (pad := [128] ++ repeat 0 z ++ l) in *.
  split; [intros j; apply pairs_code|].
  assert (L := pairs_length ws pad). assert (K := pairs_last ws pad).
  destruct (odd_half (List.length ws)) as [m M].
  assert (D : (List.length ws / 2 = m)%nat).
  { rewrite M. destruct (N.odd (N.of_nat (List.length ws)));
      [rewrite Nat.add_comm, Nat.mul_comm, Nat.div_add by lia; reflexivity
      |rewrite Nat.add_0_r, Nat.mul_comm; apply Nat.div_mul; lia]. }
  split; intros O.
  - rewrite O in K, Z. unfold len in O. rewrite O in M. split.
    + unfold len. rewrite L, D. lia.
    + exists l. split; [exact Al|]. split; [exact Vl|]. rewrite K. unfold pad. rewrite Z. reflexivity.
  - assert (O' : N.odd (len ws) = false) by (rewrite <- N.negb_even, O; reflexivity).
    rewrite O' in K, Z. unfold len in O'. rewrite O' in M. split.
    + unfold len. rewrite L, D. lia.
    + exists l. split; [exact Al|]. split; [exact Vl|]. rewrite K. unfold pad. rewrite Z. reflexivity.
Qed.

Lemma rounds_count ws blocks : rounds ws blocks -> 2 * len blocks = len ws + 1.
Proof.
  intros ((F & O & L) & H).
  destruct (pf_C88_blocks ws blocks F ltac:(lia) H) as (_ & K & _). apply K, O.
Qed.

Lemma totals codes blocks : Forall2 rounds codes blocks ->
  2 * total blocks = total codes + len codes.
Proof.
  induction 1 as [|ws bs codes blocks H _ IH]; [reflexivity|].
  unfold total in *. cbn [fold_right]. apply rounds_count in H.
  replace (len (ws :: codes)) with (1 + len codes) by (unfold len; cbn [List.length]; lia). lia.
Qed.

(** What the charges pay for, with prices derived from any capacities: all rounds but half a
    round of each bytecode, and all rounds if no bytecode is too short. *)
Lemma pf_C88_paid :
  forall P v, prices P v -> forall codes blocks, Forall2 rounds codes blocks ->
    let p := v "CODE_DECOMMITMENT_COST_PER_WORD_IN_ERGS"%string in
    let paid := cycles_per_code_decommitter P * (p * total codes) in
    2 * (ergs_per_circuit P * total blocks) <= 2 * paid + ergs_per_circuit P * len codes /\
    ((forall ws, In ws codes ->
        ergs_per_circuit P * (len ws + 1) <= 2 * cycles_per_code_decommitter P * (p * len ws)) ->
     ergs_per_circuit P * total blocks <= paid).
Proof.
  intros P v (M & _) codes blocks H p paid.
  destruct (M "CODE_DECOMMITMENT_COST_PER_WORD_IN_ERGS"%string (2 * cycles_per_code_decommitter P))
    as [C _]; [cbn; tauto|]. fold p in C.
  assert (T := totals codes blocks H). split.
  - unfold paid. replace (2 * (ergs_per_circuit P * total blocks))
      with (ergs_per_circuit P * (total codes + len codes)) by (rewrite <- T; lia). nia.
  - intros G.
    assert (K : ergs_per_circuit P * (total codes + len codes)
                <= 2 * cycles_per_code_decommitter P * (p * total codes)).
    { clear T paid. revert blocks H. induction codes as [|ws codes IH]; intros blocks H.
      - cbn. lia.
      - inversion H as [|? ? ? bs _ H']; subst.
        specialize (IH (fun ws' I => G ws' (or_intror I)) bs H').
        assert (Gw := G ws (or_introl eq_refl)). unfold total in *. cbn [fold_right].
        replace (len (ws :: codes)) with (1 + len codes) by (unfold len; cbn [List.length]; lia).
        nia. }
    unfold paid. rewrite <- T in K. nia.
Qed.

(** With the shipped constants exactly the bytecodes of at least five words pay for their rounds,
    and executions that decommit only such bytecodes for all circuits they fill. *)
Lemma pf_C88_current :
  (forall ws blocks, rounds ws blocks ->
     (ERGS_PER_CIRCUIT * len blocks
      <= CYCLES_PER_CODE_DECOMMITTER * (ERGS_PER_CODE_WORD_DECOMMITTMENT * len ws)
      <-> 5 <= len ws)) /\
  (forall codes blocks, Forall2 rounds codes blocks -> (forall ws, In ws codes -> 5 <= len ws) ->
     ERGS_PER_CIRCUIT * (total blocks / CYCLES_PER_CODE_DECOMMITTER)
     <= ERGS_PER_CODE_WORD_DECOMMITTMENT * total codes).
Proof.
  unfold ERGS_PER_CIRCUIT, CYCLES_PER_CODE_DECOMMITTER, ERGS_PER_CODE_WORD_DECOMMITTMENT,
    CODE_DECOMMITMENT_COST_PER_WORD_IN_ERGS. split.
  - intros ws blocks H. apply rounds_count in H. split; intros K; lia.
  - intros codes blocks H G. assert (T := totals codes blocks H).
    assert (S : 5 * len codes <= total codes).
    { clear T H. induction codes as [|ws codes IH]; [reflexivity|].
      assert (I := G ws (or_introl eq_refl)).
      specialize (IH (fun ws' I' => G ws' (or_intror I'))).
      unfold total in *. cbn [fold_right].
      replace (len (ws :: codes)) with (1 + len codes) by (unfold len; cbn [List.length]; lia). lia. }
    assert (D := N.mul_div_le (total blocks) 12100 ltac:(lia)). lia.
Qed.

(** Distinct bytecodes of one word. *)
Definition short_codes : list (list (list N)) :=
  map (fun i => [to_be_bytes 32 (N.of_nat i)]) (seq 0 (N.to_nat CYCLES_PER_CODE_DECOMMITTER)).

Lemma short_accepted i : accepted [to_be_bytes 32 i].
Proof.
  split; [constructor; [split; [apply be_length|apply be_bytes]|constructor]|].
  split; [reflexivity|]. cbn. lia.
Qed.

Lemma map_distinct {A B} (f : A -> B) l :
  (forall a b, In a l -> In b l -> f a = f b -> a = b) -> NoDup l -> NoDup (map f l).
Proof.
  intros H D. induction D as [|x l Hx D IH]; cbn [map]; constructor.
  - intros I. apply in_map_iff in I as (y & E & I). apply Hx.
    rewrite <- (H y x (or_intror I) (or_introl eq_refl) E). exact I.
  - apply IH. intros a b Ia Ib. apply H; right; assumption.
Qed.

Lemma short_distinct : NoDup short_codes.
Proof.
  unfold short_codes. apply map_distinct; [|apply seq_NoDup].
  intros a b Ha Hb E. apply in_seq in Ha. apply in_seq in Hb.
  assert (E' : to_be_bytes 32 (N.of_nat a) = to_be_bytes 32 (N.of_nat b)) by congruence.
  apply (f_equal be_value) in E'. rewrite !be_value_be in E'.
  unfold CYCLES_PER_CODE_DECOMMITTER in *.
  assert (L : 12100 < 256 ^ N.of_nat 32) by reflexivity.
  rewrite !N.mod_small in E' by lia. lia.
Qed.

Lemma short_rounds : exists blocks, Forall2 rounds short_codes blocks.
Proof.
  exists (map (fun ws => padded_blocks (List.concat ws)) short_codes).
  assert (G : forall codes, Forall accepted codes ->
            Forall2 rounds codes (map (fun ws => padded_blocks (List.concat ws)) codes)).
  { induction 1 as [|ws codes H _ IH]; cbn [map]; constructor; [|exact IH].
    split; [exact H|]. apply padded_spec, Forall_concat. destruct H as [F _].
    revert F. apply Forall_impl. intros w K. apply K. }
  apply G. unfold short_codes. apply Forall_forall. intros ws H.
  apply in_map_iff in H as (i & <- & _). apply short_accepted.
Qed.

(** Expected: every execution pays for the decommitter circuits it fills.  12100 bytecodes of one
    word fill one that costs 80000 ergs, and are charged 48400. *)
Lemma pf_C88_unpaid_refuted :
  ~ (forall codes blocks, NoDup codes -> Forall2 rounds codes blocks ->
       ERGS_PER_CIRCUIT * (total blocks / CYCLES_PER_CODE_DECOMMITTER)
       <= ERGS_PER_CODE_WORD_DECOMMITTMENT * total codes).
Proof.
  intros H. destruct short_rounds as [blocks R]. specialize (H _ blocks short_distinct R).
  assert (T := totals _ blocks R).
  assert (L : len short_codes = CYCLES_PER_CODE_DECOMMITTER).
  { unfold len, short_codes. rewrite map_length, seq_length. apply N2Nat.id. }
  assert (S : total short_codes = CYCLES_PER_CODE_DECOMMITTER).
  { rewrite <- L. unfold short_codes. generalize (seq 0 (N.to_nat CYCLES_PER_CODE_DECOMMITTER)).
    induction l as [|x l IH]; [reflexivity|]. unfold total in *. cbn [map fold_right]. rewrite IH.
    clear. unfold len. cbn [List.length]. lia. }
  rewrite S in *. rewrite L in T.
  assert (B : total blocks = CYCLES_PER_CODE_DECOMMITTER) by (clear - T; lia). rewrite B in H.
  rewrite N.div_same in H by discriminate. vm_compute in H. apply H. reflexivity.
Qed.

(** Accepted bytecodes of one and of five words. *)
Example pf_C88_example :
  (exists blocks, rounds [to_be_bytes 32 7] blocks /\ len blocks = 1) /\
  (exists blocks, rounds (repeat (to_be_bytes 32 7) 5) blocks /\ len blocks = 3 /\
     code_block (repeat (to_be_bytes 32 7) 5) blocks 1).
Proof.
  assert (A : accepted (repeat (to_be_bytes 32 7) 5)).
  { split; [|split; [reflexivity|cbn; lia]]. apply Forall_forall. intros x Hx.
    apply repeat_spec in Hx. subst x. split; [apply be_length|apply be_bytes]. }
  assert (G : forall ws, accepted ws -> rounds ws (padded_blocks (List.concat ws))).
  { intros ws H. split; [exact H|]. apply padded_spec, Forall_concat. destruct H as [F _].
    revert F. apply Forall_impl. intros w K. apply K. }
  split.
  - eexists. split; [apply G, short_accepted|].
    assert (C := rounds_count _ _ (G _ (short_accepted 7))).
    change (len [to_be_bytes 32 7]) with 1 in C. lia.
  - eexists. split; [apply G, A|]. assert (R := G _ A). split.
    + assert (C := rounds_count _ _ R). change (len (repeat (to_be_bytes 32 7) 5)) with 5 in C. lia.
    + destruct R as [(F & _) R].
      destruct (pf_C88_blocks _ _ F ltac:(vm_compute; reflexivity) R) as (K & _). apply K.
      cbn. lia.
Qed.

(** ** C89 *)

Definition run (s : ShaState) (bs : list (list N)) : ShaState := fold_left compress bs s.

Lemma state_dec (s s' : ShaState) : {s = s'} + {s <> s'}.
Proof. decide equality; apply N.eq_dec. Qed.

Lemma pair_dec (a b : ShaState * list N) : {a = b} + {a <> b}.
Proof. decide equality; [apply list_eq_dec, N.eq_dec|apply state_dec]. Qed.

(** The place of a collision of two runs of the same length. *)
Lemma full_collision s bs : forall bs', List.length bs = List.length bs' ->
  run s bs = run s bs' -> bs = bs' \/
  exists i b b', nth_error bs i = Some b /\ nth_error bs' i = Some b' /\
    (run s (firstn i bs), b) <> (run s (firstn i bs'), b') /\
    compress (run s (firstn i bs)) b = compress (run s (firstn i bs')) b'.
Proof.
  induction bs as [|b bs IH] using rev_ind; intros bs' L E.
  - destruct bs'; [left; reflexivity|discriminate L].
  - destruct bs' as [|b' bs' _] using rev_ind.
    + rewrite app_length in L. cbn in L. lia.
    + rewrite !app_length in L. cbn [List.length] in L. assert (L' : List.length bs = List.length bs') by lia.
      unfold run in E. rewrite !fold_left_app in E. cbn [fold_left] in E. fold (run s bs) (run s bs') in E.
      destruct (pair_dec (run s bs, b) (run s bs', b')) as [P|P].
      * injection P as P1 P2. destruct (IH bs' L' P1) as [K|(i & c & c' & A & B & C & D)].
        -- left. congruence.
        -- right. exists i, c, c'.
           assert (Hi : (i < List.length bs)%nat) by (apply nth_error_Some; congruence).
           rewrite !nth_error_app1 by lia. rewrite !firstn_app.
           replace (i - List.length bs)%nat with 0%nat by lia.
           replace (i - List.length bs')%nat with 0%nat by lia.
           rewrite !firstn_O, !app_nil_r. auto.
      * right. exists (List.length bs), b, b'.
        rewrite nth_error_app2, Nat.sub_diag by lia. split; [reflexivity|].
        rewrite nth_error_app2 by lia. replace (List.length bs - List.length bs')%nat with 0%nat by lia.
        split; [reflexivity|]. rewrite !firstn_app, Nat.sub_diag.
        replace (List.length bs - List.length bs')%nat with 0%nat by lia.
        rewrite !firstn_O, !app_nil_r, !firstn_all2 by lia. auto.
Qed.

Lemma tail_collision s bs bs' : List.length bs = List.length bs' ->
  skipn 1 (state_words (run s bs)) = skipn 1 (state_words (run s bs')) -> bs = bs' \/
  exists i b b', nth_error bs i = Some b /\ nth_error bs' i = Some b' /\
    (run s (firstn i bs), b) <> (run s (firstn i bs'), b') /\
    skipn 1 (state_words (compress (run s (firstn i bs)) b))
    = skipn 1 (state_words (compress (run s (firstn i bs')) b')) /\
    ((i + 1 < List.length bs)%nat ->
     compress (run s (firstn i bs)) b = compress (run s (firstn i bs')) b').
Proof.
  intros L E. destruct bs as [|b0 bs0 _] using rev_ind.
  - destruct bs'; [left; reflexivity|discriminate L].
  - destruct bs' as [|b' bs' _] using rev_ind; [rewrite app_length in L; cbn in L; lia|].
    rewrite !app_length in L. cbn [List.length] in L.
    assert (L' : List.length bs0 = List.length bs') by lia.
    unfold run in E. rewrite !fold_left_app in E. cbn [fold_left] in E.
    fold (run s bs0) (run s bs') in E.
    destruct (pair_dec (run s bs0, b0) (run s bs', b')) as [P|P].
    + injection P as P1 P2.
      destruct (full_collision s bs0 bs' L' P1) as [K|(i & c & c' & A & B & C & D)].
      * left. congruence.
      * right. exists i, c, c'.
        assert (Hi : (i < List.length bs0)%nat) by (apply nth_error_Some; congruence).
        rewrite !nth_error_app1 by lia. rewrite !firstn_app.
        replace (i - List.length bs0)%nat with 0%nat by lia.
        replace (i - List.length bs')%nat with 0%nat by lia.
        rewrite !firstn_O, !app_nil_r. rewrite D. auto.
    + right. exists (List.length bs0), b0, b'.
      rewrite nth_error_app2, Nat.sub_diag by lia. split; [reflexivity|].
      rewrite nth_error_app2 by lia. replace (List.length bs0 - List.length bs')%nat with 0%nat by lia.
      split; [reflexivity|]. rewrite !firstn_app, Nat.sub_diag.
      replace (List.length bs0 - List.length bs')%nat with 0%nat by lia.
      rewrite !firstn_O, !app_nil_r, !firstn_all2 by lia. split; [exact P|]. split; [exact E|].
      rewrite app_length. cbn [List.length]. lia.
Qed.

Lemma run_ok bs s : state_ok s -> state_ok (run s bs).
Proof.
  unfold run. revert s. induction bs as [|b bs IH]; intros s H; [exact H|].
  cbn [fold_left]. apply IH, compress_ok.
Qed.

(** Two accepted bytecodes with the same code hash have the same length, and are the same or show
    a collision in one compression step. *)
Lemma pf_C89_collision :
  forall ws ws' blocks blocks' h, rounds ws blocks -> rounds ws' blocks' ->
    code_hash_for_mode EncodingModeProduction ws = Ok (Some h) ->
    code_hash_for_mode EncodingModeProduction ws' = Ok (Some h) ->
    len ws = len ws' /\ (ws = ws' \/ exists i, collides_at i blocks blocks').
Proof.
  intros ws ws' blocks blocks' h [(F & O & L) R] [(F' & O' & L') R'] H H'.
  destruct pf_C87_code_hash as (D & _ & C). rewrite C in H, H'.
  destruct (pf_C47_hash sha256 ws D ltac:(lia)) as [_ K].
  destruct (pf_C47_hash sha256 ws' D ltac:(lia)) as [_ K'].
  destruct (K O L) as [K1 _]. destruct (K' O' L') as [K1' _].
  unfold bytecode_to_code_hash in K1, K1'. rewrite H in K1. rewrite H' in K1'.
  assert (E : hash_bytes 0 (len ws) (skipn 4 (sha256 (List.concat ws)))
              = hash_bytes 0 (len ws') (skipn 4 (sha256 (List.concat ws')))) by congruence.
  unfold hash_bytes in E. cbn [app] in E.
  assert (E1 : len ws / 256 = len ws' / 256) by congruence.
  assert (E2 : len ws mod 256 = len ws' mod 256) by congruence.
  assert (E3 : skipn 4 (sha256 (List.concat ws)) = skipn 4 (sha256 (List.concat ws'))) by congruence.
  assert (El : len ws = len ws').
  { rewrite (N.div_mod (len ws) 256), (N.div_mod (len ws') 256), E1, E2 by lia. reflexivity. }
  split; [exact El|].
  assert (Bw : is_bytes (List.concat ws)).
  { apply Forall_concat. revert F. apply Forall_impl. intros w Hw. apply Hw. }
  assert (Bw' : is_bytes (List.concat ws')).
  { apply Forall_concat. revert F'. apply Forall_impl. intros w Hw. apply Hw. }
  assert (Rc := rounds_count ws blocks (conj (conj F (conj O L)) R)).
  assert (Rc' := rounds_count ws' blocks' (conj (conj F' (conj O' L')) R')).
  assert (Fb : Forall (byte_array 64) blocks) by apply R.
  assert (Fb' : Forall (byte_array 64) blocks') by apply R'.
  assert (Eb := blocks_unique _ _ Bw R). assert (Eb' := blocks_unique _ _ Bw' R').
  assert (Tl : skipn 1 (state_words (run sha_initial blocks))
               = skipn 1 (state_words (run sha_initial blocks'))).
  { rewrite !sha256_eq in E3. rewrite Eb, Eb'. unfold run.
    fold (final_state (List.concat ws)) (final_state (List.concat ws')).
    assert (S1 := final_ok (List.concat ws)). assert (S2 := final_ok (List.concat ws')).
    set (s := final_state (List.concat ws)) in *. set (s' := final_state (List.concat ws')) in *.
    assert (G : forall i, (1 <= i < 8)%nat -> nth i (state_words s) 0 = nth i (state_words s') 0).
    { intros i Hi. rewrite <- !digest_slice by (assumption || lia).
      replace (4 * i)%nat with (4 * (i - 1) + 4)%nat by lia. rewrite <- !skipn_skipn, E3. reflexivity. }
    cbn [state_words skipn].
    assert (G1 := G 1%nat ltac:(lia)). assert (G2 := G 2%nat ltac:(lia)).
    assert (G3 := G 3%nat ltac:(lia)). assert (G4 := G 4%nat ltac:(lia)).
    assert (G5 := G 5%nat ltac:(lia)). assert (G6 := G 6%nat ltac:(lia)).
    assert (G7 := G 7%nat ltac:(lia)). cbn [state_words nth] in G1, G2, G3, G4, G5, G6, G7.
    congruence. }
  destruct (tail_collision sha_initial blocks blocks') as [K2|(i & b & b' & A1 & A2 & A3 & A4 & A5)].
  - unfold len in *. lia.
  - exact Tl.
  - left. destruct (blocks_pairs ws blocks F ltac:(lia) R) as (z & l & P & [Ll _] & _ & Z).
    destruct (blocks_pairs ws' blocks' F' ltac:(lia) R') as (z' & l' & P' & [Ll' _] & _ & Z').
    assert (Q : List.concat ws ++ [128] ++ repeat 0 z ++ l
                = List.concat ws' ++ [128] ++ repeat 0 z' ++ l').
    { rewrite <- !pairs_concat, <- P, <- P', K2. reflexivity. }
    apply (concat_inj_n 32); [lia|apply arrays_length, F|apply arrays_length, F'|].
    assert (Q' := f_equal (firstn (List.length (List.concat ws))) Q).
    rewrite !firstn_app, Nat.sub_diag, firstn_O, app_nil_r, firstn_all in Q'.
    assert (Lc : List.length (List.concat ws) = List.length (List.concat ws')).
    { rewrite !(concat_length_k 32) by (apply arrays_length; assumption). unfold len in El. lia. }
    rewrite Lc, Nat.sub_diag, firstn_O, app_nil_r, firstn_all in Q'. exact Q'.
  - right. exists i, sha_initial, (run sha_initial (firstn i blocks)),
      (run sha_initial (firstn i blocks')), b, b',
      (compress (run sha_initial (firstn i blocks)) b),
      (compress (run sha_initial (firstn i blocks')) b').
    assert (Fi : Forall (byte_array 64) (firstn i blocks)).
    { rewrite <- (firstn_skipn i blocks) in Fb. apply Forall_app in Fb. apply Fb. }
    assert (Fi' : Forall (byte_array 64) (firstn i blocks')).
    { rewrite <- (firstn_skipn i blocks') in Fb'. apply Forall_app in Fb'. apply Fb'. }
    assert (Bb := proj1 (Forall_forall _ _) Fb b (nth_error_In _ _ A1)).
    assert (Bb' := proj1 (Forall_forall _ _) Fb' b' (nth_error_In _ _ A2)).
    split; [exact square_constants|].
    split; [apply chained_iff; [exact initial_ok|exact Fi|reflexivity]|].
    split; [apply chained_iff; [exact initial_ok|exact Fi'|reflexivity]|].
    split; [exact A1|]. split; [exact A2|]. split; [exact A3|].
    split; [apply compress_spec; [apply run_ok, initial_ok|apply Bb]|].
    split; [apply compress_spec; [apply run_ok, initial_ok|apply Bb']|].
    split; [exact A4|exact A5].
Qed.

(** Conversely the code hash of a bytecode depends on its words only through the chain: two
    accepted bytecodes of the same length with the same state after some block and the same blocks
    after it have the same code hash. *)
Lemma pf_C89_converse :
  forall ws ws' blocks blocks' s0 s i, rounds ws blocks -> rounds ws' blocks' ->
    len ws = len ws' -> spec_initial s0 ->
    chained s0 (firstn i blocks) s -> chained s0 (firstn i blocks') s ->
    skipn i blocks = skipn i blocks' ->
    code_hash_for_mode EncodingModeProduction ws = code_hash_for_mode EncodingModeProduction ws'.
Proof.
  intros ws ws' blocks blocks' s0 s i [(F & O & L) R] [(F' & O' & L') R'] El I C1 C2 T.
  apply initial_unique in I. subst s0.
  assert (Bw : is_bytes (List.concat ws)).
  { apply Forall_concat. revert F. apply Forall_impl. intros w Hw. apply Hw. }
  assert (Bw' : is_bytes (List.concat ws')).
  { apply Forall_concat. revert F'. apply Forall_impl. intros w Hw. apply Hw. }
  assert (Fb : Forall (byte_array 64) blocks) by apply R.
  assert (Fb' : Forall (byte_array 64) blocks') by apply R'.
  assert (Fi : Forall (byte_array 64) (firstn i blocks)).
  { rewrite <- (firstn_skipn i blocks) in Fb. apply Forall_app in Fb. apply Fb. }
  assert (Fi' : Forall (byte_array 64) (firstn i blocks')).
  { rewrite <- (firstn_skipn i blocks') in Fb'. apply Forall_app in Fb'. apply Fb'. }
  apply chained_iff in C1; [|exact initial_ok|exact Fi].
  apply chained_iff in C2; [|exact initial_ok|exact Fi'].
  assert (S : final_state (List.concat ws) = final_state (List.concat ws')).
  { unfold final_state. rewrite <- (blocks_unique _ _ Bw R), <- (blocks_unique _ _ Bw' R').
    rewrite <- (firstn_skipn i blocks), <- (firstn_skipn i blocks'), !fold_left_app, C1, C2, T.
    reflexivity. }
  destruct pf_C87_code_hash as (D & _ & C). rewrite !C.
  destruct (pf_C47_hash sha256 ws D ltac:(lia)) as [_ K].
  destruct (pf_C47_hash sha256 ws' D ltac:(lia)) as [_ K'].
  destruct (K O L) as [K1 _]. destruct (K' O' L') as [K1' _].
  unfold bytecode_to_code_hash in K1, K1'. rewrite K1, K1', !sha256_eq, S, El. reflexivity.
Qed.

(** Two bytecodes with different hashes. *)
Example pf_C89_example :
  accepted [to_be_bytes 32 7] /\ accepted [to_be_bytes 32 8] /\
  exists h h', code_hash_for_mode EncodingModeProduction [to_be_bytes 32 7] = Ok (Some h) /\
    code_hash_for_mode EncodingModeProduction [to_be_bytes 32 8] = Ok (Some h') /\ h <> h'.
Proof.
  split; [apply short_accepted|]. split; [apply short_accepted|].
  destruct pf_C87_code_hash as (D & _ & C). rewrite !C.
  destruct (pf_C47_hash sha256 [to_be_bytes 32 7] D ltac:(vm_compute; reflexivity)) as [_ K].
  destruct (pf_C47_hash sha256 [to_be_bytes 32 8] D ltac:(vm_compute; reflexivity)) as [_ K'].
  destruct (K eq_refl ltac:(vm_compute; discriminate)) as [K1 _].
  destruct (K' eq_refl ltac:(vm_compute; discriminate)) as [K1' _].
  eexists. eexists. split; [exact K1|]. split; [exact K1'|]. vm_compute. discriminate.
Qed.
