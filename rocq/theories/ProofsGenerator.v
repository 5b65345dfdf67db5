(** * Proofs about the price generator for arbitrary capacities (C74). *)

From Coq Require Import Arith NArith Lia ZArith List Bool String Ascii.
From Coq Require Import ZifyBool ZifyNat ZifyN.
From Verif Require Import Machine Constants PricingGen SpecPricing SpecDisplay SpecGenerator.
From Coq Require Import Decimal DecimalFacts DecimalN DecimalString.
Import ListNotations.
Open Scope N_scope.

(** ** Decimal numerals *)

Lemma numeral_uint d acc :
  numeral 10 (Npos acc) (NilEmpty.string_of_uint d) = Some (Npos (Pos.of_uint_acc d acc)).
Proof.
  revert acc. induction d as [|d IH|d IH|d IH|d IH|d IH|d IH|d IH|d IH|d IH|d IH]; intros acc;
    [reflexivity|..]; cbn [NilEmpty.string_of_uint Pos.of_uint_acc numeral];
    match goal with |- context [digit_value ?c] =>
      let x := eval vm_compute in (digit_value c) in change (digit_value c) with x end;
    cbv iota beta; cbn [N.ltb N.compare Pos.compare Pos.compare_cont];
    rewrite <- IH; f_equal; lia.
Qed.

Lemma numeral_uint_0 d : numeral 10 0 (NilEmpty.string_of_uint d) = Some (N.of_uint d).
Proof.
  induction d as [|d IH|d IH|d IH|d IH|d IH|d IH|d IH|d IH|d IH|d IH]; [reflexivity|exact IH|..];
    exact (numeral_uint d _).
Qed.

Lemma fmt_decimal n : decimal_text n (fmt_u32 n).
Proof.
  unfold fmt_u32.
  assert (V := DecimalN.Unsigned.of_to n).
  assert (U := DecimalN.Unsigned.to_of (N.to_uint n)). rewrite V in U.
  set (d := N.to_uint n) in *. clearbody d. subst n.
  assert (Z : forall e, match nzhead e with D0 _ => False | _ => True end).
  { induction e; cbn; auto. }
  specialize (Z d). unfold unorm in U.
  destruct (nzhead d) eqn:E; try contradiction; rewrite U;
    (split; [exact (numeral_uint_0 _)|split; [discriminate|intros H; cbn in H; try discriminate H]]).
  reflexivity.
Qed.

(** ** Division *)

Lemma ceil_ok bld a b : 0 < b -> a + b < 2 ^ 32 -> ceil_div bld a b = Ok ((a + b - 1) / b).
Proof.
  intros B S. unfold ceil_div, add_w. replace (a + b <? 2 ^ 32) with true by lia. cbn [bind].
  unfold sub_w. replace (1 <=? a + b) with true by lia. cbn [bind].
  unfold div_w. replace (b =? 0) with false by lia. reflexivity.
Qed.

Lemma ceil_debug a b q : ceil_div Debug a b = Ok q -> 0 < b /\ a + b < 2 ^ 32.
Proof.
  unfold ceil_div, add_w, sub_w, div_w.
  destruct (a + b <? 2 ^ 32) eqn:E; cbn [bind]; [|discriminate].
  destruct (1 <=? a + b); cbn [bind]; [|discriminate].
  destruct (b =? 0) eqn:F; [discriminate|lia].
Qed.

Lemma ceil_release_zero a : ceil_div Release a 0 = Panic.
Proof.
  unfold ceil_div, add_w, sub_w, div_w.
  destruct (a + 0 <? 2 ^ 32); cbn [bind].
  - destruct (1 <=? a + 0); reflexivity.
  - destruct (1 <=? wrapping_add_w 32 a 0); reflexivity.
Qed.

Lemma ceil_release_ok a b : b <> 0 -> exists q, ceil_div Release a b = Ok q.
Proof.
  intros B. unfold ceil_div, add_w, sub_w, div_w. replace (b =? 0) with false by lia.
  destruct (a + b <? 2 ^ 32); cbn [bind].
  - destruct (1 <=? a + b); cbn [bind]; eauto.
  - destruct (1 <=? wrapping_add_w 32 a b); cbn [bind]; eauto.
Qed.

Lemma ceiling a b : 0 < b -> ceiling_of a b ((a + b - 1) / b).
Proof.
  intros B. split.
  - assert (D := N.div_mod (a + b - 1) b ltac:(lia)).
    assert (M := N.mod_lt (a + b - 1) b ltac:(lia)). lia.
  - intros q' H. apply N.lt_succ_r. apply N.div_lt_upper_bound; lia.
Qed.

Lemma ceiling_unique a b q q' : ceiling_of a b q -> ceiling_of a b q' -> q = q'.
Proof. intros [A1 A2] [B1 B2]. specialize (A2 q' B1). specialize (B2 q A1). lia. Qed.

Lemma append_assoc (a b c : string) : ((a ++ b) ++ c = a ++ (b ++ c))%string.
Proof. induction a as [|x a IH]; [reflexivity|]. cbn. rewrite IH. reflexivity. Qed.

Lemma constant_line n x :
  ergs_constant n x = line ("pub const " ++ n ++ ": u32 = " ++ fmt_u32 x ++ ";").
Proof.
  unfold ergs_constant, line. rewrite !append_assoc. reflexivity.
Qed.

Lemma bind_inv A B (x : res A) (f : A -> res B) y :
  bind x f = Ok y -> exists a, x = Ok a /\ f a = Ok y.
Proof. destruct x as [a|]; [eauto|discriminate]. Qed.

(** ** C74 *)

(** The file for any parameters whose prices can be computed, in both builds. *)
Lemma pf_C74_text :
  forall P, typed_parameters P -> computable (narrowed P) ->
    exists (v : string -> N) (t : string -> string),
      prices (narrowed P) v /\
      (forall n, In n (price_names P) -> v n < 2 ^ 32 /\ decimal_text (v n) (t n)) /\
      (forall bld, generator_main_at P bld = Ok ("src/circuit_prices.rs"%string, price_file t)).
Proof.
  intros P T C.
  destruct P as [c1 c2 c3 c4 c5 c6 c7 c8 c9 c10 c11 l1 l2 l3 e b1 mp mt b2].
  destruct C as (Cm & (Cl & Cl') & Ch).
  unfold metered, pubdata_hashers, narrowed in Cm, Ch.
  cbn [cycles_per_vm_snapshot cycles_per_ram_permutation cycles_per_code_decommitter
    cycles_per_storage_application cycles_per_keccak256_circuit cycles_per_sha256_circuit
    cycles_per_ecrecover_circuit cycles_for_code_decommitter_sorter cycles_for_log_demuxer
    cycles_for_storage_sorter cycles_for_events_or_l1_messages_sorter
    limit_for_l1_messages_merklizer limit_for_initial_writes_pubdata_hasher
    limit_for_repeated_writes_pubdata_hasher ergs_per_circuit initial_storage_write_pubdata_bytes
    max_pubdata_per_block max_tx_ergs_limit repeated_storage_write_pubdata_bytes narrowed]
    in Cm, Cl, Cl', Ch.
  assert (M1 := Cm _ _ (or_introl eq_refl)).
  assert (M2 := Cm _ _ (or_intror (or_introl eq_refl))).
  assert (M3 := Cm _ _ (or_intror (or_intror (or_introl eq_refl)))).
  assert (M4 := Cm _ _ (or_intror (or_intror (or_intror (or_introl eq_refl))))).
  assert (M8 := Cm _ _ (or_intror (or_intror (or_intror (or_intror (or_introl eq_refl)))))).
  assert (M9 : 0 < c9 /\ e + c9 < 2 ^ 32) by (eapply Cm; do 5 right; left; reflexivity).
  assert (M10 : 0 < c10 /\ e + c10 < 2 ^ 32) by (eapply Cm; do 6 right; left; reflexivity).
  assert (M11 : 0 < c11 /\ e + c11 < 2 ^ 32) by (eapply Cm; do 7 right; left; reflexivity).
  assert (M12 : 0 < l2 /\ e + l2 < 2 ^ 32) by (eapply Cm; do 8 right; left; reflexivity).
  assert (M13 : 0 < l3 /\ e + l3 < 2 ^ 32) by (eapply Cm; do 9 right; left; reflexivity).
  assert (M5 : 0 < c5 /\ e + c5 < 2 ^ 32) by (eapply Cm; do 11 right; left; reflexivity).
  assert (M6 : 0 < c6 /\ e + c6 < 2 ^ 32) by (eapply Cm; do 12 right; left; reflexivity).
  assert (M7 : 0 < c7 /\ e + c7 < 2 ^ 32) by (eapply Cm; do 13 right; left; reflexivity).
  assert (H1 := Ch _ _ _ (or_introl eq_refl)).
  assert (H2 := Ch _ _ _ (or_intror (or_introl eq_refl))).
  clear Cm Ch.
  assert (floor : forall l b, 0 < l -> l * b < 2 ^ 32 /\ (l * b < mp -> mt + l < 2 ^ 32) ->
    exists f, (forall bld, (if mp <=? l * b then Ok 0 else ceil_div bld mt l) = Ok f) /\
      f < 2 ^ 32 /\ ((mp <= l * b /\ f = 0) \/ (l * b < mp /\ ceiling_of mt l f))).
  { intros l b L [A B]. destruct (mp <=? l * b) eqn:E.
    - exists 0. split; [reflexivity|]. split; [reflexivity|]. left. lia.
    - exists ((mt + l - 1) / l). split; [intros bld; apply ceil_ok; lia|]. split.
      + apply N.div_lt_upper_bound; [lia|]. assert (mt + l < 2 ^ 32) by lia. nia.
      + right. split; [lia|apply ceiling, L]. }
  destruct (floor l2 (b1 mod 2 ^ 32) (proj1 M12) H1) as (f1 & F1 & F1b & F1s).
  destruct (floor l3 (b2 mod 2 ^ 32) (proj1 M13) H2) as (f2 & F2 & F2b & F2s).
  clear floor.
  assert (price : forall a c, 0 < c /\ a + c < 2 ^ 32 -> exists q,
    (forall bld, ceil_div bld a c = Ok q) /\ q < 2 ^ 32 /\ ceiling_of a c q).
  { intros a c [A B]. exists ((a + c - 1) / c). split; [intros bld; apply ceil_ok; lia|]. split.
    - apply N.div_lt_upper_bound; [lia|]. nia.
    - apply ceiling, A. }
  destruct (price e c1 M1) as (q1 & Q1 & Q1b & Q1s).
  destruct (price e c2 M2) as (q2 & Q2 & Q2b & Q2s).
  destruct (price e (2 * c3) M3) as (q3 & Q3 & Q3b & Q3s).
  destruct (price e c4 M4) as (q4 & Q4 & Q4b & Q4s).
  destruct (price e c5 M5) as (q5 & Q5 & Q5b & Q5s).
  destruct (price e c6 M6) as (q6 & Q6 & Q6b & Q6s).
  destruct (price e c7 M7) as (q7 & Q7 & Q7b & Q7s).
  destruct (price e c8 M8) as (q8 & Q8 & Q8b & Q8s).
  destruct (price e c9 M9) as (q9 & Q9 & Q9b & Q9s).
  destruct (price e c10 M10) as (q10 & Q10 & Q10b & Q10s).
  destruct (price e c11 M11) as (q11 & Q11 & Q11b & Q11s).
  destruct (price e l2 M12) as (q12 & Q12 & Q12b & Q12s).
  destruct (price e l3 M13) as (q13 & Q13 & Q13b & Q13s).
  destruct (price mt l1 (conj Cl Cl')) as (q14 & Q14 & Q14b & Q14s).
  clear price.
  set (table := [ ("VM_CYCLE_COST_IN_ERGS", q1); ("RAM_PERMUTATION_COST_IN_ERGS", q2);
    ("CODE_DECOMMITMENT_COST_PER_WORD_IN_ERGS", q3); ("STORAGE_APPLICATION_COST_IN_ERGS", q4);
    ("CODE_DECOMMITTER_SORTER_COST_IN_ERGS", q8); ("LOG_DEMUXER_COST_IN_ERGS", q9);
    ("STORAGE_SORTER_COST_IN_ERGS", q10); ("EVENTS_OR_L1_MESSAGES_SORTER_COST_IN_ERGS", q11);
    ("INITIAL_WRITES_PUBDATA_HASHER_COST_IN_ERGS", q12);
    ("REPEATED_WRITES_PUBDATA_HASHER_COST_IN_ERGS", q13);
    ("CODE_DECOMMITMENT_SORTER_COST_IN_ERGS", q8); ("KECCAK256_CIRCUIT_COST_IN_ERGS", q5);
    ("SHA256_CIRCUIT_COST_IN_ERGS", q6); ("ECRECOVER_CIRCUIT_COST_IN_ERGS", q7);
    ("INITIAL_WRITES_PUBDATA_HASHER_MIN_COST_IN_ERGS", f1);
    ("REPEATED_WRITES_PUBDATA_HASHER_MIN_COST_IN_ERGS", f2);
    (L1_floor, q14); (write_floor, N.max f1 f2) ]%string).
  set (v := fun n => match find (fun x => String.eqb n (fst x)) table with
                     | Some x => snd x | None => 0 end).
  exists v, (fun n => fmt_u32 (v n)). split; [|split].
  - unfold prices, metered, pubdata_hashers, narrowed.
    cbn [cycles_per_vm_snapshot cycles_per_ram_permutation cycles_per_code_decommitter
      cycles_per_storage_application cycles_per_keccak256_circuit cycles_per_sha256_circuit
      cycles_per_ecrecover_circuit cycles_for_code_decommitter_sorter cycles_for_log_demuxer
      cycles_for_storage_sorter cycles_for_events_or_l1_messages_sorter
      limit_for_l1_messages_merklizer limit_for_initial_writes_pubdata_hasher
      limit_for_repeated_writes_pubdata_hasher ergs_per_circuit
      initial_storage_write_pubdata_bytes max_pubdata_per_block max_tx_ergs_limit
      repeated_storage_write_pubdata_bytes].
    assert (W : v write_floor = N.max f1 f2) by reflexivity.
    assert (W1 : v "INITIAL_WRITES_PUBDATA_HASHER_MIN_COST_IN_ERGS"%string = f1) by reflexivity.
    assert (W2 : v "REPEATED_WRITES_PUBDATA_HASHER_MIN_COST_IN_ERGS"%string = f2) by reflexivity.
    split; [|split; [|split; [|split]]].
    + intros n c H. cbn [In] in H.
      repeat (destruct H as [H|H]; [injection H as <- <-; assumption|]). destruct H.
    + assumption.
    + intros n l b H. cbn [In] in H.
      destruct H as [H|[H|[]]]; injection H as <- <- <-; [rewrite W1|rewrite W2]; assumption.
    + destruct (N.le_ge_cases f1 f2) as [L|L].
      * eexists _, _. split; [right; left; reflexivity|]. rewrite W, W2. lia.
      * eexists _, _. split; [left; reflexivity|]. rewrite W, W1. lia.
    + intros n p H. cbn [In] in H.
      destruct H as [H|[H|[]]]; injection H as <- <-; [rewrite W, W1|rewrite W, W2]; lia.
  - intros n H. split; [|apply fmt_decimal].
    unfold price_names, metered, pubdata_hashers in H. cbn [map List.app fst In] in H.
    repeat (destruct H as [<-|H]; [try assumption|]); [|destruct H].
    change (v write_floor) with (N.max f1 f2). lia.
  - intros bld. unfold generator_main_at.
    cbn [cycles_per_vm_snapshot cycles_per_ram_permutation cycles_per_code_decommitter
      cycles_per_storage_application cycles_per_keccak256_circuit cycles_per_sha256_circuit
      cycles_per_ecrecover_circuit cycles_for_code_decommitter_sorter cycles_for_log_demuxer
      cycles_for_storage_sorter cycles_for_events_or_l1_messages_sorter
      limit_for_l1_messages_merklizer limit_for_initial_writes_pubdata_hasher
      limit_for_repeated_writes_pubdata_hasher ergs_per_circuit
      initial_storage_write_pubdata_bytes max_pubdata_per_block max_tx_ergs_limit
      repeated_storage_write_pubdata_bytes].
    unfold mul_w, as_u32.
    replace (l2 * (b1 mod 2 ^ 32) <? 2 ^ 32) with true by (symmetry; apply N.ltb_lt, H1).
    cbn [bind]. rewrite F1. cbn [bind].
    replace (l3 * (b2 mod 2 ^ 32) <? 2 ^ 32) with true by (symmetry; apply N.ltb_lt, H2).
    cbn [bind]. rewrite F2. cbn [bind]. rewrite Q1, Q2. cbn [bind].
    replace (2 * c3 <? 2 ^ 32) with true by (symmetry; apply N.ltb_lt; lia).
    cbn [bind]. rewrite Q3, Q4, Q8, Q9, Q10, Q11, Q12, Q13, Q14, Q5, Q6, Q7. cbn [bind].
    f_equal. unfold save_circiut_prices, concat_strings. cbn [String.concat]. f_equal.
    rewrite !constant_line. reflexivity.
Qed.

(** When the run panics: in a checked build exactly when the prices cannot be computed, in an
    unchecked one exactly when a capacity is zero as a [u32]. *)
Lemma pf_C74_panics :
  forall P, typed_parameters P ->
    (generator_main_at P Debug = Panic <-> ~ computable (narrowed P)) /\
    (generator_main_at P Release = Panic <->
       limit_for_l1_messages_merklizer P = 0 \/
       exists n c, In (n, c) (metered P) /\ c mod 2 ^ 32 = 0).
Proof.
  intros P T. split.
  - split.
    + intros E C. destruct (pf_C74_text P T C) as (v & t & _ & _ & H).
      rewrite H in E. discriminate.
    + intros N. destruct (generator_main_at P Debug) as [r|] eqn:E; [|reflexivity].
      exfalso. apply N. clear N.
      unfold generator_main_at in E.
      repeat match type of E with bind ?x _ = Ok _ =>
        let a := fresh "a" in let A := fresh "A" in apply bind_inv in E as (a & A & E) end.
      clear E.
      repeat match goal with A : ceil_div Debug _ _ = Ok _ |- _ => apply ceil_debug in A end.
      unfold mul_w, as_u32 in *.
      repeat match goal with A : (if ?x * ?y <? 2 ^ 32 then _ else Panic) = Ok _ |- _ =>
        let F := fresh "F" in destruct (x * y <? 2 ^ 32) eqn:F; [injection A as <-|discriminate A] end.
      unfold computable, metered, pubdata_hashers, narrowed.
      cbn [cycles_per_vm_snapshot cycles_per_ram_permutation cycles_per_code_decommitter
        cycles_per_storage_application cycles_per_keccak256_circuit cycles_per_sha256_circuit
        cycles_per_ecrecover_circuit cycles_for_code_decommitter_sorter cycles_for_log_demuxer
        cycles_for_storage_sorter cycles_for_events_or_l1_messages_sorter
        limit_for_l1_messages_merklizer limit_for_initial_writes_pubdata_hasher
        limit_for_repeated_writes_pubdata_hasher ergs_per_circuit
        initial_storage_write_pubdata_bytes max_pubdata_per_block max_tx_ergs_limit
        repeated_storage_write_pubdata_bytes].
      split; [|split; [assumption|]].
      * intros n c H. cbn [In] in H.
        repeat (destruct H as [H|H]; [injection H as <- <-; assumption|]). destruct H.
      * intros n l b H. cbn [In] in H.
        destruct H as [H|[H|[]]]; injection H as <- <- <-; (split; [lia|]); intros L;
        match goal with A : (if max_pubdata_per_block P <=? ?x then _ else _) = Ok _ |- _ =>
          match x with context [limit_for_initial_writes_pubdata_hasher P] => idtac end;
          lazymatch type of L with context [limit_for_initial_writes_pubdata_hasher P] =>
            replace (max_pubdata_per_block P <=? x) with false in A by lia;
            apply ceil_debug in A; lia end
        | A : (if max_pubdata_per_block P <=? ?x then _ else _) = Ok _ |- _ =>
          match x with context [limit_for_repeated_writes_pubdata_hasher P] => idtac end;
          replace (max_pubdata_per_block P <=? x) with false in A by lia;
          apply ceil_debug in A; lia end.
  - assert (Z : forall a b q, ceil_div Release a b = Ok q -> b <> 0).
    { intros a b q H ->. rewrite ceil_release_zero in H. discriminate. }
    assert (F : forall a b l, exists q,
      (if a <=? b then Ok 0 else ceil_div Release (max_tx_ergs_limit P) l) = Ok q \/ l = 0).
    { intros a b l. destruct (a <=? b); [exists 0; left; reflexivity|].
      destruct (N.eq_dec l 0) as [E|E]; [exists 0; right; exact E|].
      destruct (ceil_release_ok (max_tx_ergs_limit P) l E) as (q & H). exists q. left. exact H. }
    destruct T as (T & _). unfold metered.
    destruct P as [c1 c2 c3 c4 c5 c6 c7 c8 c9 c10 c11 l1 l2 l3 e b1 mp mt b2].
    unfold generator_main_at.
    cbn [cycles_per_vm_snapshot cycles_per_ram_permutation cycles_per_code_decommitter
      cycles_per_storage_application cycles_per_keccak256_circuit cycles_per_sha256_circuit
      cycles_per_ecrecover_circuit cycles_for_code_decommitter_sorter cycles_for_log_demuxer
      cycles_for_storage_sorter cycles_for_events_or_l1_messages_sorter
      limit_for_l1_messages_merklizer limit_for_initial_writes_pubdata_hasher
      limit_for_repeated_writes_pubdata_hasher ergs_per_circuit
      initial_storage_write_pubdata_bytes max_pubdata_per_block max_tx_ergs_limit
      repeated_storage_write_pubdata_bytes] in *.
    repeat match goal with H : Forall _ (_ :: _) |- _ => inversion_clear H end.
    assert (MR : forall a b, mul_w Release 32 a b = Ok (a * b mod 2 ^ 32)).
    { intros a b. unfold mul_w. destruct (a * b <? 2 ^ 32) eqn:E; [|reflexivity].
      rewrite N.mod_small by lia. reflexivity. }
    rewrite !MR. cbn [bind].
    split.
    + intros E.
      destruct (N.eq_dec l1 0) as [L|L]; [left; exact L|right].
      repeat match goal with |- context [(?s, ?c)] =>
        lazymatch c with context [l1] => fail | _ => idtac end;
        lazymatch goal with H : c mod 2 ^ 32 <> 0 |- _ => fail | _ => idtac end;
        destruct (N.eq_dec (c mod 2 ^ 32) 0) as [?|?];
        [exists s, c; split; [cbn [In]; tauto|assumption]|] end.
      exfalso.
      repeat match goal with H : ?c mod 2 ^ 32 <> 0, B : ?c < 2 ^ 32 |- _ =>
        rewrite (N.mod_small c _ B) in H end.
      assert (G : forall l, l <> 0 -> forall x y f, (forall q : N, f q <> Panic (A := string * string)) ->
        bind (if x <=? y then Ok 0 else ceil_div Release mt l) f <> Panic).
      { intros l Hl x y f Hf. destruct (F x y l) as (q & [K|K]); [rewrite K; exact (Hf q)|lia]. }
      assert (K : forall a b, b <> 0 -> forall f, (forall q : N, f q <> Panic (A := string * string)) ->
        bind (ceil_div Release a b) f <> Panic).
      { intros a b Hb f Hf. destruct (ceil_release_ok a b Hb) as (q & ->). exact (Hf q). }
      revert E.
      repeat first [apply G; [assumption|intros ?] | apply K; [assumption|intros ?]].
      discriminate.
    + intros X. match goal with |- ?g = Panic => destruct g as [r|] eqn:E; [|reflexivity] end.
      exfalso.
      repeat match type of E with bind ?x _ = Ok _ =>
        let a := fresh "a" in let A := fresh "A" in apply bind_inv in E as (a & A & E) end.
      clear E.
      repeat match goal with A : ceil_div Release _ _ = Ok _ |- _ => apply Z in A end.
      destruct X as [X|(n & c & X & Y)]; [contradiction|].
      cbn [In] in X.
      repeat (destruct X as [X|X];
        [injection X as <- <-; try contradiction;
         rewrite N.mod_small in Y by assumption; contradiction|]).
      destruct X.
Qed.

(** The parameters determine the prices. *)
Lemma pf_C74_unique :
  forall P v w, prices P v -> prices P w -> forall n, In n (price_names P) -> v n = w n.
Proof.
  intros P v w (V1 & V2 & V3 & (vn & vp & V4 & V5) & V6) (W1 & W2 & W3 & (wn & wp & W4 & W5) & W6) n H.
  assert (A : forall m p, In (m, p) (pubdata_hashers P) -> v m = w m).
  { intros m [l b] I. destruct (V3 _ _ _ I) as [[X Y]|[X Y]], (W3 _ _ _ I) as [[X' Y']|[X' Y']];
      [congruence|lia|lia|exact (ceiling_unique _ _ _ _ Y Y')]. }
  unfold price_names in H. apply in_app_or in H as [H|H]; [|apply in_app_or in H as [H|H]].
  - apply in_map_iff in H as ([m c] & <- & I). exact (ceiling_unique _ _ _ _ (V1 _ _ I) (W1 _ _ I)).
  - apply in_map_iff in H as ([m p] & <- & I). exact (A _ _ I).
  - destruct H as [<-|[<-|[]]]; [exact (ceiling_unique _ _ _ _ V2 W2)|].
    assert (X := W6 _ _ V4). assert (Y := V6 _ _ W4).
    rewrite <- (A _ _ V4) in X. rewrite (A _ _ W4) in Y. lia.
Qed.

(** What the prices guarantee, if every circuit holds at least its stated capacity. *)
Lemma pf_C74_safety :
  forall P v, prices P v -> 0 < max_tx_ergs_limit P ->
    (forall n c, In (n, c) (metered P) ->
       forall p, (forall actual k, c <= actual -> ergs_per_circuit P * (k / actual) <= k * p)
                 <-> v n <= p) /\
    (forall k, k * v L1_floor <= max_tx_ergs_limit P -> k <= limit_for_l1_messages_merklizer P) /\
    (forall n l b, In (n, (l, b)) (pubdata_hashers P) -> 0 < b ->
       forall k, k * b <= max_pubdata_per_block P -> k * v write_floor <= max_tx_ergs_limit P ->
         k <= l).
Proof.
  intros P v (V1 & V2 & V3 & _ & V6) T. split; [|split].
  - intros n c I p. destruct (V1 _ _ I) as [A B]. split.
    + intros H. apply B. specialize (H c c ltac:(lia)).
      destruct (N.eq_dec c 0) as [->|C].
      * lia.
      * rewrite N.div_same in H by exact C. lia.
    + intros H actual k L. destruct (N.eq_dec actual 0) as [->|C].
      * assert (c = 0) by lia. subst c. assert (ergs_per_circuit P = 0) by lia. lia.
      * assert (D := N.mul_div_le k actual C).
        transitivity (v n * c * (k / actual)); [apply N.mul_le_mono_r, A|].
        transitivity (p * (actual * (k / actual))); [|nia].
        rewrite <- N.mul_assoc. apply N.mul_le_mono; [exact H|]. apply N.mul_le_mono_r, L.
  - intros k H. destruct V2 as [A _]. nia.
  - intros n l b I B k K1 K2. assert (W := V6 _ _ I).
    destruct (V3 _ _ _ I) as [[X Y]|[X [Y _]]].
    + apply (N.mul_le_mono_pos_r _ _ b B). lia.
    + assert (Z : 0 < v n) by (destruct (N.eq_dec (v n) 0) as [E|E]; [rewrite E in Y|]; lia).
      apply (N.mul_le_mono_pos_r _ _ (v n) Z).
      assert (k * v n <= k * v write_floor) by (apply N.mul_le_mono_l, W). lia.
Qed.

(** The current capacities qualify, and the prices they determine are the committed ones. *)
Lemma pf_C74_current :
  typed_parameters current_parameters /\ narrowed current_parameters = current_parameters /\
  computable current_parameters /\
  forall v, prices current_parameters v ->
    map v (price_names current_parameters)
    = [ VM_CYCLE_COST_IN_ERGS; RAM_PERMUTATION_COST_IN_ERGS;
        CODE_DECOMMITMENT_COST_PER_WORD_IN_ERGS; STORAGE_APPLICATION_COST_IN_ERGS;
        CODE_DECOMMITTER_SORTER_COST_IN_ERGS; LOG_DEMUXER_COST_IN_ERGS;
        STORAGE_SORTER_COST_IN_ERGS; EVENTS_OR_L1_MESSAGES_SORTER_COST_IN_ERGS;
        INITIAL_WRITES_PUBDATA_HASHER_COST_IN_ERGS; REPEATED_WRITES_PUBDATA_HASHER_COST_IN_ERGS;
        CODE_DECOMMITMENT_SORTER_COST_IN_ERGS; KECCAK256_CIRCUIT_COST_IN_ERGS;
        SHA256_CIRCUIT_COST_IN_ERGS; ECRECOVER_CIRCUIT_COST_IN_ERGS;
        INITIAL_WRITES_PUBDATA_HASHER_MIN_COST_IN_ERGS;
        REPEATED_WRITES_PUBDATA_HASHER_MIN_COST_IN_ERGS; L1_MESSAGE_MIN_COST_IN_ERGS;
        STORAGE_WRITE_HASHER_MIN_COST_IN_ERGS ].
Proof.
  split; [|split; [reflexivity|split]].
  - split; [repeat constructor|split; reflexivity].
  - split; [|split].
    + intros n c H. cbn [metered In current_parameters] in H.
      repeat (destruct H as [H|H]; [injection H as <- <-; split; reflexivity|]). destruct H.
    + split; reflexivity.
    + intros n l b H. cbn [pubdata_hashers In] in H.
      destruct H as [H|[H|[]]]; injection H as <- <- <-; (split; reflexivity).
  - intros v (V1 & V2 & V3 & (vn & vp & V4 & V5) & V6).
    assert (G : forall a b q x, 0 < b -> ceiling_of a b q -> (a + b - 1) / b = x -> q = x).
    { intros a b q x B C <-. exact (ceiling_unique _ _ _ _ C (ceiling a b B)). }
    assert (Z : forall n p, In (n, p) (pubdata_hashers current_parameters) -> v n = 0).
    { intros n [l b] I. destruct (V3 _ _ _ I) as [[_ X]|[X _]]; [exact X|].
      cbn [pubdata_hashers In] in I.
      destruct I as [I|[I|[]]]; injection I as <- <- <-; discriminate X. }
    unfold price_names, metered, pubdata_hashers. cbn [map List.app fst].
    repeat (apply f_equal2;
      [first [ eapply G; [|eapply V1; unfold metered; cbn [In]; tauto|]; reflexivity
             | eapply G; [|exact V2|]; reflexivity
             | eapply Z; unfold pubdata_hashers; cbn [In]; tauto
             | rewrite V5; exact (Z _ _ V4) ]|]).
    reflexivity.
Qed.

(** Capacities under which the pubdata limit does not protect one of the write hashers. *)
Example pf_C74_example :
  let P := mkCircuitParameters 20000 200000 10000 100 2000 10000 70 190000 100000 70000 80000 500
             2000 3000 80000 64 130000 80000000 40 in
  typed_parameters P /\ computable (narrowed P) /\
  (forall n, In n ["INITIAL_WRITES_PUBDATA_HASHER_MIN_COST_IN_ERGS"; write_floor]%string ->
     forall v, prices P v -> v n = 40000) /\
  generator_main_at
    (mkCircuitParameters 1 1 1 1 1 1 0 1 1 1 1 1 1 1 1 1 1 1 1) Release = Panic /\
  generator_main_at
    (mkCircuitParameters 1 1 1 1 1 1 1 1 1 1 1 1 1 1 (2 ^ 32 - 1) 1 1 1 1) Debug = Panic.
Proof.
  intros P. split; [|split; [|split; [|split; reflexivity]]].
  - split; [repeat constructor|split; reflexivity].
  - split; [|split].
    + intros n c H. cbn [metered In P narrowed] in H.
      repeat (destruct H as [H|H]; [injection H as <- <-; split; reflexivity|]). destruct H.
    + split; reflexivity.
    + intros n l b H. cbn [pubdata_hashers In] in H.
      destruct H as [H|[H|[]]]; injection H as <- <- <-; (split; reflexivity).
  - intros n H v (V1 & V2 & V3 & (vn & vp & V4 & V5) & V6).
    assert (I : v "INITIAL_WRITES_PUBDATA_HASHER_MIN_COST_IN_ERGS"%string = 40000).
    { destruct (V3 _ _ _ (or_introl eq_refl)) as [[X _]|[_ X]]; [exfalso; apply X; reflexivity|].
      exact (ceiling_unique _ _ _ _ X (ceiling 80000000 2000 eq_refl)). }
    assert (R : v "REPEATED_WRITES_PUBDATA_HASHER_MIN_COST_IN_ERGS"%string = 26667).
    { destruct (V3 _ _ _ (or_intror (or_introl eq_refl))) as [[X _]|[_ X]];
        [exfalso; apply X; reflexivity|].
      exact (ceiling_unique _ _ _ _ X (ceiling 80000000 3000 eq_refl)). }
    destruct H as [<-|[<-|[]]]; [exact I|].
    assert (B := V6 _ _ (or_introl eq_refl)). cbn [fst] in B. rewrite I in B.
    cbn [pubdata_hashers In] in V4.
    destruct V4 as [V4|[V4|[]]]; injection V4 as <- <-; lia.
Qed.
