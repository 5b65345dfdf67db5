(** * Proofs about SHA-256 as the code hash uses it. *)

From Coq Require Import Arith NArith Lia ZArith List Bool String.
From Verif Require Import Machine Operands OpcodeTrait Opcodes AllOpcodes Tables Decoding Abi
  VersionedHash Constants SpecIsa SpecCodec SpecAbi Sha256 SpecSha.
From Coq Require Import ZifyBool ZifyNat ZifyN.
From Verif Require Import BitLemmas TableProofs CodecProofs CodecProofs2 ProofsAbi ProofsRelayout.
Import ListNotations.
Open Scope N_scope.

(** ** Functions on words *)

Lemma of_bits_testbit n f i : N.testbit (of_bits n f) i = (i <? N.of_nat n) && f i.
Proof.
  revert f i. induction n as [|n IH]; intros f i.
  - cbn [of_bits]. rewrite N.bits_0. destruct (i <? N.of_nat 0) eqn:E; [lia|reflexivity].
  - cbn [of_bits]. rewrite N.add_comm. destruct (N.zero_or_succ i) as [->|[j ->]].
    + rewrite N.testbit_0_r. destruct (0 <? N.of_nat (S n)) eqn:E; [reflexivity|lia].
    + rewrite N.testbit_succ_r, IH. replace (j + 1) with (N.succ j) by lia.
      destruct (j <? N.of_nat n) eqn:E, (N.succ j <? N.of_nat (S n)) eqn:E'; try lia; reflexivity.
Qed.

Lemma above w k i : w < 2 ^ k -> k <= i -> N.testbit w i = false.
Proof.
  intros H L. rewrite <- (N.mod_small w (2 ^ k) H). apply N.mod_pow2_bits_high, L.
Qed.

Lemma of_bits_lt f : of_bits 32 f < 2 ^ 32.
Proof.
  apply bits_bound. intros i Hi. rewrite of_bits_testbit.
  destruct (i <? N.of_nat 32) eqn:E; [lia|reflexivity].
Qed.

Lemma of_bits_eq r f : r < 2 ^ 32 -> (forall i, i < 32 -> N.testbit r i = f i) ->
  r = of_bits 32 f.
Proof.
  intros H B. apply N.bits_inj. intros i. rewrite of_bits_testbit.
  destruct (N.lt_ge_cases i 32) as [L|L].
  - rewrite (B i L). destruct (i <? N.of_nat 32) eqn:E; [reflexivity|lia].
  - rewrite (above r 32 i H L). destruct (i <? N.of_nat 32) eqn:E; [lia|reflexivity].
Qed.

Lemma xor_lt a b : a < 2 ^ 32 -> b < 2 ^ 32 -> N.lxor a b < 2 ^ 32.
Proof.
  intros A B. apply bits_bound. intros i Hi. rewrite N.lxor_spec, (above a 32), (above b 32) by auto.
  reflexivity.
Qed.

Lemma and_lt a b : a < 2 ^ 32 -> N.land a b < 2 ^ 32.
Proof.
  intros A. apply bits_bound. intros i Hi. rewrite N.land_spec, (above a 32) by auto. reflexivity.
Qed.

Lemma shr_lt a n : a < 2 ^ 32 -> N.shiftr a n < 2 ^ 32.
Proof.
  intros A. apply bits_bound. intros i Hi. rewrite N.shiftr_spec', (above a 32) by lia. reflexivity.
Qed.

Lemma add32_lt a b : add32 a b < 2 ^ 32.
Proof. apply N.mod_lt, N.pow_nonzero. discriminate. Qed.

Lemma rotr_lt n x : x < 2 ^ 32 -> rotr n x < 2 ^ 32.
Proof.
  intros H. apply bits_bound. intros i Hi. unfold rotr.
  rewrite N.lor_spec, (above _ 32 i (shr_lt x n H) Hi). cbn [orb].
  apply (above _ 32); [apply N.mod_lt, N.pow_nonzero; discriminate|exact Hi].
Qed.

Lemma rotr_testbit n x i : x < 2 ^ 32 -> 0 < n -> n < 32 -> i < 32 ->
  N.testbit (rotr n x) i = rotated x n i.
Proof.
  intros Hx Hn Hn' Hi. unfold rotr, rotated, as_u32.
  rewrite N.lor_spec, N.shiftr_spec', N.mod_pow2_bits_low by exact Hi.
  destruct (N.lt_ge_cases (i + n) 32) as [L|L].
  - rewrite N.shiftl_spec_low by lia. rewrite N.mod_small by exact L. apply orb_false_r.
  - rewrite (above x 32) by assumption. rewrite N.shiftl_spec_high' by lia. cbn [orb].
    f_equal. replace (i + n) with (1 * 32 + (i + n - 32)) by lia.
    rewrite N.add_comm, N.mod_add, N.mod_small by lia. lia.
Qed.

Lemma rotations_eq p q r x : x < 2 ^ 32 -> 0 < p < 32 -> 0 < q < 32 -> 0 < r < 32 ->
  N.lxor (N.lxor (rotr p x) (rotr q x)) (rotr r x) = spec_rotations p q r x.
Proof.
  intros Hx Hp Hq Hr. apply of_bits_eq; [auto using xor_lt, rotr_lt|]. intros i Hi.
  rewrite !N.lxor_spec, !rotr_testbit by tauto. apply xorb_assoc.
Qed.

Lemma rotations_shift_eq p q k x : x < 2 ^ 32 -> 0 < p < 32 -> 0 < q < 32 ->
  N.lxor (N.lxor (rotr p x) (rotr q x)) (N.shiftr x k) = spec_rotations_shift p q k x.
Proof.
  intros Hx Hp Hq. apply of_bits_eq; [auto using xor_lt, rotr_lt, shr_lt|]. intros i Hi.
  rewrite !N.lxor_spec, !rotr_testbit, N.shiftr_spec' by tauto. apply xorb_assoc.
Qed.

Lemma Ch_eq x y z : x < 2 ^ 32 -> y < 2 ^ 32 -> z < 2 ^ 32 -> Ch x y z = spec_choose x y z.
Proof.
  intros Hx Hy Hz. unfold Ch. change (2 ^ 32 - 1) with (N.ones 32). apply of_bits_eq.
  - apply xor_lt; [apply and_lt, Hx|]. rewrite N.land_comm. apply and_lt, Hz.
  - intros i Hi. rewrite N.lxor_spec, !N.land_spec, N.lxor_spec, N.ones_spec_low by exact Hi.
    destruct (N.testbit x i), (N.testbit y i), (N.testbit z i); reflexivity.
Qed.

Lemma Maj_eq x y z : x < 2 ^ 32 -> y < 2 ^ 32 -> z < 2 ^ 32 -> Maj x y z = spec_majority x y z.
Proof.
  intros Hx Hy Hz. unfold Maj. apply of_bits_eq; [auto using xor_lt, and_lt|].
  intros i Hi. rewrite !N.lxor_spec, !N.land_spec.
  destruct (N.testbit x i), (N.testbit y i), (N.testbit z i); reflexivity.
Qed.

Lemma big0_eq x : x < 2 ^ 32 -> big_sigma0 x = spec_rotations 2 13 22 x.
Proof. intros H. apply rotations_eq; lia. Qed.
Lemma big1_eq x : x < 2 ^ 32 -> big_sigma1 x = spec_rotations 6 11 25 x.
Proof. intros H. apply rotations_eq; lia. Qed.
Lemma small0_eq x : x < 2 ^ 32 -> small_sigma0 x = spec_rotations_shift 7 18 3 x.
Proof. intros H. apply rotations_shift_eq; lia. Qed.
Lemma small1_eq x : x < 2 ^ 32 -> small_sigma1 x = spec_rotations_shift 17 19 10 x.
Proof. intros H. apply rotations_shift_eq; lia. Qed.

(** ** Constants *)

Lemma root_unique e c c' x : 0 < e -> c ^ e <= x -> x < (c + 1) ^ e -> c' ^ e <= x -> x < (c' + 1) ^ e ->
  c = c'.
Proof.
  intros He H1 H2 H3 H4.
  assert (forall a b, a ^ e < b ^ e -> a < b).
  { intros a b H. destruct (N.lt_ge_cases a b) as [L|L]; [exact L|].
    assert (b ^ e <= a ^ e) by (apply N.pow_le_mono_l, L). lia. }
  assert (c < c' + 1) by (apply H; lia). assert (c' < c + 1) by (apply H; lia). lia.
Qed.

Lemma cube_unique p k k' : cube_root_bits p k -> cube_root_bits p k' -> k = k'.
Proof.
  intros (L & n & A & B) (L' & n' & A' & B').
  assert (E := root_unique 3 _ _ _ ltac:(lia) A B A' B'). lia.
Qed.

Lemma square_unique p k k' : square_root_bits p k -> square_root_bits p k' -> k = k'.
Proof.
  intros (L & n & A & B) (L' & n' & A' & B').
  assert (E := root_unique 2 _ _ _ ltac:(lia) A B A' B'). lia.
Qed.

(** The whole part of the roots: below 7 for cubes, below 5 for squares. *)
Definition check_root (e : N) (p k : N) : bool :=
  (k <? 2 ^ 32) &&
  existsb (fun n => let c := n * 2 ^ 32 + k in
             (c ^ e <=? p * 2 ^ (32 * e)) && (p * 2 ^ (32 * e) <? (c + 1) ^ e))
          [1; 2; 3; 4; 5; 6].

Lemma check_cube p k : check_root 3 p k = true -> cube_root_bits p k.
Proof.
  intros K. unfold check_root in K.
  apply andb_true_iff in K as [K1 K2]. split; [apply N.ltb_lt, K1|].
  apply existsb_exists in K2 as (n & _ & K2). exists n. cbv zeta in K2 |- *.
  change (32 * 3) with 96 in K2. apply andb_true_iff in K2 as [K2 K3].
  apply N.leb_le in K2. apply N.ltb_lt in K3. split; assumption.
Qed.

Lemma check_square p k : check_root 2 p k = true -> square_root_bits p k.
Proof.
  intros K. unfold check_root in K.
  apply andb_true_iff in K as [K1 K2]. split; [apply N.ltb_lt, K1|].
  apply existsb_exists in K2 as (n & _ & K2). exists n. cbv zeta in K2 |- *.
  change (32 * 2) with 64 in K2. apply andb_true_iff in K2 as [K2 K3].
  apply N.leb_le in K2. apply N.ltb_lt in K3. split; assumption.
Qed.

Lemma forallb_combine (f : N -> N -> bool) (l l' : list N) t : List.length l = List.length l' ->
  forallb (fun x => f (fst x) (snd x)) (combine l l') = true -> (t < List.length l)%nat ->
  f (nth t l 0) (nth t l' 0) = true.
Proof.
  revert l' t. induction l as [|x l IH]; intros [|x' l'] t E H Ht; try discriminate E.
  - cbn in Ht. lia.
  - cbn [combine forallb fst snd] in H. apply andb_true_iff in H as [H1 H2].
    destruct t as [|t]; cbn [nth]; [exact H1|]. cbn in E, Ht. apply IH; [lia|exact H2|lia].
Qed.

Lemma constants_check :
  forallb (fun pk => check_root 3 (fst pk) (snd pk)) (combine spec_primes round_constants) = true /\
  forallb (fun pk => check_root 2 (fst pk) (snd pk))
    (combine (firstn 8 spec_primes) (state_words sha_initial)) = true /\
  List.length spec_primes = 64%nat /\ List.length round_constants = 64%nat.
Proof. repeat split; vm_compute; reflexivity. Qed.

Global Opaque spec_primes round_constants.

Lemma cube_constants t : (t < 64)%nat ->
  cube_root_bits (nth t spec_primes 0) (nth t round_constants 0).
Proof.
  intros H. destruct constants_check as (C & _ & L1 & L2). apply check_cube.
  apply (forallb_combine (check_root 3)); [congruence|exact C|rewrite L1; exact H].
Qed.

Lemma square_constants : spec_initial sha_initial.
Proof.
  intros t H. destruct constants_check as (_ & C & L1 & _).
  assert (N1 : nth t spec_primes 0 = nth t (firstn 8 spec_primes) 0).
  { rewrite <- (firstn_skipn 8 spec_primes) at 1. apply app_nth1. rewrite firstn_length, L1. lia. }
  rewrite N1. apply check_square. apply (forallb_combine (check_root 2)); [|exact C|].
  - rewrite firstn_length, L1. reflexivity.
  - rewrite firstn_length, L1. exact H.
Qed.

Lemma initial_unique s : spec_initial s -> s = sha_initial.
Proof.
  intros H. assert (forall i, (i < 8)%nat -> nth i (state_words s) 0 = nth i (state_words sha_initial) 0).
  { intros i Hi. exact (square_unique _ _ _ (H i Hi) (square_constants i Hi)). }
  destruct s as [a b c d e f g h]. unfold sha_initial.
  f_equal; [apply (H0 0%nat)|apply (H0 1%nat)|apply (H0 2%nat)|apply (H0 3%nat)|apply (H0 4%nat)
           |apply (H0 5%nat)|apply (H0 6%nat)|apply (H0 7%nat)]; lia.
Qed.

(** ** The message schedule *)

Lemma add4 a b c d : add32 (add32 a b) (add32 c d) = (a + b + c + d) mod 2 ^ 32.
Proof.
  unfold add32, as_u32. rewrite <- N.add_mod by (apply N.pow_nonzero; discriminate).
  f_equal. lia.
Qed.

Lemma from_be_eq l : from_be_bytes l = be_value l.
Proof.
  unfold from_be_bytes.
  assert (G : forall a, fold_left (fun acc b => acc * 256 + b) l a
              = a * 256 ^ N.of_nat (List.length l) + be_value l).
  { induction l as [|x l IH]; intros a; cbn [fold_left List.length be_value].
    - rewrite N.pow_0_r. lia.
    - rewrite IH. replace (N.of_nat (S (List.length l))) with (1 + N.of_nat (List.length l)) by lia.
      rewrite N.pow_add_r. change (256 ^ 1) with 256. lia. }
  rewrite G. lia.
Qed.

Lemma cut_length k n l : List.length (cut k n l) = n.
Proof. revert l. induction n as [|n IH]; intros l; cbn; [reflexivity|rewrite IH; reflexivity]. Qed.

Lemma cut_nth k n l i : (i < n)%nat -> nth i (cut k n l) [] = firstn k (skipn (k * i) l).
Proof.
  revert l i. induction n as [|n IH]; intros l i H; [lia|]. cbn [cut].
  destruct i as [|i]; cbn [nth].
  - rewrite Nat.mul_0_r. reflexivity.
  - rewrite IH by lia. rewrite skipn_skipn.
    replace (k * S i)%nat with (k * i + k)%nat by lia. reflexivity.
Qed.

Definition next_word (w14 w9 w1 w0 : N) : N :=
  add32 (add32 (small_sigma1 w14) w9) (add32 (small_sigma0 w1) w0).

Definition recurrent (l : list N) : Prop :=
  forall t, (t + 16 < List.length l)%nat ->
    nth (t + 16) (rev l) 0 = next_word (nth (t + 14) (rev l) 0) (nth (t + 9) (rev l) 0)
                               (nth (t + 1) (rev l) 0) (nth t (rev l) 0).

Lemma extend_spec n l : (16 <= List.length l)%nat -> recurrent l ->
  recurrent (extend_words n l) /\ List.length (extend_words n l) = (n + List.length l)%nat /\
  forall t, (t < List.length l)%nat -> nth t (rev (extend_words n l)) 0 = nth t (rev l) 0.
Proof.
  revert l. induction n as [|n IH]; intros l L R; cbn [extend_words].
  - auto.
  - change (add32 (add32 (small_sigma1 (nth 1 l 0)) (nth 6 l 0))
              (add32 (small_sigma0 (nth 14 l 0)) (nth 15 l 0)))
      with (next_word (nth 1 l 0) (nth 6 l 0) (nth 14 l 0) (nth 15 l 0)).
    set (x := next_word (nth 1 l 0) (nth 6 l 0) (nth 14 l 0) (nth 15 l 0)).
    destruct (IH (x :: l)) as (A & B & C).
    + cbn [List.length]. lia.
    + intros t Ht. cbn [List.length] in Ht. cbn [rev].
      destruct (Nat.eq_dec (t + 16) (List.length l)) as [E|E].
      * rewrite app_nth2 by (rewrite rev_length; lia). rewrite rev_length, E, Nat.sub_diag.
        cbn [nth]. rewrite !app_nth1 by (rewrite rev_length; lia). rewrite !rev_nth by lia.
        unfold x. rewrite <- E. repeat f_equal; lia.
      * rewrite !app_nth1 by (rewrite rev_length; lia). apply R. lia.
    + cbn [List.length] in B, C. split; [exact A|]. split; [lia|]. intros t Ht.
      rewrite C by lia. cbn [rev]. apply app_nth1. rewrite rev_length. exact Ht.
Qed.

Lemma schedule_length b : List.length (message_schedule b) = 64%nat.
Proof.
  unfold message_schedule. rewrite rev_length.
  assert (L : List.length (rev (map from_be_bytes (cut 4 16 b))) = 16%nat)
    by (rewrite rev_length, map_length; apply cut_length).
  destruct (extend_spec 48 (rev (map from_be_bytes (cut 4 16 b)))) as (_ & B & _).
  - lia.
  - intros t Ht. lia.
  - rewrite B, L. reflexivity.
Qed.

Lemma slice4_lt b t : is_bytes b -> be_value (firstn 4 (skipn (4 * t) b)) < 2 ^ 32.
Proof.
  intros H. assert (K := be_value_lt _ (bytes_firstn _ 4 (bytes_skipn _ (4 * t) H))).
  eapply N.lt_le_trans; [exact K|]. change (2 ^ 32) with (256 ^ 4).
  apply N.pow_le_mono_r; [lia|]. rewrite firstn_length. lia.
Qed.

Lemma schedule_spec b : is_bytes b ->
  spec_schedule b (fun t => nth t (message_schedule b) 0) /\
  forall t, nth t (message_schedule b) 0 < 2 ^ 32.
Proof.
  intros Hb.
  assert (L : List.length (rev (map from_be_bytes (cut 4 16 b))) = 16%nat)
    by (rewrite rev_length, map_length; apply cut_length).
  destruct (extend_spec 48 (rev (map from_be_bytes (cut 4 16 b)))) as (R & Le & F).
  { lia. } { intros t Ht. lia. }
  rewrite L in *.
  assert (First : forall t, (t < 16)%nat ->
            nth t (message_schedule b) 0 = be_value (firstn 4 (skipn (4 * t) b))).
  { intros t Ht. unfold message_schedule. rewrite F by exact Ht. rewrite rev_involutive.
    rewrite nth_indep with (d' := from_be_bytes []) by (rewrite map_length, cut_length; exact Ht).
    rewrite map_nth, cut_nth by exact Ht. apply from_be_eq. }
  assert (Next : forall t, (t < 48)%nat ->
            nth (t + 16) (message_schedule b) 0
            = next_word (nth (t + 14) (message_schedule b) 0) (nth (t + 9) (message_schedule b) 0)
                (nth (t + 1) (message_schedule b) 0) (nth t (message_schedule b) 0)).
  { intros t Ht. apply R. lia. }
  assert (T : forall t, nth t (message_schedule b) 0 < 2 ^ 32).
  { intros t. destruct (Nat.lt_ge_cases t 16) as [H|H].
    - rewrite First by exact H. apply slice4_lt, Hb.
    - destruct (Nat.lt_ge_cases t 64) as [H'|H'].
      + replace t with (t - 16 + 16)%nat by lia. rewrite Next by lia. apply add32_lt.
      + rewrite nth_overflow by (rewrite schedule_length; exact H').
        apply N.neq_0_lt_0, N.pow_nonzero. discriminate. }
  split; [|exact T]. split; [exact First|]. intros t Ht. cbv beta. rewrite Next by exact Ht.
  unfold next_word. rewrite add4, small0_eq, small1_eq by apply T. reflexivity.
Qed.

Lemma schedule_unique b W W' : spec_schedule b W -> spec_schedule b W' ->
  forall t, (t < 64)%nat -> W t = W' t.
Proof.
  intros [A B] [A' B'] t. induction t as [t IH] using lt_wf_ind. intros Ht.
  destruct (Nat.lt_ge_cases t 16) as [H|H].
  - rewrite A, A' by exact H. reflexivity.
  - replace t with (t - 16 + 16)%nat by lia. rewrite B, B' by lia.
    rewrite !(IH (t - 16 + 14)%nat), !(IH (t - 16 + 9)%nat), !(IH (t - 16 + 1)%nat),
      !(IH (t - 16)%nat) by lia. reflexivity.
Qed.

(** ** The rounds *)

Fixpoint nth_state (s : ShaState) (K W : nat -> N) (t : nat) : ShaState :=
  match t with
  | O => s
  | S t' => sha_round (nth_state s K W t') (K t', W t')
  end.

Lemma fold_rounds s (kws : list (N * N)) :
  fold_left sha_round kws s
  = nth_state s (fun t => fst (nth t kws (0, 0))) (fun t => snd (nth t kws (0, 0))) (List.length kws).
Proof.
  induction kws as [|kw kws IH] using rev_ind; [reflexivity|].
  rewrite fold_left_app, app_length, Nat.add_1_r. cbn [fold_left nth_state].
  rewrite app_nth2, Nat.sub_diag by lia. cbn [nth]. rewrite <- surjective_pairing, IH. f_equal.
  clear IH. set (n := List.length kws).
  assert (G : forall k, (k <= n)%nat ->
     nth_state s (fun t => fst (nth t kws (0, 0))) (fun t => snd (nth t kws (0, 0))) k
     = nth_state s (fun t => fst (nth t (kws ++ [kw]) (0, 0)))
         (fun t => snd (nth t (kws ++ [kw]) (0, 0))) k).
  { induction k as [|k IH]; intros Hk; [reflexivity|]. cbn [nth_state].
    rewrite IH by lia. rewrite app_nth1 by (unfold n in Hk; lia). reflexivity. }
  apply G. lia.
Qed.

Lemma nth_state_ext s K W K' W' n :
  (forall t, (t < n)%nat -> K t = K' t /\ W t = W' t) -> nth_state s K W n = nth_state s K' W' n.
Proof.
  induction n as [|n IH]; intros H; [reflexivity|]. cbn [nth_state].
  destruct (H n ltac:(lia)) as [-> ->]. rewrite IH; [reflexivity|]. intros t Ht. apply H. lia.
Qed.

Lemma state_ok_fields s : state_ok s <->
  sha_a s < 2 ^ 32 /\ sha_b s < 2 ^ 32 /\ sha_c s < 2 ^ 32 /\ sha_d s < 2 ^ 32 /\
  sha_e s < 2 ^ 32 /\ sha_f s < 2 ^ 32 /\ sha_g s < 2 ^ 32 /\ sha_h s < 2 ^ 32.
Proof.
  unfold state_ok, state_words. rewrite !Forall_cons_iff. pose proof (Forall_nil (fun w => w < 2 ^ 32)).
  tauto.
Qed.

Lemma round_ok s kw : state_ok s -> state_ok (sha_round s kw).
Proof.
  rewrite !state_ok_fields. unfold sha_round. cbn [sha_a sha_b sha_c sha_d sha_e sha_f sha_g sha_h].
  intuition auto using add32_lt.
Qed.

Lemma nth_state_ok s K W t : state_ok s -> state_ok (nth_state s K W t).
Proof. intros H. induction t as [|t IH]; [exact H|]. apply round_ok, IH. Qed.

Lemma add5 a b c d w : add32 (add32 (add32 a b) (add32 c d)) w = (a + b + c + d + w) mod 2 ^ 32.
Proof.
  rewrite add4. unfold add32, as_u32. apply N.add_mod_idemp_l, N.pow_nonzero. discriminate.
Qed.

Lemma round_fields s k w : state_ok s ->
  let s' := sha_round s (k, w) in
  let T := sha_h s + spec_rotations 6 11 25 (sha_e s) + spec_choose (sha_e s) (sha_f s) (sha_g s)
           + k + w in
  sha_a s' = (T + spec_rotations 2 13 22 (sha_a s) + spec_majority (sha_a s) (sha_b s) (sha_c s))
             mod 2 ^ 32 /\
  sha_e s' = (sha_d s + T) mod 2 ^ 32 /\
  sha_b s' = sha_a s /\ sha_c s' = sha_b s /\ sha_d s' = sha_c s /\
  sha_f s' = sha_e s /\ sha_g s' = sha_f s /\ sha_h s' = sha_g s.
Proof.
  intros H. apply state_ok_fields in H as (A & B & C & D & E & F & G & H).
  unfold sha_round. cbn [sha_a sha_b sha_c sha_d sha_e sha_f sha_g sha_h fst snd].
  rewrite add5, big1_eq, big0_eq, Ch_eq, Maj_eq by assumption. unfold add32, as_u32.
  assert (Z : 2 ^ 32 <> 0) by (apply N.pow_nonzero; discriminate).
  rewrite <- N.add_mod, N.add_mod_idemp_r by exact Z.
  repeat split. f_equal. lia.
Qed.

(** The two sequences. *)
Definition seqA s K W (t : nat) : N := sha_d (nth_state s K W t).
Definition seqE s K W (t : nat) : N := sha_h (nth_state s K W t).

Lemma seq_fields s K W t : state_ok s ->
  let r := nth_state s K W t in
  sha_a r = seqA s K W (t + 3) /\ sha_b r = seqA s K W (t + 2) /\ sha_c r = seqA s K W (t + 1) /\
  sha_d r = seqA s K W t /\
  sha_e r = seqE s K W (t + 3) /\ sha_f r = seqE s K W (t + 2) /\ sha_g r = seqE s K W (t + 1) /\
  sha_h r = seqE s K W t.
Proof.
  intros Ok r. unfold r, seqA, seqE.
  replace (t + 3)%nat with (S (S (S t))) by lia. replace (t + 2)%nat with (S (S t)) by lia.
  replace (t + 1)%nat with (S t) by lia. cbn [nth_state].
  repeat split.
Qed.

Lemma seq_next s K W t : state_ok s ->
  let A := seqA s K W in let E := seqE s K W in
  let T := E t + spec_rotations 6 11 25 (E (t + 3)%nat)
           + spec_choose (E (t + 3)%nat) (E (t + 2)%nat) (E (t + 1)%nat) + K t + W t in
  E (t + 4)%nat = (A t + T) mod 2 ^ 32 /\
  A (t + 4)%nat = (T + spec_rotations 2 13 22 (A (t + 3)%nat)
                   + spec_majority (A (t + 3)%nat) (A (t + 2)%nat) (A (t + 1)%nat)) mod 2 ^ 32.
Proof.
  intros Ok A E T.
  destruct (seq_fields s K W t Ok) as (F1 & F2 & F3 & F4 & F5 & F6 & F7 & F8).
  destruct (seq_fields s K W (S t) Ok) as (G1 & _ & _ & _ & G5 & _).
  replace (S t + 3)%nat with (t + 4)%nat in G1, G5 by lia.
  destruct (round_fields (nth_state s K W t) (K t) (W t) (nth_state_ok s K W t Ok)) as (R1 & R2 & _).
  cbn [nth_state] in G1, G5. rewrite R1 in G1. rewrite R2 in G5.
  unfold T, A, E. rewrite <- G1, <- G5, F1, F2, F3, F4, F5, F6, F7, F8. auto.
Qed.

(** ** Compression *)

Lemma compress_states s b : is_bytes b ->
  compress s b =
  let r := nth_state s (fun t => nth t round_constants 0) (fun t => nth t (message_schedule b) 0) 64 in
  mkShaState (add32 (sha_a s) (sha_a r)) (add32 (sha_b s) (sha_b r))
             (add32 (sha_c s) (sha_c r)) (add32 (sha_d s) (sha_d r))
             (add32 (sha_e s) (sha_e r)) (add32 (sha_f s) (sha_f r))
             (add32 (sha_g s) (sha_g r)) (add32 (sha_h s) (sha_h r)).
Proof.
  intros Hb. unfold compress. rewrite fold_rounds.
  destruct constants_check as (_ & _ & _ & L2).
  assert (L : List.length (combine round_constants (message_schedule b)) = 64%nat)
    by (rewrite combine_length, L2, schedule_length; reflexivity).
  rewrite L.
  rewrite (nth_state_ext s _ _ (fun t => nth t round_constants 0)
             (fun t => nth t (message_schedule b) 0)); [reflexivity|].
  intros t Ht. rewrite combine_nth by (rewrite L2, schedule_length; reflexivity). auto.
Qed.

Lemma compress_ok s b : state_ok (compress s b).
Proof. apply state_ok_fields. repeat split; apply add32_lt. Qed.

Lemma compress_spec s b : state_ok s -> is_bytes b -> spec_compress s b (compress s b).
Proof.
  intros Ok Hb. set (K := fun t => nth t round_constants 0).
  set (W := fun t => nth t (message_schedule b) 0).
  exists W, K, (seqA s K W), (seqE s K W).
  split; [apply schedule_spec, Hb|]. split; [exact cube_constants|].
  destruct (seq_fields s K W 0 Ok) as (F1 & F2 & F3 & F4 & F5 & F6 & F7 & F8).
  cbn [nth_state Nat.add] in F1, F2, F3, F4, F5, F6, F7, F8.
  repeat (split; [symmetry; assumption|]).
  split; [intros t _; exact (seq_next s K W t Ok)|].
  rewrite (compress_states s b Hb). fold K W.
  destruct (seq_fields s K W 64 Ok) as (G1 & G2 & G3 & G4 & G5 & G6 & G7 & G8).
  change (64 + 3)%nat with 67%nat in *. change (64 + 2)%nat with 66%nat in *.
  change (64 + 1)%nat with 65%nat in *.
  set (r := nth_state s K W 64) in *. cbv zeta. unfold state_words.
  cbn [sha_a sha_b sha_c sha_d sha_e sha_f sha_g sha_h].
  unfold add32, as_u32. rewrite G1, G2, G3, G4, G5, G6, G7, G8. reflexivity.
Qed.

Lemma state_words_inj s s' : state_words s = state_words s' -> s = s'.
Proof. destruct s, s'. cbv [state_words]. cbn. intros H. injection H as -> -> -> -> -> -> -> ->. reflexivity. Qed.

Lemma spec_compress_unique s b s1 s2 : spec_compress s b s1 -> spec_compress s b s2 -> s1 = s2.
Proof.
  intros (W & K & A & E & HW & HK & A3 & A2 & A1 & A0 & E3 & E2 & E1 & E0 & R & F)
         (W' & K' & A' & E' & HW' & HK' & A3' & A2' & A1' & A0' & E3' & E2' & E1' & E0' & R' & F').
  assert (EW : forall t, (t < 64)%nat -> W t = W' t) by (apply (schedule_unique b); assumption).
  assert (EK : forall t, (t < 64)%nat -> K t = K' t)
    by (intros t Ht; exact (cube_unique _ _ _ (HK t Ht) (HK' t Ht))).
  assert (G : forall t, (t < 68)%nat -> A t = A' t /\ E t = E' t).
  { intros t. induction t as [t IH] using lt_wf_ind. intros Ht.
    destruct (Nat.lt_ge_cases t 4) as [H|H].
    - destruct t as [|[|[|[|t]]]]; [split; congruence..|lia].
    - replace t with (t - 4 + 4)%nat by lia.
      destruct (R (t - 4)%nat ltac:(lia)) as [-> ->].
      destruct (R' (t - 4)%nat ltac:(lia)) as [-> ->].
      rewrite (EW (t - 4)%nat), (EK (t - 4)%nat) by lia.
      destruct (IH (t - 4)%nat ltac:(lia) ltac:(lia)) as [-> ->].
      destruct (IH (t - 4 + 1)%nat ltac:(lia) ltac:(lia)) as [-> ->].
      destruct (IH (t - 4 + 2)%nat ltac:(lia) ltac:(lia)) as [-> ->].
      destruct (IH (t - 4 + 3)%nat ltac:(lia) ltac:(lia)) as [-> ->]. auto. }
  apply state_words_inj. rewrite F, F'.
  destruct (G 64%nat ltac:(lia)) as [-> ->]. destruct (G 65%nat ltac:(lia)) as [-> ->].
  destruct (G 66%nat ltac:(lia)) as [-> ->]. destruct (G 67%nat ltac:(lia)) as [-> ->]. reflexivity.
Qed.

Lemma compress_iff s b s' : state_ok s -> is_bytes b ->
  (spec_compress s b s' <-> compress s b = s').
Proof.
  intros Ok Hb. split.
  - intros H. exact (spec_compress_unique s b _ _ (compress_spec s b Ok Hb) H).
  - intros <-. apply compress_spec; assumption.
Qed.

Lemma chained_iff bs s s' : state_ok s -> Forall (byte_array 64) bs ->
  (chained s bs s' <-> fold_left compress bs s = s').
Proof.
  intros Ok F. revert s Ok. induction F as [|b bs [_ Hb] F IH]; intros s Ok; cbn [fold_left].
  - split; [inversion 1; reflexivity|intros <-; constructor].
  - split.
    + inversion 1 as [|? ? ? s1 ? H1 H2]; subst. apply compress_iff in H1; [|assumption..].
      subst s1. apply IH; [apply compress_ok|exact H2].
    + intros H. econstructor; [apply compress_spec; assumption|].
      apply IH; [apply compress_ok|exact H].
Qed.

(** ** Absorbing *)

Lemma cut_app k n m l : cut k (n + m) l = cut k n l ++ cut k m (skipn (k * n) l).
Proof.
  revert l. induction n as [|n IH]; intros l; cbn [Nat.add cut].
  - rewrite Nat.mul_0_r. reflexivity.
  - rewrite IH, skipn_skipn. replace (k * S n)%nat with (k * n + k)%nat by lia. reflexivity.
Qed.

Lemma cut_prefix k n a b : (k * n <= List.length a)%nat -> cut k n (a ++ b) = cut k n a.
Proof.
  revert a. induction n as [|n IH]; intros a H; cbn [cut]; [reflexivity|].
  rewrite firstn_app, skipn_app.
  replace (k - List.length a)%nat with 0%nat by lia. cbn [firstn skipn]. rewrite app_nil_r.
  f_equal. apply IH. rewrite skipn_length. lia.
Qed.

Lemma cut_concat k n l : List.length l = (k * n)%nat -> List.concat (cut k n l) = l.
Proof.
  revert l. induction n as [|n IH]; intros l H; cbn [cut List.concat].
  - destruct l; [reflexivity|cbn in H; lia].
  - rewrite IH by (rewrite skipn_length; lia). apply firstn_skipn.
Qed.

Lemma cut_arrays k n l : is_bytes l -> (k * n <= List.length l)%nat ->
  Forall (byte_array k) (cut k n l).
Proof.
  revert l. induction n as [|n IH]; intros l B H; cbn [cut]; constructor.
  - split; [rewrite firstn_length; lia|]. apply bytes_firstn, B.
  - apply IH; [apply bytes_skipn, B|rewrite skipn_length; lia].
Qed.

Lemma absorb_app s a b :
  absorb s (a ++ b) = let (s1, r) := absorb s a in absorb s1 (r ++ b).
Proof.
  unfold absorb. set (n := Nat.div (List.length a) 64).
  assert (D := Nat.div_mod (List.length a) 64 ltac:(lia)). fold n in D.
  assert (M := Nat.mod_upper_bound (List.length a) 64 ltac:(lia)).
  assert (Lr : List.length (skipn (64 * n) a) = (List.length a - 64 * n)%nat) by apply skipn_length.
  rewrite !app_length, Lr.
  set (m := Nat.div (List.length a - 64 * n + List.length b) 64).
  assert (Nm : Nat.div (List.length a + List.length b) 64 = (n + m)%nat).
  { replace (List.length a + List.length b)%nat
      with (List.length a - 64 * n + List.length b + n * 64)%nat by lia.
    rewrite Nat.div_add by lia. unfold m. lia. }
  rewrite Nm, cut_app, fold_left_app, cut_prefix by lia.
  rewrite skipn_app. replace (64 * n - List.length a)%nat with 0%nat by lia. cbn [skipn].
  f_equal.
  rewrite Nat.mul_add_distr_l, Nat.add_comm, <- skipn_skipn, skipn_app.
  replace (64 * n - List.length a)%nat with 0%nat by lia. reflexivity.
Qed.

Definition absorbed (h : Hasher) (msg : list N) : Prop :=
  absorb sha_initial msg = (hasher_state h, hasher_buffer h) /\ hasher_total h = len msg.

Lemma update_absorbed h msg p : absorbed h msg -> absorbed (sha_update h p) (msg ++ p).
Proof.
  intros [A T]. unfold absorbed, sha_update. rewrite absorb_app, A.
  destruct (absorb (hasher_state h) (hasher_buffer h ++ p)) as [s r].
  cbn [hasher_state hasher_buffer hasher_total]. split; [reflexivity|].
  rewrite T. unfold len. rewrite app_length. lia.
Qed.

Lemma updates_absorbed ps h msg : absorbed h msg ->
  absorbed (fold_left sha_update ps h) (msg ++ List.concat ps).
Proof.
  revert h msg. induction ps as [|p ps IH]; intros h msg A; cbn [fold_left List.concat].
  - rewrite app_nil_r. exact A.
  - rewrite app_assoc. apply IH, update_absorbed, A.
Qed.

Lemma new_absorbed : absorbed sha_new [].
Proof. split; reflexivity. Qed.

(** The bytes after the message, by its length. *)
Definition zeros_for (n : N) : nat := N.to_nat ((119 - n mod 64) mod 64).
Definition padding (n : N) : list N :=
  [128] ++ repeat 0 (zeros_for n) ++ to_be_bytes 8 (as_u64 (8 * n)).

Lemma padding_length n : exists k,
  (N.to_nat n + List.length (padding n) = 64 * k)%nat /\
  (zeros_for n < 64)%nat /\ N.of_nat k = (n + 8) / 64 + 1.
Proof.
  unfold padding. rewrite !app_length, repeat_length, be_length. cbn [List.length].
  unfold zeros_for.
  assert (D := N.div_mod n 64 ltac:(lia)). assert (M := N.mod_lt n 64 ltac:(lia)).
  set (q := n / 64) in *. set (r := n mod 64) in *.
  assert (C : r <= 55 \/ 55 < r) by lia. destruct C as [C|C].
  - replace (119 - r) with (55 - r + 1 * 64) by lia. rewrite N.mod_add, N.mod_small by lia.
    exists (N.to_nat q + 1)%nat. split; [lia|]. split; [lia|].
    replace (n + 8) with (r + 8 + q * 64) by lia. rewrite N.div_add by lia.
    rewrite (N.div_small (r + 8)) by lia. lia.
  - rewrite (N.mod_small (119 - r)) by lia.
    exists (N.to_nat q + 2)%nat. split; [lia|]. split; [lia|].
    replace (n + 8) with (r - 56 + (q + 1) * 64) by lia. rewrite N.div_add by lia.
    rewrite (N.div_small (r - 56)) by lia. lia.
Qed.

Definition padded_blocks (msg : list N) : list (list N) :=
  cut 64 (N.to_nat ((len msg + 8) / 64 + 1)) (msg ++ padding (len msg)).

Lemma padding_bytes n : is_bytes (padding n).
Proof.
  unfold padding, is_bytes. rewrite !Forall_app. repeat split.
  - repeat constructor.
  - apply Forall_forall. intros x Hx. apply repeat_spec in Hx. subst x. lia.
  - apply be_bytes.
Qed.

Lemma padded_concat msg : List.concat (padded_blocks msg) = msg ++ padding (len msg).
Proof.
  apply cut_concat. destruct (padding_length (len msg)) as (k & A & _ & B).
  rewrite app_length. unfold len in A at 1. rewrite Nat2N.id in A. rewrite A. lia.
Qed.

Lemma padded_arrays msg : is_bytes msg -> Forall (byte_array 64) (padded_blocks msg).
Proof.
  intros H. apply cut_arrays; [apply Forall_app; split; [exact H|apply padding_bytes]|].
  destruct (padding_length (len msg)) as (k & A & _ & B).
  rewrite app_length. unfold len in A at 1. rewrite Nat2N.id in A. rewrite A. lia.
Qed.

Definition final_state (msg : list N) : ShaState :=
  fold_left compress (padded_blocks msg) sha_initial.

Lemma finalize_absorbed h msg : absorbed h msg ->
  sha_finalize h = List.concat (map (to_be_bytes 4) (state_words (final_state msg))).
Proof.
  intros [A T]. unfold sha_finalize.
  assert (Lb : len (hasher_buffer h) = len msg mod 64).
  { assert (B := f_equal snd A). unfold absorb in B. cbn [snd] in B. rewrite <- B.
    unfold len. rewrite skipn_length.
    rewrite <- Nat.mod_eq by lia. apply (Nat2N.inj_mod _ 64). }
  rewrite Lb, T. fold (zeros_for (len msg)). fold (padding (len msg)).
  assert (P := absorb_app sha_initial msg (padding (len msg))). rewrite A in P.
  rewrite <- P. unfold absorb.
  assert (E : cut 64 (Nat.div (List.length (msg ++ padding (len msg))) 64) (msg ++ padding (len msg))
              = padded_blocks msg).
  { unfold padded_blocks. f_equal. destruct (padding_length (len msg)) as (k & A' & _ & B).
    rewrite app_length. unfold len in A' at 1. rewrite Nat2N.id in A'. rewrite A'.
    rewrite Nat.mul_comm, Nat.div_mul by lia. lia. }
  rewrite E. reflexivity.
Qed.

Lemma sha256_eq msg :
  sha256 msg = List.concat (map (to_be_bytes 4) (state_words (final_state msg))).
Proof. apply finalize_absorbed. exact (update_absorbed _ [] msg new_absorbed). Qed.

Lemma stream_eq ps : sha_finalize (fold_left sha_update ps sha_new) = sha256 (List.concat ps).
Proof.
  rewrite sha256_eq. apply finalize_absorbed. exact (updates_absorbed ps _ [] new_absorbed).
Qed.

Lemma digest_shape s : byte_array 32 (List.concat (map (to_be_bytes 4) (state_words s))).
Proof.
  split.
  - cbn [state_words map List.concat]. rewrite !app_length, !be_length. reflexivity.
  - apply Forall_concat, Forall_forall. intros x Hx. apply in_map_iff in Hx as (w & <- & _).
    apply be_bytes.
Qed.

Lemma sha256_digest : digest_function sha256.
Proof. intros x. rewrite sha256_eq. apply digest_shape. Qed.

(** ** C87 *)

Lemma concat_inj_n n (ws ws' : list (list N)) : (0 < n)%nat ->
  Forall (fun w => List.length w = n) ws -> Forall (fun w => List.length w = n) ws' ->
  List.concat ws = List.concat ws' -> ws = ws'.
Proof.
  intros Hn F. revert ws'. induction F as [|w ws Hw F IH]; intros [|w' ws'] F' E.
  - reflexivity.
  - inversion F' as [|? ? Hw' _]; subst. cbn [List.concat] in E. destruct w'; [cbn in Hn; lia|discriminate].
  - cbn [List.concat] in E. destruct w; [cbn in Hw; lia|discriminate].
  - inversion F' as [|? ? Hw' F'']; subst. cbn [List.concat] in E.
    assert (w = w').
    { assert (K := f_equal (firstn (List.length w)) E).
      rewrite !firstn_app, Hw', Nat.sub_diag, !firstn_O, !app_nil_r in K.
      rewrite !firstn_all2 in K by lia. exact K. }
    subst w'. f_equal. apply IH; [exact F''|]. eapply app_inv_head, E.
Qed.

Lemma concat_length_k n (cs : list (list N)) : Forall (fun c => List.length c = n) cs ->
  List.length (List.concat cs) = (n * List.length cs)%nat.
Proof.
  induction 1 as [|w ws Hw _ IH]; cbn [List.concat List.length]; [lia|].
  rewrite app_length, Hw, IH. lia.
Qed.

Lemma arrays_length n ws : Forall (byte_array n) ws -> Forall (fun w => List.length w = n) ws.
Proof. apply Forall_impl. intros w H. apply H. Qed.

Lemma padded_spec msg : is_bytes msg -> spec_blocks msg (padded_blocks msg).
Proof.
  intros H. split; [apply padded_arrays, H|].
  exists (zeros_for (len msg)), (to_be_bytes 8 (as_u64 (8 * len msg))).
  destruct (padding_length (len msg)) as (_ & _ & Z & _).
  split; [exact Z|]. split; [split; [apply be_length|apply be_bytes]|].
  split; [|apply padded_concat].
  rewrite be_value_be. unfold as_u64. change (256 ^ N.of_nat 8) with (2 ^ 64).
  apply N.mod_mod, N.pow_nonzero. discriminate.
Qed.

Lemma blocks_unique msg bs : is_bytes msg -> spec_blocks msg bs -> bs = padded_blocks msg.
Proof.
  intros H (F & z & l & Hz & [Ll Bl] & Vl & E).
  assert (F' := padded_arrays msg H).
  destruct (padding_length (len msg)) as (k & A & Z & _).
  assert (z = zeros_for (len msg)).
  { assert (L := f_equal (@List.length N) E).
    rewrite (concat_length_k 64) in L by (apply arrays_length, F).
    rewrite !app_length, repeat_length, Ll in L. cbn [List.length] in L.
    unfold padding in A. rewrite !app_length, repeat_length, be_length in A. cbn [List.length] in A.
    unfold len in A at 1. rewrite Nat2N.id in A. lia. }
  subst z.
  assert (l = to_be_bytes 8 (as_u64 (8 * len msg))).
  { apply be_inj; [exact Bl|apply be_bytes|rewrite be_length; exact Ll|].
    rewrite Vl, be_value_be. unfold as_u64. change (256 ^ N.of_nat 8) with (2 ^ 64).
    symmetry. apply N.mod_mod, N.pow_nonzero. discriminate. }
  subst l.
  apply (concat_inj_n 64); [lia|apply arrays_length, F|apply arrays_length, F'|].
  rewrite padded_concat. exact E.
Qed.

Lemma initial_ok : state_ok sha_initial.
Proof. apply state_ok_fields. repeat split. Qed.

Lemma final_ok msg : state_ok (final_state msg).
Proof.
  unfold final_state. generalize initial_ok. generalize sha_initial.
  induction (padded_blocks msg) as [|b bs IH]; intros s H; [exact H|].
  cbn [fold_left]. apply IH, compress_ok.
Qed.

Lemma digest_slice s i : state_ok s -> (i < 8)%nat ->
  be_value (firstn 4 (skipn (4 * i) (List.concat (map (to_be_bytes 4) (state_words s)))))
  = nth i (state_words s) 0.
Proof.
  intros Ok Hi.
  assert (G : forall l, (i < List.length l)%nat ->
            firstn 4 (skipn (4 * i) (List.concat (map (to_be_bytes 4) l))) = to_be_bytes 4 (nth i l 0)).
  { clear. revert i. intros i l. revert i. induction l as [|x l IH]; intros i Hi; [cbn in Hi; lia|].
    cbn [map List.concat]. destruct i as [|i].
    - rewrite Nat.mul_0_r. cbn [skipn nth]. rewrite firstn_app, be_length, Nat.sub_diag, firstn_O,
        app_nil_r. apply firstn_all2. rewrite be_length. lia.
    - cbn [nth]. rewrite skipn_app, be_length, skipn_all2 by (rewrite be_length; lia).
      replace (4 * S i - 4)%nat with (4 * i)%nat by lia. apply IH. cbn in Hi. lia. }
  rewrite G by exact Hi. rewrite be_value_be. apply N.mod_small.
  exact (proj1 (Forall_forall _ _) Ok _ (nth_In (state_words s) 0 Hi)).
Qed.

Lemma slices4_eq (a b : list N) : byte_array 32 a -> byte_array 32 b ->
  (forall i, (i < 8)%nat -> be_value (firstn 4 (skipn (4 * i) a))
                            = be_value (firstn 4 (skipn (4 * i) b))) -> a = b.
Proof.
  intros [La Ba] [Lb Bb] H.
  rewrite <- (cut_concat 4 8 a), <- (cut_concat 4 8 b) by assumption. f_equal.
  apply (nth_ext _ _ [] []); [rewrite !cut_length; reflexivity|]. rewrite cut_length. intros i Hi.
  rewrite !cut_nth by exact Hi.
  apply be_inj; [apply bytes_firstn, bytes_skipn; assumption..| |apply H, Hi].
  rewrite !firstn_length, !skipn_length, La, Lb. reflexivity.
Qed.

(** Compressing a block. *)
Lemma pf_C87_compress :
  forall s b, state_ok s -> byte_array 64 b ->
    state_ok (compress s b) /\ forall s', spec_compress s b s' <-> compress s b = s'.
Proof.
  intros s b Ok [_ Hb]. split; [apply compress_ok|]. intros s'. apply compress_iff; assumption.
Qed.

(** The hasher gives the SHA-256 of what it has absorbed, in whatever pieces. *)
Lemma pf_C87_digest :
  forall pieces d, Forall is_bytes pieces ->
    (sha_finalize (fold_left sha_update pieces sha_new) = d
     <-> spec_sha256 (List.concat pieces) d).
Proof.
  intros ps d F. rewrite stream_eq, sha256_eq.
  assert (H : is_bytes (List.concat ps)) by (apply Forall_concat, F).
  assert (C := chained_iff (padded_blocks (List.concat ps)) sha_initial
                 (final_state (List.concat ps)) initial_ok (padded_arrays _ H)).
  split.
  - intros <-. exists (padded_blocks (List.concat ps)), sha_initial, (final_state (List.concat ps)).
    split; [apply padded_spec, H|]. split; [exact square_constants|].
    split; [apply C; reflexivity|]. split; [apply digest_shape|].
    intros i Hi. apply digest_slice; [apply final_ok|exact Hi].
  - intros (bs & s & s' & Hb & Hs & Hc & Hd & Hw).
    apply blocks_unique in Hb; [|exact H]. apply initial_unique in Hs. subst bs s.
    apply chained_iff in Hc; [|exact initial_ok|apply padded_arrays, H].
    fold (final_state (List.concat ps)) in Hc. subst s'.
    apply slices4_eq; [apply digest_shape|exact Hd|]. intros i Hi.
    rewrite digest_slice by (apply final_ok || exact Hi). symmetry. apply Hw, Hi.
Qed.

(** The code hash with this hasher is the code hash with a digest function, so C47, C48, C72 and
    C86 apply to it. *)
Lemma pf_C87_code_hash :
  digest_function sha256 /\
  (forall m, is_bytes m -> spec_sha256 m (sha256 m)) /\
  forall E ws, code_hash_for_mode E ws = bytecode_to_code_hash_for_mode sha256 E ws.
Proof.
  split; [exact sha256_digest|]. split.
  - intros m H. assert (K := pf_C87_digest [m] (sha256 m) (Forall_cons _ H (Forall_nil _))).
    cbn [List.concat] in K. rewrite app_nil_r in K. apply K. rewrite stream_eq.
    cbn [List.concat]. rewrite app_nil_r. reflexivity.
  - intros E ws. unfold code_hash_for_mode, bytecode_to_code_hash_for_mode.
    rewrite stream_eq.
    assert (Fe : forall a, fold_left (fun state w => state ++ w) ws a = a ++ List.concat ws).
    { induction ws as [|w ws IH]; intros a; cbn [fold_left List.concat].
      - rewrite app_nil_r. reflexivity.
      - rewrite IH, app_assoc. reflexivity. }
    rewrite Fe. reflexivity.
Qed.

(** The production code hash of every accepted bytecode, without reference to the hasher. *)
Lemma pf_C87_production :
  forall ws, Forall (byte_array 32) ws -> N.odd (len ws) = true -> len ws <= 65535 ->
    exists d, spec_sha256 (List.concat ws) d /\
      code_hash_for_mode EncodingModeProduction ws = Ok (Some (hash_bytes 0 (len ws) (skipn 4 d))).
Proof.
  intros ws F O L. destruct pf_C87_code_hash as (D & S & C). exists (sha256 (List.concat ws)).
  split.
  - apply S. apply Forall_concat. revert F. apply Forall_impl. intros w H. apply H.
  - rewrite C. destruct (pf_C47_hash sha256 ws D ltac:(lia)) as [_ H].
    destruct (H O L) as [H1 _]. exact H1.
Qed.

Example pf_C87_example :
  spec_sha256 [97; 98; 99]
    [0xba; 0x78; 0x16; 0xbf; 0x8f; 0x01; 0xcf; 0xea; 0x41; 0x41; 0x40; 0xde; 0x5d; 0xae; 0x22; 0x23;
     0xb0; 0x03; 0x61; 0xa3; 0x96; 0x17; 0x7a; 0x9c; 0xb4; 0x10; 0xff; 0x61; 0xf2; 0x00; 0x15; 0xad]
  /\ code_hash_for_mode EncodingModeProduction [repeat 7 32] =
     Ok (Some [1; 0; 0; 1; 78; 58; 119; 21; 210; 1; 213; 115; 208; 170; 66; 55; 98; 229; 93; 171;
               214; 26; 44; 2; 39; 143; 165; 108; 198; 210; 148; 224]).
Proof.
  split.
  - apply (pf_C87_digest [[97]; [98; 99]]).
    + repeat constructor.
    + vm_compute. reflexivity.
  - vm_compute. reflexivity.
Qed.
