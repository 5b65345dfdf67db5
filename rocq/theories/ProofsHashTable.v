(** * Proofs about the hash maps (C90) *)

From Coq Require Import Arith NArith List Bool String Ascii Lia ZifyBool ZifyNat ZifyN Permutation.
From Verif Require Import Machine Constants Operands OpcodeTrait Opcodes AllOpcodes Tables Decoding
  HashFeed HashTable SpecIsa SpecFamilies SpecCodec SpecSets SpecAnyTable SpecHashTable
  TableProofs ProofsTables ProofsSets ProofsAnyTable.
Import ListNotations.
Local Open Scope nat_scope.

(** ** Slots *)

Definition iter_of {K V} (l : list (option (N * (K * V)))) : list (K * V) :=
  flat_map (fun s => match s with Some e => [snd e] | None => [] end) l.

Lemma hm_iter_eq {K V} (m : HashMap K V) : hm_iter m = iter_of (slots m).
Proof. reflexivity. Qed.

Lemma set_slot_length {A} (l : list A) p x : List.length (set_slot l p x) = List.length l.
Proof. revert p; induction l as [|y l IH]; intros [|p]; cbn; auto. Qed.

Lemma set_slot_same {A} (l : list A) p x y :
  nth_error l p = Some y -> nth_error (set_slot l p x) p = Some x.
Proof. revert p; induction l as [|z l IH]; intros [|p] H; cbn in *; try discriminate; auto. Qed.

Lemma set_slot_other {A} (l : list A) p q x :
  p <> q -> nth_error (set_slot l p x) q = nth_error l q.
Proof.
  revert p q; induction l as [|z l IH]; intros [|p] [|q] H; cbn; auto; try congruence.
Qed.

Lemma iter_in {K V} (l : list (option (N * (K * V)))) k v :
  In (k, v) (iter_of l) <-> exists p t, nth_error l p = Some (Some (t, (k, v))).
Proof.
  unfold iter_of. rewrite in_flat_map. split.
  - intros [[[t [k' v']]|] [Hi Hs]]; cbn in Hs; [|destruct Hs].
    destruct Hs as [E|[]]. inversion E; subst.
    destruct (In_nth_error _ _ Hi) as [p Hp]. exists p, t. exact Hp.
  - intros (p & t & H). exists (Some (t, (k, v))). split; [eapply nth_error_In; eauto|].
    left; reflexivity.
Qed.

Lemma iter_split {K V} (l : list (option (N * (K * V)))) p s :
  nth_error l p = Some s ->
  exists a b, iter_of l = a ++ match s with Some e => [snd e] | None => [] end ++ b /\
    forall e, iter_of (set_slot l p (Some e)) = a ++ [snd e] ++ b.
Proof.
  revert p; induction l as [|x l IH]; intros [|p] H; cbn in H; try discriminate.
  - injection H as ->. exists [], (iter_of l). split; reflexivity.
  - destruct (IH p H) as (a & b & E1 & E2).
    exists ((match x with Some e => [snd e] | None => [] end) ++ a), b.
    cbn [iter_of flat_map set_slot]. unfold iter_of in *. rewrite E1. split.
    + rewrite <- app_assoc. reflexivity.
    + intros e. cbn [flat_map]. rewrite E2, <- app_assoc. reflexivity.
Qed.

Lemma iter_fill {K V} (l : list (option (N * (K * V)))) p t k v :
  nth_error l p = Some None ->
  Permutation (iter_of (set_slot l p (Some (t, (k, v))))) ((k, v) :: iter_of l).
Proof.
  intros H. destruct (iter_split l p None H) as (a & b & E1 & E2).
  rewrite E1, E2. cbn. symmetry. apply Permutation_middle.
Qed.

Lemma iter_change {K V} (l : list (option (N * (K * V)))) p t k w v :
  nth_error l p = Some (Some (t, (k, w))) ->
  exists a b, iter_of l = a ++ (k, w) :: b /\
    iter_of (set_slot l p (Some (t, (k, v)))) = a ++ (k, v) :: b.
Proof.
  intros H. destruct (iter_split l p _ H) as (a & b & E1 & E2).
  exists a, b. split; [exact E1|]. rewrite E2. reflexivity.
Qed.

Lemma iter_repeat {K V} n : iter_of (repeat (@None (N * (K * V))) n) = [].
Proof. induction n; cbn; auto. Qed.

Lemma iter_empty_slot {K V} (l : list (option (N * (K * V)))) :
  List.length (iter_of l) < List.length l -> exists p, nth_error l p = Some None.
Proof.
  induction l as [|[e|] l IH]; cbn; intros H; [lia| |exists 0; reflexivity].
  destruct IH as [p Hp]; [unfold iter_of; lia|]. exists (S p). exact Hp.
Qed.

Lemma slot_unique {K V} (l : list (option (N * (K * V)))) p q t t' k v v' :
  NoDup (map fst (iter_of l)) ->
  nth_error l p = Some (Some (t, (k, v))) -> nth_error l q = Some (Some (t', (k, v'))) -> p = q.
Proof.
  revert p q; induction l as [|x l IH]; intros [|p] [|q] N Hp Hq; cbn in Hp, Hq;
    try discriminate; auto.
  - injection Hp as ->. cbn in N. inversion N as [|? ? Hn _]; subst. exfalso. apply Hn.
    apply (in_map fst) with (x := (k, v')). apply (proj2 (iter_in l k v')). eauto.
  - injection Hq as ->. cbn in N. inversion N as [|? ? Hn _]; subst. exfalso. apply Hn.
    apply (in_map fst) with (x := (k, v)). apply (proj2 (iter_in l k v)). eauto.
  - f_equal. apply IH; auto. cbn in N. rewrite map_app in N.
    destruct x; [cbn in N; inversion N; assumption|exact N].
Qed.

(** ** Searching *)

Definition occupied {A} (l : list (option A)) (p : nat) : Prop :=
  exists e, nth_error l p = Some (Some e).

Definition reaches {A} (l : list (option A)) (order : list nat) (p : nat) : Prop :=
  exists pre post, order = pre ++ p :: post /\ Forall (occupied l) pre.

Lemma find_hit {K V} (eqb : K -> K -> bool) (l : list (option (N * (K * V)))) tag k v p order :
  (forall a b, eqb a b = true <-> a = b) ->
  NoDup (map fst (iter_of l)) ->
  nth_error l p = Some (Some (tag, (k, v))) ->
  reaches l order p -> hm_find eqb l tag k order = Ok (Some p).
Proof.
  intros E N Hp (pre & post & -> & F). induction F as [|q pre [[t' [k' v']] Hq] F IH]; cbn.
  - rewrite Hp. cbn. rewrite N.eqb_refl, (proj2 (E k k) eq_refl). reflexivity.
  - rewrite Hq. cbn. destruct (eqb k' k) eqn:Ek; [|rewrite andb_false_r; exact IH].
    apply E in Ek. subst k'. assert (q = p) by (eapply slot_unique; eauto). subst q.
    rewrite Hp in Hq. inversion Hq; subst. rewrite N.eqb_refl. reflexivity.
Qed.

Lemma first_empty {A} (l : list (option A)) order :
  (forall i, In i order <-> i < List.length l) -> (exists p, nth_error l p = Some None) ->
  exists p, nth_error l p = Some None /\ reaches l order p.
Proof.
  intros X [p0 H0].
  assert (I : In p0 order) by (apply X; apply nth_error_Some; congruence).
  assert (R : forall i, In i order -> i < List.length l) by (intros i; apply X).
  clear X. induction order as [|q order IH]; [destruct I|].
  destruct (nth_error l q) as [[e|]|] eqn:Eq.
  - destruct IH as (p & Hp & pre & post & -> & F).
    + destruct I as [->|I]; [congruence|exact I].
    + intros i Hi. apply R. right. exact Hi.
    + exists p. split; [exact Hp|]. exists (q :: pre), post. split; [reflexivity|].
      constructor; [exists e; exact Eq|exact F].
  - exists q. split; [exact Eq|]. exists [], order. split; [reflexivity|constructor].
  - apply nth_error_None in Eq. specialize (R q (or_introl eq_refl)). lia.
Qed.

Lemma find_miss {K V} (eqb : K -> K -> bool) (l : list (option (N * (K * V)))) tag k order :
  (forall a b, eqb a b = true <-> a = b) ->
  ~ In k (map fst (iter_of l)) ->
  (exists p, nth_error l p = Some None /\ reaches l order p) ->
  hm_find eqb l tag k order = Ok None.
Proof.
  intros E N (p & Hp & pre & post & -> & F).
  induction F as [|q pre [[t' [k' v']] Hq] F IH]; cbn.
  - rewrite Hp. reflexivity.
  - rewrite Hq. cbn. destruct (eqb k' k) eqn:Ek; [|rewrite andb_false_r; exact IH].
    apply E in Ek. subst k'. exfalso. apply N. apply (in_map fst) with (x := (k, v')).
    apply (proj2 (iter_in l k v')). eauto.
Qed.

Lemma free_found {A} (l : list (option A)) order p :
  nth_error l p = Some None -> reaches l order p ->
  exists q, hm_free l order = Ok q /\ nth_error l q = Some None /\ reaches l order q.
Proof.
  intros Hp (pre & post & -> & F). exists p. split; [|split; [exact Hp|exists pre, post; auto]].
  induction F as [|q pre [e Hq] F IH]; cbn.
  - rewrite Hp. reflexivity.
  - rewrite Hq. exact IH.
Qed.

Lemma occupied_set {A} (l : list (option A)) p e q :
  occupied l q -> occupied (set_slot l p (Some e)) q.
Proof.
  intros [x Hx]. destruct (Nat.eq_dec p q) as [->|H].
  - exists e. eapply set_slot_same; eauto.
  - exists x. rewrite set_slot_other; auto.
Qed.

Lemma reaches_set {A} (l : list (option A)) p e order q :
  reaches l order q -> reaches (set_slot l p (Some e)) order q.
Proof.
  intros (pre & post & -> & F). exists pre, post. split; [reflexivity|].
  eapply Forall_impl; [|exact F]. intros a. apply occupied_set.
Qed.

(** ** The invariant of a table *)

Definition placed {K V} (S : hash_scheme) (O : key_ops K) (l : list (option (N * (K * V)))) : Prop :=
  forall p t k v, nth_error l p = Some (Some (t, (k, v))) ->
    t = tag_of S (digest_of S (key_feed O k)) /\
    reaches l (probe S (digest_of S (key_feed O k)) (List.length l)) p.

Definition exact_eq {K} (O : key_ops K) : Prop := forall a b, key_eqb O a b = true <-> a = b.

(** The sizes of the specification. *)
Definition sizes_of (S : hash_scheme) (size : nat -> Prop) : Prop :=
  forall c, size c ->
    room S c < c /\ (forall h, explores (probe S h c) c) /\
    size (enlarge S c) /\ room S c < room S (enlarge S c).

Definition table_ok {K V} (S : hash_scheme) (O : key_ops K) (size : nat -> Prop)
    (m : HashMap K V) : Prop :=
  size (List.length (slots m)) /\ placed S O (slots m) /\
  NoDup (map fst (hm_iter m)) /\ items m = List.length (hm_iter m) /\
  items m <= room S (List.length (slots m)).

Definition rep {K V} (S : hash_scheme) (O : key_ops K) (size : nat -> Prop)
    (m : HashMap K V) (f : K -> option V) : Prop :=
  table_ok S O size m /\ forall k v, In (k, v) (hm_iter m) <-> f k = Some v.

Lemma rep_find {K V} S (O : key_ops K) size (m : HashMap K V) f k :
  exact_eq O -> sizes_of S size -> rep S O size m f ->
  let h := digest_of S (key_feed O k) in
  match f k with
  | Some v => exists p, hm_find (key_eqb O) (slots m) (tag_of S h) k
                          (probe S h (List.length (slots m))) = Ok (Some p) /\
                nth_error (slots m) p = Some (Some (tag_of S h, (k, v)))
  | None => hm_find (key_eqb O) (slots m) (tag_of S h) k
              (probe S h (List.length (slots m))) = Ok None
  end.
Proof.
  intros E Z ((Hs & Hp & Hn & Hi & Hr) & Hf) h.
  destruct (Z _ Hs) as (R & X & _ & _).
  destruct (f k) as [v|] eqn:Ef.
  - apply Hf in Ef. rewrite hm_iter_eq in Ef. apply (proj1 (iter_in _ _ _)) in Ef.
    destruct Ef as (p & t & Hpt). destruct (Hp _ _ _ _ Hpt) as [-> Hre].
    exists p. split; [|exact Hpt]. eapply find_hit; eauto.
  - apply find_miss; [exact E| |].
    + intros Hin. apply in_map_iff in Hin. destruct Hin as ([k' v] & Hk & Hin). cbn in Hk. subst k'.
      apply (Hf k v) in Hin. congruence.
    + apply first_empty; [exact (X h)|]. apply iter_empty_slot.
      rewrite hm_iter_eq in Hi. lia.
Qed.

Lemma rep_get {K V} S (O : key_ops K) size (m : HashMap K V) f k :
  exact_eq O -> sizes_of S size -> rep S O size m f -> hm_get S O m k = Ok (f k).
Proof.
  intros E Z H. pose proof (rep_find S O size m f k E Z H) as F. cbn zeta in F.
  unfold hm_get. destruct (f k) as [v|].
  - destruct F as (p & -> & Hp). cbn [bind]. rewrite Hp. reflexivity.
  - rewrite F. reflexivity.
Qed.

(** A key that is absent, into a table whose room is not exceeded. *)
Lemma put_ok {K V} S (O : key_ops K) size (m : HashMap K V) k v :
  sizes_of S size ->
  size (List.length (slots m)) -> placed S O (slots m) ->
  NoDup (map fst (hm_iter m)) -> items m = List.length (hm_iter m) ->
  items m < room S (List.length (slots m)) ->
  ~ In k (map fst (hm_iter m)) ->
  exists m', hm_put S O m k v = Ok m' /\ table_ok S O size m' /\
    List.length (slots m') = List.length (slots m) /\
    items m' = items m + 1 /\
    Permutation (hm_iter m') ((k, v) :: hm_iter m).
Proof.
  intros Z Hs Hp Hn Hi Hr Hk. destruct (Z _ Hs) as (R & X & _ & _).
  set (h := digest_of S (key_feed O k)).
  destruct (first_empty (slots m) (probe S h (List.length (slots m)))) as (p & Hp0 & Hre).
  { exact (X h). } { apply iter_empty_slot. rewrite hm_iter_eq in Hi. lia. }
  destruct (free_found _ _ _ Hp0 Hre) as (q & Hq & Hq0 & Hqre).
  unfold hm_put. fold h. rewrite Hq. cbn [bind]. eexists. split; [reflexivity|].
  assert (P : Permutation (iter_of (set_slot (slots m) q (Some (tag_of S h, (k, v)))))
                          ((k, v) :: iter_of (slots m))) by (apply iter_fill; exact Hq0).
  unfold table_ok. rewrite !hm_iter_eq in *. cbn [slots items]. rewrite set_slot_length.
  split; [|split; [reflexivity|split; [reflexivity|exact P]]].
  split; [exact Hs|]. split; [|split; [|split]].
  - intros p' t' k' v' H'. rewrite set_slot_length. destruct (Nat.eq_dec q p') as [<-|Hne].
    + rewrite (set_slot_same _ _ _ _ Hq0) in H'. inversion H'; subst.
      split; [reflexivity|]. apply reaches_set. exact Hqre.
    + rewrite set_slot_other in H' by exact Hne. destruct (Hp _ _ _ _ H') as [-> Hr'].
      split; [reflexivity|]. apply reaches_set. exact Hr'.
  - eapply Permutation_NoDup; [apply Permutation_map, Permutation_sym, P|].
    cbn. constructor; assumption.
  - rewrite (Permutation_length P). cbn. lia.
  - lia.
Qed.

Lemma rebuild {K V} S (O : key_ops K) size (l : list (K * V)) (m : HashMap K V) :
  sizes_of S size -> table_ok S O size m ->
  items m + List.length l <= room S (List.length (slots m)) ->
  NoDup (map fst (l ++ hm_iter m)) ->
  exists m', for_each (fun m' '(k, v) => hm_put S O m' k v) l m = Ok m' /\
    table_ok S O size m' /\ List.length (slots m') = List.length (slots m) /\
    Permutation (hm_iter m') (l ++ hm_iter m).
Proof.
  intros Z. revert m. induction l as [|[k v] l IH]; intros m T R N; cbn.
  - exists m. auto.
  - cbn in R, N. inversion N as [|? ? Nk N']; subst.
    destruct T as (Hs & Hp & Hn & Hi & Hr).
    destruct (put_ok S O size m k v Z Hs Hp Hn Hi) as (m1 & -> & T1 & L1 & I1 & P1).
    { lia. } { intros Hin. apply Nk. rewrite map_app. apply in_or_app. right. exact Hin. }
    cbn [bind]. destruct (IH m1 T1) as (m2 & -> & T2 & L2 & P2).
    + rewrite I1, L1. lia.
    + change (NoDup (map fst (((k, v) :: l) ++ hm_iter m))) in N.
      eapply Permutation_NoDup; [apply Permutation_map|exact N].
      rewrite P1. cbn. apply Permutation_middle.
    + exists m2. split; [reflexivity|]. split; [exact T2|]. split; [congruence|].
      rewrite P2, P1. symmetry. apply Permutation_middle.
Qed.

Lemma reserve_ok {K V} S (O : key_ops K) size (m : HashMap K V) f :
  sizes_of S size -> rep S O size m f ->
  exists m', hm_reserve S O m = Ok m' /\ rep S O size m' f /\
    items m' < room S (List.length (slots m')).
Proof.
  intros Z [T Hf]. unfold hm_reserve.
  destruct (Nat.ltb_spec (items m) (room S (List.length (slots m)))) as [H|H].
  - exists m. split; [reflexivity|]. split; [split; [exact T|exact Hf]|exact H].
  - destruct T as (Hs & Hp & Hn & Hi & Hr). destruct (Z _ Hs) as (R & X & Hs' & Hg).
    set (c := enlarge S (List.length (slots m))) in *.
    destruct (rebuild S O size (hm_iter m) (mkHashMap (repeat None c) 0) Z)
      as (m' & E & T' & L' & P').
    + unfold table_ok. rewrite hm_iter_eq. cbn [slots items]. rewrite repeat_length, iter_repeat.
      split; [exact Hs'|]. split; [|split; [constructor|split; [reflexivity|lia]]].
      intros p t k v Hpt. apply nth_error_In, repeat_spec in Hpt. discriminate.
    + cbn [slots items]. rewrite repeat_length. lia.
    + rewrite (hm_iter_eq (mkHashMap _ _)). cbn [slots]. rewrite iter_repeat, app_nil_r. exact Hn.
    + rewrite (hm_iter_eq (mkHashMap _ _)) in P'. cbn [slots] in P'.
      rewrite iter_repeat, app_nil_r in P'.
      exists m'. split; [exact E|]. split; [split; [exact T'|]|].
      * intros k v. rewrite <- Hf. split; apply Permutation_in; [exact P'|symmetry; exact P'].
      * cbn [slots] in L'. rewrite repeat_length in L'.
        destruct T' as (_ & _ & _ & Hi' & _). rewrite Hi', L', (Permutation_length P'). lia.
Qed.

Definition updated {K V} (f : K -> option V) (k : K) (v : V) (g : K -> option V) : Prop :=
  g k = Some v /\ forall k', k' <> k -> g k' = f k'.

Lemma insert_ok {K V} S (O : key_ops K) size (m : HashMap K V) f g k v :
  exact_eq O -> sizes_of S size -> rep S O size m f -> updated f k v g ->
  exists m', hm_insert S O m k v = Ok (m', f k) /\ rep S O size m' g.
Proof.
  intros E Z H [U1 U2]. unfold hm_insert.
  destruct (reserve_ok S O size m f Z H) as (m1 & -> & H1 & R1). cbn [bind].
  pose proof (rep_find S O size m1 f k E Z H1) as F. cbn zeta in F.
  assert (D : forall k', k' = k \/ k' <> k).
  { intros k'. destruct (key_eqb O k' k) eqn:Ek; [left; apply E; exact Ek|right].
    intros ->. rewrite (proj2 (E k k) eq_refl) in Ek. discriminate. }
  destruct H1 as [(Hs & Hp & Hn & Hi & Hr) Hf].
  destruct (f k) as [w|] eqn:Ef.
  - destruct F as (p & -> & Hpp). cbn [bind]. rewrite Hpp. cbn [unwrap bind fst snd].
    eexists. split; [reflexivity|].
    destruct (iter_change _ p _ k w v Hpp) as (a & b & E1 & E2).
    unfold rep, table_ok. rewrite !hm_iter_eq in *. cbn [slots items]. rewrite set_slot_length.
    assert (M : map fst (iter_of (set_slot (slots m1) p
                (Some (tag_of S (digest_of S (key_feed O k)), (k, v)))))
                = map fst (iter_of (slots m1))).
    { rewrite E1, E2, !map_app. reflexivity. }
    split; [split; [exact Hs|split; [|split; [|split]]]|].
    + intros p' t' k' v' H'. rewrite set_slot_length. destruct (Nat.eq_dec p p') as [<-|Hne].
      * rewrite (set_slot_same _ _ _ _ Hpp) in H'. inversion H'; subst.
        split; [reflexivity|]. apply reaches_set. apply (Hp _ _ _ _ Hpp).
      * rewrite set_slot_other in H' by exact Hne. destruct (Hp _ _ _ _ H') as [-> Hr'].
        split; [reflexivity|]. apply reaches_set. exact Hr'.
    + rewrite M. exact Hn.
    + rewrite Hi. rewrite <- (map_length fst (iter_of (slots m1))), <- M, map_length. reflexivity.
    + exact Hr.
    + intros k' v'. destruct (D k') as [->|Hne].
      * rewrite U1. split.
        -- intros Hin. apply (proj1 (iter_in _ _ _)) in Hin. destruct Hin as (q & t & Hq).
           assert (Sm : nth_error (set_slot (slots m1) p
                    (Some (tag_of S (digest_of S (key_feed O k)), (k, v)))) p
                    = Some (Some (tag_of S (digest_of S (key_feed O k)), (k, v))))
             by (eapply set_slot_same; eauto).
           assert (q = p).
           { eapply slot_unique; [|exact Hq|exact Sm]. rewrite M. exact Hn. }
           subst q. rewrite Sm in Hq. inversion Hq. reflexivity.
        -- intros Ev. injection Ev as <-. rewrite E2. apply in_or_app. right. left. reflexivity.
      * rewrite (U2 k' Hne). rewrite <- Hf, E1, E2, !in_app_iff. cbn.
        split; intros [Ha|[Hb|Hc]]; auto; inversion Hb; subst; congruence.
  - rewrite F. cbn [bind].
    destruct (put_ok S O size m1 k v Z Hs Hp Hn Hi R1) as (m2 & -> & T2 & L2 & I2 & P2).
    { intros Hin. apply in_map_iff in Hin. destruct Hin as ([k' w] & Hk & Hin). cbn in Hk. subst k'.
      apply (Hf k w) in Hin. congruence. }
    cbn [bind]. exists m2. split; [reflexivity|]. split; [exact T2|].
    intros k' v'. split.
    + intros Hin. apply (Permutation_in _ P2) in Hin. destruct Hin as [Ee|Hin].
      * inversion Ee; subst. exact U1.
      * apply Hf in Hin. destruct (D k') as [->|Hne]; [congruence|]. rewrite U2; auto.
    + intros Hg. apply (Permutation_in _ (Permutation_sym P2)).
      destruct (D k') as [->|Hne]; [left; congruence|right]. apply Hf. rewrite <- U2; auto.
Qed.

Lemma new_ok {K V} S (O : key_ops K) (size : nat -> Prop) :
  size 1 -> rep S O size (@hm_new K V) (fun _ => None).
Proof.
  intros H. split; [split; [exact H|split; [|split; [constructor|split; [reflexivity|apply Nat.le_0_l]]]]|].
  - intros [|[|p]] t k v Hp; cbn in Hp; discriminate.
  - intros k v. cbn. split; [intros []|discriminate].
Qed.

Lemma rep_holds {K V} S (O : key_ops K) size (m : HashMap K V) f (graph : K -> V -> Prop) :
  exact_eq O -> sizes_of S size -> rep S O size m f ->
  (forall k v, f k = Some v <-> graph k v) -> holds S O m graph.
Proof.
  intros E Z H G. pose proof H as [(Hs & Hp & Hn & Hi & Hr) Hf]. split; [|split; [|split]].
  - intros k. exists (f k). split; [eapply rep_get; eauto|]. intros v. apply G.
  - intros k v. rewrite Hf. apply G.
  - exact Hn.
  - exact Hi.
Qed.

(** ** Maps filled with arbitrary keys *)

Definition assoc {K V} (eqb : K -> K -> bool) (f : K -> option V) (k : K) (v : V) : K -> option V :=
  fun k' => if eqb k' k then Some v else f k'.

Lemma assoc_updated {K V} (O : key_ops K) (f : K -> option V) k v :
  exact_eq O -> updated f k v (assoc (key_eqb O) f k v).
Proof.
  intros E. unfold assoc. split; [rewrite (proj2 (E k k) eq_refl); reflexivity|].
  intros k' H. destruct (key_eqb O k' k) eqn:Ek; [apply E in Ek; contradiction|reflexivity].
Qed.

Lemma insert_all_loop {K V} S (O : key_ops K) size :
  exact_eq O -> sizes_of S size ->
  forall (l0 l : list (K * V)) m f,
    rep S O size m f -> (forall k v, f k = Some v <-> last_value l0 k v) ->
    exists m' f',
      for_each (fun m '(k, v) => let* (m, _) := hm_insert S O m k v in Ok m) l m = Ok m' /\
      rep S O size m' f' /\ (forall k v, f' k = Some v <-> last_value (l0 ++ l) k v).
Proof.
  intros E Z l0 l. revert l0. induction l as [|[k v] l IH]; intros l0 m f H F; cbn [for_each].
  - exists m, f. rewrite app_nil_r. auto.
  - destruct (insert_ok S O size m f _ k v E Z H (assoc_updated O f k v E)) as (m1 & -> & H1).
    cbn [bind].
    destruct (IH (l0 ++ [(k, v)]) m1 _ H1) as (m2 & f2 & E2 & H2 & F2).
    + intros k' v'. unfold assoc. destruct (key_eqb O k' k) eqn:Ek.
      * apply E in Ek. subst k'. split.
        -- intros Ev. injection Ev as <-. exists l0, []. split; [reflexivity|intros []].
        -- intros (a & b & Eab & Nb). destruct b as [|e b _] using rev_ind.
           ++ apply app_inj_tail in Eab. destruct Eab as [_ Ee]. inversion Ee. reflexivity.
           ++ change (a ++ (k, v') :: b ++ [e]) with (a ++ ((k, v') :: b) ++ [e]) in Eab.
              rewrite app_assoc in Eab. apply app_inj_tail in Eab. destruct Eab as [_ <-].
              exfalso. apply Nb. rewrite map_app. apply in_or_app. right. left. reflexivity.
      * assert (Hk : k' <> k) by (intros ->; rewrite (proj2 (E k k) eq_refl) in Ek; discriminate).
        rewrite F. split.
        -- intros (a & b & -> & Nb). exists a, (b ++ [(k, v)]).
           rewrite <- app_assoc. split; [reflexivity|].
           rewrite map_app, in_app_iff. cbn. intros [Hb|[Hb|[]]]; [auto|congruence].
        -- intros (a & b & Eab & Nb). destruct b as [|e b _] using rev_ind.
           ++ apply app_inj_tail in Eab. destruct Eab as [_ Ee]. inversion Ee. congruence.
           ++ change (a ++ (k', v') :: b ++ [e]) with (a ++ ((k', v') :: b) ++ [e]) in Eab.
              rewrite app_assoc in Eab. apply app_inj_tail in Eab. destruct Eab as [-> <-].
              exists a, b. split; [reflexivity|]. intros Hb. apply Nb. rewrite map_app.
              apply in_or_app. left. exact Hb.
    + exists m2, f2. split; [exact E2|]. split; [exact H2|]. intros k' v'. rewrite F2, <- app_assoc.
      reflexivity.
Qed.

(** Whatever is inserted, the map answers with the last value of a key, lists every key once and
    returns the value it replaces; no search fails to end. *)
Lemma pf_C90_map :
  forall K V S (O : key_ops K), sound_scheme S ->
    (forall a b, key_eqb O a b = true <-> a = b) ->
    forall l : list (K * V), exists m,
      insert_all S O l = Ok m /\ holds S O m (last_value l) /\
      forall k v, exists m' o, hm_insert S O m k v = Ok (m', o) /\
        (forall w, o = Some w <-> last_value l k w) /\
        holds S O m' (last_value (l ++ [(k, v)])).
Proof.
  intros K V S O (size & S1 & Z) E l.
  assert (F0 : forall (k : K) (v : V), None = Some v <-> last_value (@nil (K * V)) k v).
  { intros k v. split; [discriminate|]. intros (a & b & H & _). destruct a; discriminate. }
  destruct (insert_all_loop S O size E Z [] l hm_new _ (new_ok S O size S1) F0)
    as (m & f & Em & Hm & Fm).
  exists m. split; [exact Em|]. split; [eapply rep_holds; eauto|].
  intros k v.
  destruct (insert_ok S O size m f _ k v E Z Hm (assoc_updated O f k v E)) as (m1 & E1 & H1).
  exists m1, (f k). split; [exact E1|]. split; [intros w; apply Fm|].
  destruct (insert_all_loop S O size E Z [] (l ++ [(k, v)]) hm_new _ (new_ok S O size S1) F0)
    as (m2 & f2 & Em2 & Hm2 & Fm2).
  assert (m2 = m1) as ->.
  { assert (Q : forall l1 (m0 : HashMap K V),
      for_each (fun m '(k, v) => let* (m, _) := hm_insert S O m k v in Ok m) (l1 ++ [(k, v)]) m0
      = let* m := for_each (fun m '(k, v) => let* (m, _) := hm_insert S O m k v in Ok m) l1 m0 in
        let* (m, _) := hm_insert S O m k v in Ok m).
    { induction l1 as [|[k1 v1] l1 IH]; intros m0; cbn.
      - destruct (hm_insert S O m0 k v) as [[? ?]|]; reflexivity.
      - destruct (hm_insert S O m0 k1 v1) as [[? ?]|]; cbn; [apply IH|reflexivity]. }
    rewrite Q in Em2. unfold insert_all in Em. rewrite Em in Em2. cbn [bind] in Em2.
    rewrite E1 in Em2. cbn [bind] in Em2. congruence. }
  eapply rep_holds; eauto.
Qed.

(** ** The scheme of the standard library *)

(** Triangular numbers reach every remainder of a power of two. *)
Lemma triangular (m : nat) (q : N) :
  exists j, (j < 2 ^ N.of_nat m)%N /\
    ((j * (j + 1) / 2) mod 2 ^ N.of_nat m = q mod 2 ^ N.of_nat m)%N.
Proof.
  induction m as [|m (j & Hj & Ej)].
  - exists 0%N. cbn. rewrite !N.mod_1_r. split; [reflexivity|reflexivity].
  - set (M := (2 ^ N.of_nat m)%N) in *.
    assert (P : (2 ^ N.of_nat (S m) = 2 * M)%N)
      by (rewrite Nnat.Nat2N.inj_succ, N.pow_succ_r'; reflexivity).
    assert (M0 : M <> 0%N) by (apply N.pow_nonzero; lia).
    rewrite P.
    assert (T : exists t, (j * (j + 1) = 2 * t)%N).
    { destruct (N.Even_or_Odd j) as [[h ->]|[h ->]].
      - exists (h * (2 * h + 1))%N. lia.
      - exists ((2 * h + 1) * (h + 1))%N. lia. }
    destruct T as [t Et]. assert (Ht : (j * (j + 1) / 2 = t)%N)
      by (rewrite Et, N.mul_comm; apply N.div_mul; lia).
    rewrite Ht in Ej.
    assert (D : (t mod (2 * M) = q mod (2 * M) \/ (t + M) mod (2 * M) = q mod (2 * M))%N).
    { pose proof (N.div_mod t M M0). pose proof (N.div_mod q M M0).
      pose proof (N.mod_lt t M M0).
      rewrite !(N.mul_comm 2 M), !N.mod_mul_r by lia.
      rewrite (N.add_mod t M M), N.mod_same, N.add_0_r, N.mod_mod by lia.
      replace (t + M)%N with (t + 1 * M)%N by lia. rewrite N.div_add by lia.
      rewrite Ej.
      destruct (N.Even_or_Odd (t / M)) as [[a Ea]|[a Ea]];
      destruct (N.Even_or_Odd (q / M)) as [[b Eb]|[b Eb]]; rewrite Ea, Eb.
      - left. rewrite !(N.mul_comm 2), !N.mod_mul by lia. reflexivity.
      - right. replace (2 * a + 1)%N with (1 + a * 2)%N by lia.
        replace (2 * b + 1)%N with (1 + b * 2)%N by lia. rewrite !N.mod_add by lia. reflexivity.
      - right. replace (2 * a + 1 + 1)%N with (0 + (a + 1) * 2)%N by lia.
        replace (2 * b)%N with (0 + b * 2)%N by lia. rewrite !N.mod_add by lia. reflexivity.
      - left. replace (2 * a + 1)%N with (1 + a * 2)%N by lia.
        replace (2 * b + 1)%N with (1 + b * 2)%N by lia. rewrite !N.mod_add by lia. reflexivity. }
    destruct D as [D|D].
    + exists j. split; [clear - Hj; lia|]. rewrite Ht. exact D.
    + exists (2 * M - 1 - j)%N. split; [clear - Hj M0; lia|].
      set (i := (M - 1 - j)%N). assert (Hi : (M = i + 1 + j)%N) by (clear - Hj; lia).
      assert (X : ((2 * M - 1 - j) * (2 * M - 1 - j + 1) = 2 * (t + M + (2 * M) * i))%N).
      { clear - Hi Et Hj. clearbody M. replace (2 * M - 1 - j)%N with (2 * i + 1 + j)%N by lia.
        clearbody i. subst M.
        replace ((2 * i + 1 + j) * (2 * i + 1 + j + 1))%N
          with (j * (j + 1) + 2 * (i + 1 + j) + 4 * (i + 1 + j) * i)%N by ring.
        rewrite Et. ring. }
      rewrite X, N.mul_comm, N.div_mul by discriminate.
      rewrite N.mul_comm with (n := (2 * M)%N) (m := i), N.mod_add by (clear - M0; lia). exact D.
Qed.

Lemma std_explores g h k : explores (std_probe g h (2 ^ k)) (2 ^ k).
Proof.
  assert (C0 : N.of_nat (2 ^ k) <> 0%N).
  { assert (2 ^ k <> 0) by (apply Nat.pow_nonzero; lia). lia. }
  intros i. unfold std_probe. rewrite in_flat_map. split.
  - intros (j & _ & Hi). apply in_map_iff in Hi. destruct Hi as (x & <- & _).
    match goal with |- N.to_nat (?a mod ?b) < _ => pose proof (N.mod_lt a b C0) end. lia.
  - intros Hi.
    assert (CN : N.of_nat (2 ^ k) = (2 ^ N.of_nat k)%N) by (rewrite Nnat.Nat2N.inj_pow; reflexivity).
    set (C := N.of_nat (2 ^ k)) in *. set (W := (2 ^ g)%N).
    assert (W0 : W <> 0%N) by (apply N.pow_nonzero; lia).
    (* the distance from the first slot *)
    set (y := ((N.of_nat i + (C - h mod C)) mod C)%N).
    assert (Hy : ((h + y) mod C = N.of_nat i)%N).
    { unfold y. rewrite N.add_mod_idemp_r by exact C0. pose proof (N.mod_lt h C C0).
      rewrite <- N.add_mod_idemp_l by exact C0.
      replace (h mod C + (N.of_nat i + (C - h mod C)))%N with (N.of_nat i + 1 * C)%N by lia.
      rewrite N.mod_add by exact C0. apply N.mod_small. lia. }
    assert (Yl : (y < C)%N) by (apply N.mod_lt; exact C0).
    destruct (N.le_gt_cases (N.of_nat k) g) as [L|L].
    + exists 0. split; [apply in_seq; lia|]. apply in_map_iff. exists (N.to_nat y).
      assert (C <= W)%N by (rewrite CN; apply N.pow_le_mono_r; lia).
      split; [|apply in_seq; lia]. change (N.of_nat 0 * (N.of_nat 0 + 1) / 2)%N with 0%N.
      rewrite N.mul_0_r, N.add_0_r, Nnat.N2Nat.id, Hy. lia.
    + set (d := k - N.to_nat g).
      assert (CW : (C = W * 2 ^ N.of_nat d)%N).
      { rewrite CN. unfold W. rewrite <- N.pow_add_r. f_equal. lia. }
      destruct (triangular d (y / W)) as (j & Hj & Ej).
      assert (Hc : (j < C)%N).
      { rewrite CW. eapply N.lt_le_trans; [exact Hj|].
        rewrite <- (N.mul_1_l (2 ^ N.of_nat d)) at 1. apply N.mul_le_mono_r. clear - W0. lia. }
      exists (N.to_nat j). split; [apply in_seq; clear - Hc; unfold C in Hc; lia|].
      apply in_map_iff.
      exists (N.to_nat (y mod W)). pose proof (N.mod_lt y W W0).
      split; [|apply in_seq; lia]. rewrite !Nnat.N2Nat.id.
      set (T := (j * (j + 1) / 2)%N) in *.
      assert (R : ((W * T + y mod W) mod C = y)%N).
      { assert (Q : (T mod 2 ^ N.of_nat d = y / W)%N).
        { rewrite Ej. apply N.mod_small. apply N.div_lt_upper_bound; [exact W0|rewrite <- CW; exact Yl]. }
        pose proof (N.div_mod y W W0) as Y.
        assert (D0 : (2 ^ N.of_nat d <> 0)%N) by (apply N.pow_nonzero; lia).
        pose proof (N.div_mod T (2 ^ N.of_nat d) D0) as TT. rewrite Q in TT.
        replace (W * T + y mod W)%N with (y + (T / 2 ^ N.of_nat d) * C)%N.
        2: { rewrite CW. rewrite Y at 1. rewrite TT at 2. ring. }
        rewrite N.mod_add by exact C0. apply N.mod_small. exact Yl. }
      rewrite <- N.add_assoc, <- N.add_mod_idemp_r, R, Hy by exact C0. apply Nnat.Nat2N.id.
Qed.

Lemma std_sizes k :
  std_room (2 ^ k) < 2 ^ k /\
  exists k', std_enlarge (2 ^ k) = 2 ^ k' /\ std_room (2 ^ k) < std_room (2 ^ k').
Proof.
  destruct k as [|[|[|[|k]]]].
  1-4: split; [vm_compute; lia|].
  - exists 2. vm_compute. split; [reflexivity|lia].
  - exists 2. vm_compute. split; [reflexivity|lia].
  - exists 3. vm_compute. split; [reflexivity|lia].
  - exists 4. vm_compute. split; [reflexivity|lia].
  - set (x := 2 ^ k). assert (X : 1 <= x) by (assert (x <> 0) by (apply Nat.pow_nonzero; lia); lia).
    assert (P : 2 ^ S (S (S (S k))) = 16 * x) by (cbn [Nat.pow]; fold x; lia).
    assert (R : std_room (16 * x) = 14 * x).
    { unfold std_room. destruct (Nat.leb_spec (16 * x) 8); [lia|].
      replace (16 * x) with (2 * x * 8) by lia. rewrite Nat.div_mul by lia. lia. }
    rewrite P, R. split; [lia|]. exists (S (S (S (S (S k))))).
    assert (P' : 2 ^ S (S (S (S (S k)))) = 32 * x) by (cbn [Nat.pow]; fold x; lia).
    assert (R' : std_room (32 * x) = 28 * x).
    { unfold std_room. destruct (Nat.leb_spec (32 * x) 8); [lia|].
      replace (32 * x) with (4 * x * 8) by lia. rewrite Nat.div_mul by lia. lia. }
    split; [|rewrite P', R'; lia].
    unfold std_enlarge. rewrite R.
    destruct (Nat.ltb_spec (14 * x + 1) 4); [lia|]. destruct (Nat.ltb_spec (14 * x + 1) 8); [lia|].
    f_equal. replace ((14 * x + 1) * 8) with (1 + (16 * x + 1) * 7) by lia.
    rewrite Nat.div_add by lia. change (1 / 7) with 0. cbn [Nat.add].
    apply Nat.log2_up_unique; [lia|]. cbn [Nat.pred]. rewrite P, P'. lia.
Qed.

(** The scheme of the standard library is sound, for every hasher and every width of a group. *)
Lemma pf_C90_std : forall digest g, sound_scheme (std_scheme digest g).
Proof.
  intros digest g. exists (fun c => exists k, c = 2 ^ k). split; [exists 0; reflexivity|].
  intros c [k ->]. cbn [room probe enlarge std_scheme].
  destruct (std_sizes k) as (R & k' & E & L). rewrite E.
  split; [exact R|]. split; [intros h; apply std_explores|]. split; [exists k'; reflexivity|exact L].
Qed.

(** ** The maps of the source *)

Lemma variant_key_exact t : exact_eq (variant_key t).
Proof. intros a b. apply eqb_iff. Qed.

Lemma name_key_exact : exact_eq name_key.
Proof. intros a b. apply String.eqb_eq. Qed.

(** The hashed and the listed form of a map, when both are there. *)
Definition same_map {V} S t size (h : res (HashMap OpcodeVariant V))
    (m : res (list (OpcodeVariant * V))) : Prop :=
  match h, m with
  | Ok h, Ok m => rep S (variant_key t) size h (map_get m)
  | Panic, Panic => True
  | _, _ => False
  end.

Lemma insert_same {V} S t size (h : HashMap OpcodeVariant V) m k v :
  sizes_of S size -> rep S (variant_key t) size h (map_get m) ->
  exists h', hm_insert S (variant_key t) h k v = Ok (h', map_get m k) /\
    rep S (variant_key t) size h' (map_get (map_insert m k v)).
Proof.
  intros Z H. apply insert_ok; [apply variant_key_exact|exact Z|exact H|]. split.
  - rewrite map_get_insert, eqb_refl. reflexivity.
  - intros k' Hk. rewrite map_get_insert. destruct (OpcodeVariant_eqb k k') eqn:E; [|reflexivity].
    apply eqb_iff in E. congruence.
Qed.

Lemma new_same {V} S t (size : nat -> Prop) :
  size 1 -> rep S (variant_key t) size (@hm_new _ V) (map_get []).
Proof. intros H. exact (new_ok S (variant_key t) size H). Qed.

Lemma canonical_same S t (size : nat -> Prop) table :
  size 1 -> sizes_of S size ->
  same_map S t size (canonical_map_hashed S t table) (canonical_map_of_table table).
Proof.
  intros S1 Z. unfold canonical_map_hashed, canonical_map_of_table.
  generalize (enumerate table). intros l.
  assert (H := @new_same N S t size S1). revert H.
  generalize (@hm_new OpcodeVariant N). generalize (@nil (OpcodeVariant * N)).
  induction l as [|[i x] l IH]; intros m h H; cbn [for_each]; [exact H|].
  rewrite (rep_get S (variant_key t) size h _ x (variant_key_exact t) Z H). cbn [bind].
  destruct (map_get m x) as [k|] eqn:E.
  - destruct (index table k) as [e|]; cbn [bind]; [|exact I].
    destruct (OpcodeVariant_eqb e INVALID_OPCODE_VARIANT); cbn [assert_ bind]; [|exact I].
    apply IH. exact H.
  - destruct (insert_same S t size h m x i Z H) as (h' & -> & H'). cbn [bind]. apply IH. exact H'.
Qed.

Lemma monotonic_same S t (size : nat -> Prop) table :
  size 1 -> sizes_of S size ->
  same_map S t size (monotonic_map_hashed S t table) (monotonic_map_of_table table).
Proof.
  intros S1 Z. unfold monotonic_map_hashed, monotonic_map_of_table.
  generalize (enumerate table). intros l.
  assert (H := @new_same VariantMonotonicNumber S t size S1). revert H.
  generalize (@hm_new OpcodeVariant VariantMonotonicNumber).
  generalize (@nil (OpcodeVariant * VariantMonotonicNumber)).
  induction l as [|[i x] l IH]; intros m h H; cbn [for_each]; [exact H|].
  rewrite (rep_get S (variant_key t) size h _ x (variant_key_exact t) Z H). cbn [bind].
  destruct (map_get m x) as [k|] eqn:E.
  - destruct (index table (VariantMonotonicNumber_into_usize k)) as [e|]; cbn [bind]; [|exact I].
    destruct (OpcodeVariant_eqb e INVALID_OPCODE_VARIANT); cbn [assert_ bind]; [|exact I].
    apply IH. exact H.
  - destruct (insert_same S t size h m x (VariantMonotonicNumber_from_usize i) Z H)
      as (h' & -> & H').
    cbn [bind]. apply IH. exact H'.
Qed.

(** The lookup map of any table: it panics exactly when a variant other than the invalid one
    repeats, and otherwise holds the first positions. *)
Lemma pf_C90_canonical :
  forall S t table, sound_scheme S ->
    match canonical_map_hashed S t table with
    | Ok m => ~ spec_repeats table /\ holds S (variant_key t) m (first_at table)
    | Panic => spec_repeats table
    end.
Proof.
  intros S t table (size & S1 & Z). pose proof (canonical_same S t size table S1 Z) as H.
  destruct (pf_C14_any_table table) as (P & _ & G & _). unfold same_map in H.
  destruct (canonical_map_hashed S t table) as [h|];
  destruct (canonical_map_of_table table) as [m|] eqn:E; try contradiction.
  - split; [intros R; apply P in R; discriminate|].
    apply (rep_holds S _ size h _ _ (variant_key_exact t) Z H).
    intros k v. rewrite (G m eq_refl k). symmetry. apply first_at_iff.
  - apply P. reflexivity.
Qed.

Lemma pf_C90_monotonic :
  forall S t table, sound_scheme S ->
    match monotonic_map_hashed S t table with
    | Ok m => ~ spec_repeats table /\
        holds S (variant_key t) m (fun x n => first_at table x (monotonic_number n))
    | Panic => spec_repeats table
    end.
Proof.
  intros S t table (size & S1 & Z). pose proof (monotonic_same S t size table S1 Z) as H.
  destruct (pf_C14_any_table table) as (_ & P & _ & G). unfold same_map in H.
  destruct (monotonic_map_hashed S t table) as [h|];
  destruct (monotonic_map_of_table table) as [m|] eqn:E; try contradiction.
  - split; [intros R; apply P in R; discriminate|].
    apply (rep_holds S _ size h _ _ (variant_key_exact t) Z H).
    intros k [v]. rewrite (G m eq_refl k), first_at_iff. cbn [monotonic_number].
    destruct (first_index table k) as [n|]; cbn [option_map]; split; intros Q; try discriminate;
      [injection Q as ->|injection Q as ->]; reflexivity.
  - apply P. reflexivity.
Qed.

(** The duplicate check of the names. *)
Lemma names_loop S (size : nat -> Prop) :
  size 1 -> sizes_of S size ->
  forall ops checker f, rep S name_key size checker f ->
  match for_each (fun checker op =>
              let* (checker, previous) := hm_insert S name_key checker (name op) tt in
              let is_new := match previous with None => true | Some _ => false end in
              let* _ := assert_ is_new in
              Ok checker) ops checker with
  | Ok m => NoDup (map name ops) /\ (forall op, In op ops -> f (name op) = None) /\
      exists f', rep S name_key size m f' /\
        forall k, f' k = Some tt <-> f k = Some tt \/ In k (map name ops)
  | Panic => ~ (NoDup (map name ops) /\ forall op, In op ops -> f (name op) = None)
  end.
Proof.
  intros S1 Z. induction ops as [|op ops IH]; intros checker f H; cbn [for_each].
  - split; [constructor|]. split; [intros ? []|]. exists f. split; [exact H|]. intros k. cbn. tauto.
  - destruct (insert_ok S name_key size checker f _ (name op) tt name_key_exact Z H
                (assoc_updated name_key f (name op) tt name_key_exact)) as (m1 & -> & H1).
    cbn [bind]. set (g := assoc (key_eqb name_key) f (name op) tt) in *.
    assert (G : forall k, g k = None <-> k <> name op /\ f k = None).
    { intros k. unfold g, assoc. cbn [key_eqb name_key].
      destruct (String.eqb_spec k (name op)) as [->|N]; [|tauto].
      split; [discriminate|]. intros [A _]. congruence. }
    destruct (f (name op)) as [u|] eqn:Ef; cbn [assert_ bind].
    + intros [_ A]. specialize (A op (or_introl eq_refl)). congruence.
    + specialize (IH m1 g H1). revert IH.
      match goal with |- context [for_each ?F ops m1] => destruct (for_each F ops m1) as [m2|] end.
      * intros (N & A & f' & H' & F'). split; [|split].
        -- cbn. constructor; [|exact N]. intros Hin. apply in_map_iff in Hin.
           destruct Hin as (o & Eo & Ho). specialize (A o Ho). apply G in A. destruct A. congruence.
        -- intros o [<-|Ho]; [exact Ef|]. apply A in Ho. apply G in Ho. apply Ho.
        -- exists f'. split; [exact H'|]. intros k. rewrite F'. cbn [map In].
           unfold g, assoc. cbn [key_eqb name_key].
           destruct (String.eqb_spec k (name op)) as [->|Nk]; [tauto|].
           split; [intros [?|?]; auto|]. intros [?|[?|?]]; auto. congruence.
      * intros A [N B]. apply A. cbn in N. inversion N as [|? ? Hn N']; subst. split; [exact N'|].
        intros o Ho. apply G. split; [|apply B; right; exact Ho].
        intros Eo. apply Hn. rewrite <- Eo. apply in_map. exact Ho.
Qed.

Lemma pf_C90_names :
  forall S ops, sound_scheme S ->
    match check_unique_names_hashed S ops with
    | Ok m => NoDup (map name ops) /\
        holds S name_key m (fun x (_ : unit) => In x (map name ops)) /\
        exists l, check_unique_names ops = Ok l
    | Panic => ~ NoDup (map name ops) /\ check_unique_names ops = Panic
    end.
Proof.
  intros S ops (size & S1 & Z).
  pose proof (names_loop S size S1 Z ops hm_new _ (new_ok S name_key size S1)) as H.
  pose proof (names_iff ops) as I. unfold check_unique_names_hashed. revert H.
  match goal with |- context [for_each ?F ops hm_new] => destruct (for_each F ops hm_new) as [m|] end;
    intros H.
  - destruct H as (N & _ & f & R & F). split; [exact N|]. split; [|apply I; exact N].
    apply (rep_holds S name_key size m f _ name_key_exact Z R). intros k [].
    rewrite F. split; [intros [?|?]; [discriminate|assumption]|auto].
  - assert (N : ~ NoDup (map name ops)) by (intros N; apply H; split; [exact N|reflexivity]).
    split; [exact N|]. destruct (check_unique_names ops) as [l|]; [|reflexivity].
    exfalso. apply N, I. exists l. reflexivity.
Qed.

(** Encoding does not depend on the scheme, the hasher or the target. *)
Lemma pf_C90_encode :
  forall S t m table bld d, sound_scheme S ->
    encode_hashed S t m table bld d = encode_in m table bld d.
Proof.
  intros S t m table bld d (size & S1 & Z). pose proof (canonical_same S t size table S1 Z) as H.
  unfold encode_hashed, encode_in, same_map in *.
  destruct (canonical_map_hashed S t table) as [h|];
  destruct (canonical_map_of_table table) as [c|]; try contradiction;
    [|destruct m; reflexivity].
  destruct m; unfold prod_encode_as_integer_hashed, prod_encode_as_integer_with,
    test_encode_as_integer_hashed, test_encode_as_integer_with; cbn [bind];
    rewrite (rep_get S _ size h _ (variant d) (variant_key_exact t) Z H); reflexivity.
Qed.

(** ** The statics and the shipped encoders *)

Lemma hashed_map_shipped S t (size : nat -> Prop) :
  size 1 -> sizes_of S size ->
  exists h, OPCODE_TO_CANONICAL_INDEX_LOOKUP_MAP_hashed S t = Ok h /\
    exists m, OPCODE_TO_CANONICAL_INDEX_LOOKUP_MAP = Ok m /\
      rep S (variant_key t) size h (map_get m).
Proof.
  intros S1 Z. unfold OPCODE_TO_CANONICAL_INDEX_LOOKUP_MAP_hashed.
  destruct canonical_map_defined as (m & E & _). rewrite E. rewrite canonical_map_eq in E.
  rewrite OPCODES_TABLE_eq. cbn [bind].
  pose proof (canonical_same S t size padded_table S1 Z) as H. unfold same_map in H.
  rewrite E in H. destruct (canonical_map_hashed S t padded_table) as [h|]; [|contradiction].
  exists h. split; [reflexivity|]. exists m. split; [reflexivity|exact H].
Qed.

(** The four statics that are looked up. *)
Lemma pf_C90_statics :
  forall S t, sound_scheme S ->
    NOP_OPCODE_VARIANT_hashed S t = NOP_OPCODE_VARIANT /\
    NOP_BITSPREAD_U64_hashed S t = NOP_BITSPREAD_U64 /\
    PANIC_OPCODE_VARIANT_hashed S t = PANIC_OPCODE_VARIANT /\
    PANIC_BITSPREAD_U64_hashed S t = PANIC_BITSPREAD_U64.
Proof.
  intros S t (size & S1 & Z). destruct (hashed_map_shipped S t size S1 Z) as (h & Eh & m & Em & H).
  assert (A : forall v, static_variant_hashed S t v
    = let* m := OPCODE_TO_CANONICAL_INDEX_LOOKUP_MAP in
      let* _ := assert_ (contains_key m v) in Ok v).
  { intros v. unfold static_variant_hashed, hm_contains_key. rewrite Eh, Em. cbn [bind].
    rewrite (rep_get S _ size h _ v (variant_key_exact t) Z H). reflexivity. }
  assert (B : forall v, bitspread_hashed S t v
    = let* m := OPCODE_TO_CANONICAL_INDEX_LOOKUP_MAP in
      let* v := v in
      let* idx := unwrap (map_get m v) in
      let* masks := OPCODES_PROPS_INTEGER_BITMASKS in
      index masks idx).
  { intros [v|]; unfold bitspread_hashed; rewrite Eh, Em; cbn [bind]; [|reflexivity].
    rewrite (rep_get S _ size h _ v (variant_key_exact t) Z H). reflexivity. }
  assert (N : NOP_OPCODE_VARIANT_hashed S t = NOP_OPCODE_VARIANT) by (apply A).
  assert (P : PANIC_OPCODE_VARIANT_hashed S t = PANIC_OPCODE_VARIANT) by (apply A).
  split; [exact N|]. split; [|split; [exact P|]].
  - unfold NOP_BITSPREAD_U64_hashed. rewrite N. apply B.
  - unfold PANIC_BITSPREAD_U64_hashed. rewrite P. apply B.
Qed.

(** The shipped encoders, and the number every variant of the shipped table has. *)
Lemma pf_C90_shipped :
  forall S t, sound_scheme S ->
    (exists h, OPCODE_TO_CANONICAL_INDEX_LOOKUP_MAP_hashed S t = Ok h /\
       holds S (variant_key t) h (fun x n => spec_number x = Some n)) /\
    (forall bld d,
       prod_encode_as_integer_hashed S t (OPCODE_TO_CANONICAL_INDEX_LOOKUP_MAP_hashed S t) bld d
       = serialize_as_integer EncodingModeProduction bld d) /\
    (forall bld d,
       test_encode_as_integer_hashed S t (OPCODE_TO_CANONICAL_INDEX_LOOKUP_MAP_hashed S t) bld d
       = serialize_as_integer EncodingModeTesting bld d).
Proof.
  intros S t (size & S1 & Z). destruct (hashed_map_shipped S t size S1 Z) as (h & Eh & m & Em & H).
  split; [|split].
  - exists h. split; [exact Eh|].
    apply (rep_holds S _ size h _ _ (variant_key_exact t) Z H). intros k v.
    destruct canonical_map_defined as (m' & Em' & G). assert (m' = m) as -> by congruence.
    rewrite G. reflexivity.
  - intros bld d. rewrite Eh.
    change (serialize_as_integer EncodingModeProduction bld d)
      with (prod_encode_as_integer_with OPCODE_TO_CANONICAL_INDEX_LOOKUP_MAP bld d).
    rewrite Em. unfold prod_encode_as_integer_hashed, prod_encode_as_integer_with. cbn [bind].
    rewrite (rep_get S _ size h _ (variant d) (variant_key_exact t) Z H). reflexivity.
  - intros bld d. rewrite Eh.
    change (serialize_as_integer EncodingModeTesting bld d)
      with (test_encode_as_integer_with OPCODE_TO_CANONICAL_INDEX_LOOKUP_MAP bld d).
    rewrite Em. unfold test_encode_as_integer_hashed, test_encode_as_integer_with. cbn [bind].
    rewrite (rep_get S _ size h _ (variant d) (variant_key_exact t) Z H). reflexivity.
Qed.

(** ** The order of iteration *)

(** Two maps of the same table list the same entries. *)
Lemma pf_C90_entries :
  forall S S' t t' table m m', sound_scheme S -> sound_scheme S' ->
    canonical_map_hashed S t table = Ok m -> canonical_map_hashed S' t' table = Ok m' ->
    Permutation (hm_iter m) (hm_iter m') /\ items m = items m'.
Proof.
  intros S S' t t' table m m' HS HS' E E'.
  pose proof (pf_C90_canonical S t table HS) as A. rewrite E in A.
  pose proof (pf_C90_canonical S' t' table HS') as B. rewrite E' in B.
  destruct A as (_ & _ & A & NA & LA). destruct B as (_ & _ & B & NB & LB).
  assert (P : Permutation (hm_iter m) (hm_iter m')).
  { apply NoDup_Permutation.
    - exact (NoDup_map_inv _ _ NA).
    - exact (NoDup_map_inv _ _ NB).
    - intros [k v]. rewrite A, B. reflexivity. }
  split; [exact P|]. rewrite LA, LB. apply Permutation_length. exact P.
Qed.

(** The sizes of a table with the rule of the standard library: a slot in eight stays empty. *)
Lemma pf_C90_sizes :
  std_room 1 = 0 /\ std_enlarge 1 = 4 /\ std_room 4 = 3 /\
  forall k, std_room (8 * 2 ^ k) = 7 * 2 ^ k /\ std_enlarge (4 * 2 ^ k) = 8 * 2 ^ k.
Proof.
  split; [reflexivity|]. split; [reflexivity|]. split; [reflexivity|].
  assert (R : forall k, std_room (8 * 2 ^ k) = 7 * 2 ^ k).
  { intros [|k]; [reflexivity|]. set (y := 2 ^ S k).
    assert (Y : 2 <= y).
    { unfold y. cbn [Nat.pow]. assert (2 ^ k <> 0) by (apply Nat.pow_nonzero; lia). lia. }
    unfold std_room. destruct (Nat.leb_spec (8 * y) 8); [lia|].
    replace (8 * y) with (y * 8) by lia. rewrite Nat.div_mul by lia. lia. }
  intros k. split; [apply R|]. destruct k as [|k]; [reflexivity|].
  replace (4 * 2 ^ S k) with (8 * 2 ^ k) by (cbn [Nat.pow]; lia).
  unfold std_enlarge. rewrite R. set (x := 2 ^ k).
  assert (X : 1 <= x) by (assert (x <> 0) by (apply Nat.pow_nonzero; lia); lia).
  destruct (Nat.ltb_spec (7 * x + 1) 4); [lia|]. destruct (Nat.ltb_spec (7 * x + 1) 8); [lia|].
  assert (E : 8 * 2 ^ S k = 2 ^ S (S (S (S k)))) by (cbn [Nat.pow]; lia). rewrite E. f_equal.
  replace ((7 * x + 1) * 8) with (1 + (8 * x + 1) * 7) by lia.
  rewrite Nat.div_add by lia. change (1 / 7) with 0. cbn [Nat.add].
  apply Nat.log2_up_unique; [lia|]. cbn [Nat.pred Nat.pow]. fold x. lia.
Qed.

Definition sample_table : list OpcodeVariant :=
  [ INVALID_OPCODE_VARIANT;
    mkOpcodeVariant (Op_Nop nopOpcode) (Full UseRegOnly) (Full UseRegOnly) (false, false);
    mkOpcodeVariant (Op_Ret RetOpcode_Panic) RegOnly RegOnly (false, false);
    INVALID_OPCODE_VARIANT ].
Definition sample_target : hash_target := mkHashTarget 8 8 1 false.

(** False: a map of the same table lists its entries in the same order in every process. *)
Lemma pf_C90_order_refuted :
  ~ (forall S S' t table m m', sound_scheme S -> sound_scheme S' ->
       canonical_map_hashed S t table = Ok m -> canonical_map_hashed S' t table = Ok m' ->
       hm_iter m = hm_iter m').
Proof.
  intros H.
  pose proof (H (std_scheme constant_digest 4) (std_scheme weighted_digest 4) sample_target
    sample_table) as C.
  destruct (canonical_map_hashed (std_scheme constant_digest 4) sample_target sample_table)
    as [m|] eqn:E; [|vm_compute in E; discriminate].
  destruct (canonical_map_hashed (std_scheme weighted_digest 4) sample_target sample_table)
    as [m'|] eqn:E'; [|vm_compute in E'; discriminate].
  specialize (C m m' (pf_C90_std _ _) (pf_C90_std _ _) eq_refl eq_refl).
  apply (f_equal (map snd)) in C. revert C.
  vm_compute in E. injection E as <-. vm_compute in E'. injection E' as <-.
  vm_compute. discriminate.
Qed.

(** False: trying every slot is enough.  Without an empty slot the search for an absent key has
    no end. *)
Lemma pf_C90_load_refuted :
  ~ (forall S t table, (forall h c, explores (probe S h c) c) ->
       (forall c, c < enlarge S c \/ c = 0) -> ~ spec_repeats table ->
       exists m, canonical_map_hashed S t table = Ok m).
Proof.
  intros H. destruct (H brimful sample_target (firstn 2 sample_table)) as [m E].
  - intros h c i. cbn. rewrite in_seq. lia.
  - intros c. cbn [enlarge brimful]. lia.
  - intros R. pose proof (pf_C90_canonical (std_scheme constant_digest 4) sample_target
      (firstn 2 sample_table) (pf_C90_std _ _)) as C. revert C.
    destruct (canonical_map_hashed (std_scheme constant_digest 4) sample_target
      (firstn 2 sample_table)) as [m|] eqn:E; [|vm_compute in E; discriminate].
    intros [C _]. exact (C R).
  - vm_compute in E. discriminate.
Qed.

(** Two hashers, one of them with every key in the same place. *)
Example pf_C90_example :
  let S := std_scheme constant_digest 4 in
  let S' := std_scheme weighted_digest 4 in
  let t := mkHashTarget 8 8 1 false in
  let nop :=
    mkOpcodeVariant (Op_Nop nopOpcode) (Full UseRegOnly) (Full UseRegOnly) (false, false) in
  let panic := mkOpcodeVariant (Op_Ret RetOpcode_Panic) RegOnly RegOnly (false, false) in
  let table := [INVALID_OPCODE_VARIANT; nop; panic; INVALID_OPCODE_VARIANT] in
  sound_scheme S /\ sound_scheme S' /\
  (exists m m', canonical_map_hashed S t table = Ok m /\ canonical_map_hashed S' t table = Ok m' /\
     map snd (hm_iter m) = [0; 1; 2]%N /\ map snd (hm_iter m') = [1; 0; 2]%N /\
     List.length (slots m) = 4 /\ items m = 3 /\
     hm_get S (variant_key t) m panic = Ok (Some 2%N) /\
     hm_get S' (variant_key t) m' panic = Ok (Some 2%N)) /\
  canonical_map_hashed S t [nop; panic; nop] = Panic /\
  canonical_map_hashed S' t [nop; panic; nop] = Panic /\
  (exists m, insert_all S' name_key (map (fun s => (s, s)) ["a"; "b"; "c"; "d"; "b"]%string) = Ok m /\
     List.length (slots m) = 8 /\ items m = 4 /\ hm_get S' name_key m "d"%string = Ok (Some "d"%string)).
Proof.
  cbv zeta. split; [apply pf_C90_std|]. split; [apply pf_C90_std|]. split; [|split; [|split]].
  - eexists. eexists. split; [vm_compute; reflexivity|]. split; [vm_compute; reflexivity|].
    repeat split; vm_compute; reflexivity.
  - vm_compute. reflexivity.
  - vm_compute. reflexivity.
  - eexists. split; [vm_compute; reflexivity|]. repeat split; vm_compute; reflexivity.
Qed.
