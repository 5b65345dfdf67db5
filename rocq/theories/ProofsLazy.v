(** * Proofs about the lazily computed statics (C91) *)

From Coq Require Import Arith NArith List Bool Lia.
From Verif Require Import Machine Operands OpcodeTrait Opcodes AllOpcodes Constants Tables Decoding
  LazyStatics SpecIsa SpecFamilies SpecCodec SpecLazy TableProofs TableProofs2 CodecProofs.
Import ListNotations.
Local Open Scope nat_scope.

(** ** Threads and statics *)

Lemma set_thread_length {A} (l : list A) i x : List.length (set_thread l i x) = List.length l.
Proof. revert i; induction l as [|y l IH]; intros [|i]; cbn; auto. Qed.

Lemma set_thread_same {A} (l : list A) i x y :
  nth_error l i = Some y -> nth_error (set_thread l i x) i = Some x.
Proof. revert i; induction l as [|z l IH]; intros [|i] H; cbn in *; try discriminate; auto. Qed.

Lemma set_thread_other {A} (l : list A) i j x :
  i <> j -> nth_error (set_thread l i x) j = nth_error l j.
Proof.
  revert i j; induction l as [|z l IH]; intros [|i] [|j] H; cbn; auto; try congruence.
Qed.

Lemma set_thread_inv {A} (l : list A) i j x y t :
  nth_error l i = Some y -> nth_error (set_thread l i x) j = Some t ->
  (j = i /\ t = x) \/ (j <> i /\ nth_error l j = Some t).
Proof.
  intros Hi H. destruct (Nat.eq_dec j i) as [->|N].
  - left. rewrite (set_thread_same l i x y Hi) in H. split; congruence.
  - right. rewrite set_thread_other in H by congruence. auto.
Qed.

Definition exact_on {L : Type} (eqb : L -> L -> bool) : Prop := forall a b, eqb a b = true <-> a = b.

Lemma set_state_same {L V} eqb (f : L -> once V) c x : exact_on eqb -> set_state eqb f c x c = x.
Proof. intros E. unfold set_state. rewrite (proj2 (E c c) eq_refl). reflexivity. Qed.

Lemma set_state_other {L V} eqb (f : L -> once V) c c' x :
  exact_on eqb -> c' <> c -> set_state eqb f c x c' = f c'.
Proof.
  intros E N. unfold set_state. destruct (eqb c' c) eqn:H; [|reflexivity].
  apply E in H. contradiction.
Qed.

Lemma eq_or {L} (eqb : L -> L -> bool) (E : exact_on eqb) (a b : L) : a = b \/ a <> b.
Proof.
  destruct (eqb a b) eqn:H; [left; apply E; exact H|right]. intros K. apply E in K. congruence.
Qed.

(** ** What a thread computes *)

Lemma yields_unique {L V} (init : L -> prog L V) p r r' :
  yields init p r -> yields init p r' -> r = r'.
Proof.
  intros H. revert r'. induction H as [r|c k v r _ IH1 _ IH2|c k _ IH]; intros r' H'.
  - inversion H'. reflexivity.
  - inversion H' as [|c' k' v' r'' Y1 Y2|c' k' Y]; subst.
    + apply IH1 in Y1. injection Y1 as <-. apply IH2. exact Y2.
    + apply IH1 in Y. discriminate Y.
  - inversion H' as [|c' k' v' r'' Y1 Y2|c' k' Y]; subst; [|reflexivity].
    apply IH in Y1. discriminate Y1.
Qed.

(** What is left of a computation leads to what the whole leads to. *)
Fixpoint leads {L V} (init : L -> prog L V) (cur : prog L V) (fr : list (L * (V -> prog L V)))
    (q : prog L V) : Prop :=
  match fr with
  | [] => forall r, yields init cur r -> yields init q r
  | (c, k) :: rest => (forall r, yields init cur r -> yields init (init c) r)
                      /\ leads init (Deref c k) rest q
  end.

Lemma leads_less {L V} (init : L -> prog L V) a b fr q :
  (forall r, yields init a r -> yields init b r) -> leads init b fr q -> leads init a fr q.
Proof.
  intros H. destruct fr as [|[c k] rest]; cbn.
  - intros K r Y. apply K, H, Y.
  - intros [K1 K2]. split; [|exact K2]. intros r Y. apply K1, H, Y.
Qed.

Record sane {L V} (init : L -> prog L V) (ps : list (prog L V)) (p : process L V) : Prop := mkSane {
  sane_length : List.length (threads p) = List.length ps;
  sane_begun : forall c, In c (begun p) <-> state_of p c <> Incomplete;
  sane_once : NoDup (begun p);
  sane_value : forall c v, state_of p c = Complete v -> yields init (init c) (Ok v);
  sane_panic : forall c, state_of p c = Poisoned -> yields init (init c) Panic;
  sane_leads : forall i t q, nth_error (threads p) i = Some t -> nth_error ps i = Some q ->
                 leads init (current t) (frames t) q;
  sane_inside : forall i t c, nth_error (threads p) i = Some t -> In c (map fst (frames t)) ->
                  state_of p c = Running i;
  sane_runs : forall c i, state_of p c = Running i ->
                exists t, nth_error (threads p) i = Some t /\ In c (map fst (frames t));
  sane_apart : forall i t, nth_error (threads p) i = Some t -> NoDup (map fst (frames t))
}.

Lemma sane_launch {L V} (init : L -> prog L V) ps : sane init ps (launch ps).
Proof.
  assert (T : forall i t, nth_error (threads (launch ps)) i = Some t ->
            exists q, nth_error ps i = Some q /\ t = mkThread q []).
  { intros i t H. cbn in H. rewrite nth_error_map in H.
    destruct (nth_error ps i) as [q|]; [|discriminate]. injection H as <-. exists q. auto. }
  constructor; cbn [launch state_of begun threads].
  - apply map_length.
  - intros c. cbn. split; [contradiction|congruence].
  - constructor.
  - discriminate.
  - discriminate.
  - intros i t q H Q. destruct (T i t H) as (q' & Q' & ->). assert (q' = q) by congruence. subst q'.
    cbn. auto.
  - intros i t c H. destruct (T i t H) as (q' & Q' & ->). cbn. contradiction.
  - discriminate.
  - intros i t H. destruct (T i t H) as (q' & Q' & ->). constructor.
Qed.

(** The thread that moves, and where it moves to. *)
Lemma sane_step {L V} eqb (init : L -> prog L V) ps p i p' :
  exact_on eqb -> sane init ps p -> step eqb init p i = Some p' -> sane init ps p'.
Proof.
  intros E S H. unfold step in H. destruct (nth_error (threads p) i) as [t|] eqn:T; [|discriminate].
  destruct S as [SL SB SO SV SP SF SI SR SA].
  assert (F := fun q => SF i t q T). assert (I := fun c => SI i t c T). assert (A := SA i t T).
  destruct t as [cur fr]. cbn [current frames] in *.
  destruct cur as [r|c k].
  - destruct fr as [|[c k] rest]; [discriminate|].
    assert (Rc : state_of p c = Running i) by (apply I; left; reflexivity).
    cbn [map fst] in A. inversion A as [|? ? NI ND]; subst.
    assert (Y : forall q, nth_error ps i = Some q -> yields init (init c) r).
    { intros q Q. apply (F q Q). constructor. }
    assert (QX : exists q, nth_error ps i = Some q).
    { destruct (nth_error ps i) as [q|] eqn:Q; [exists q; reflexivity|].
      apply nth_error_None in Q. assert (K : nth_error (threads p) i <> None) by congruence.
      apply nth_error_Some in K. rewrite SL in K. lia. }
    destruct QX as [q0 Q0]. specialize (Y q0 Q0).
    set (next := match r with Ok v => k v | Panic => Return Panic end).
    set (x := match r with Ok v => Complete v | Panic => Poisoned end).
    assert (H' : p' = mkProcess (set_state eqb (state_of p) c x)
                        (set_thread (threads p) i (mkThread next rest)) (begun p)).
    { unfold next, x. destruct r; congruence. }
    clear H. subst p'.
    assert (X : x <> Incomplete /\ (forall j, x <> Running j)).
    { unfold x. destruct r; split; congruence. }
    destruct X as [X1 X2].
    constructor; cbn [state_of threads begun].
    + rewrite set_thread_length. exact SL.
    + intros c'. destruct (eq_or eqb E c' c) as [->|N].
      * rewrite set_state_same by exact E. rewrite SB, Rc. split; congruence.
      * rewrite set_state_other by assumption. apply SB.
    + exact SO.
    + intros c' v. destruct (eq_or eqb E c' c) as [->|N].
      * rewrite set_state_same by exact E. unfold x. destruct r; [|discriminate].
        intros K. injection K as <-. exact Y.
      * rewrite set_state_other by assumption. apply SV.
    + intros c'. destruct (eq_or eqb E c' c) as [->|N].
      * rewrite set_state_same by exact E. unfold x. destruct r; [discriminate|]. intros _. exact Y.
      * rewrite set_state_other by assumption. apply SP.
    + intros j t q Tj Q. apply (set_thread_inv _ _ _ _ _ _ T) in Tj as [[-> ->]|[Nj Tj]].
      * cbn [current frames]. destruct (F q Q) as [_ K]. revert K. apply leads_less.
        intros r' Y'. unfold next in Y'. destruct r as [v|].
        -- exact (yields_value init c k v r' Y Y').
        -- inversion Y'. subst. exact (yields_panic init c k Y).
      * apply (SF j t q Tj Q).
    + intros j t c' Tj Hc. apply (set_thread_inv _ _ _ _ _ _ T) in Tj as [[-> ->]|[Nj Tj]].
      * cbn [frames] in Hc. rewrite set_state_other; [|exact E|].
        -- apply I. right. exact Hc.
        -- intros ->. exact (NI Hc).
      * rewrite set_state_other; [apply (SI j t c' Tj Hc)|exact E|].
        intros ->. assert (K := SI j t c Tj Hc). congruence.
    + intros c' j. destruct (eq_or eqb E c' c) as [->|N].
      * rewrite set_state_same by exact E. intros K. destruct (X2 j K).
      * rewrite set_state_other by assumption. intros K. destruct (SR c' j K) as (t & Tj & Hc).
        destruct (Nat.eq_dec j i) as [->|Nj].
        -- exists (mkThread next rest). split; [eapply set_thread_same; exact T|].
           assert (t = mkThread (Return r) ((c, k) :: rest)) by congruence. subst t.
           cbn in Hc. destruct Hc as [Hc|Hc]; [congruence|exact Hc].
        -- exists t. split; [|exact Hc]. rewrite set_thread_other by congruence. exact Tj.
    + intros j t Tj. apply (set_thread_inv _ _ _ _ _ _ T) in Tj as [[-> ->]|[Nj Tj]].
      * exact ND.
      * apply (SA j t Tj).
  - destruct (state_of p c) as [|j|v|] eqn:C; [| discriminate | |]; injection H as <-.
    + (* the initializer begins *)
      constructor; cbn [state_of threads begun].
      * rewrite set_thread_length. exact SL.
      * intros c'. destruct (eq_or eqb E c' c) as [->|N].
        -- rewrite set_state_same by exact E. split; [congruence|intros _; left; reflexivity].
        -- rewrite set_state_other by assumption. cbn. rewrite SB. split; [|tauto].
           intros [K|K]; [congruence|exact K].
      * constructor; [|exact SO]. intros K. apply SB in K. congruence.
      * intros c' v. destruct (eq_or eqb E c' c) as [->|N].
        -- rewrite set_state_same by exact E. discriminate.
        -- rewrite set_state_other by assumption. apply SV.
      * intros c'. destruct (eq_or eqb E c' c) as [->|N].
        -- rewrite set_state_same by exact E. discriminate.
        -- rewrite set_state_other by assumption. apply SP.
      * intros j t q Tj Q. apply (set_thread_inv _ _ _ _ _ _ T) in Tj as [[-> ->]|[Nj Tj]].
        -- cbn. split; [auto|]. apply (F q Q).
        -- apply (SF j t q Tj Q).
      * intros j t c' Tj Hc. apply (set_thread_inv _ _ _ _ _ _ T) in Tj as [[-> ->]|[Nj Tj]].
        -- cbn in Hc. destruct Hc as [<-|Hc]; [apply set_state_same, E|].
           rewrite set_state_other; [apply I, Hc|exact E|]. intros ->. assert (K := I c Hc). congruence.
        -- rewrite set_state_other; [apply (SI j t c' Tj Hc)|exact E|].
           intros ->. assert (K := SI j t c Tj Hc). congruence.
      * intros c' j. destruct (eq_or eqb E c' c) as [->|N].
        -- rewrite set_state_same by exact E. intros K. injection K as <-.
           eexists. split; [eapply set_thread_same; exact T|]. left. reflexivity.
        -- rewrite set_state_other by assumption. intros K. destruct (SR c' j K) as (t & Tj & Hc).
           destruct (Nat.eq_dec j i) as [->|Nj].
           ++ eexists. split; [eapply set_thread_same; exact T|].
              assert (t = mkThread (Deref c k) fr) by congruence. subst t. right. exact Hc.
           ++ exists t. split; [|exact Hc]. rewrite set_thread_other by congruence. exact Tj.
      * intros j t Tj. apply (set_thread_inv _ _ _ _ _ _ T) in Tj as [[-> ->]|[Nj Tj]].
        -- cbn. constructor; [|exact A]. intros K. apply I in K. congruence.
        -- apply (SA j t Tj).
    + (* the value is there *)
      assert (Y := SV c v C).
      constructor; cbn [state_of threads begun]; try assumption.
      * rewrite set_thread_length. exact SL.
      * intros j t q Tj Q. apply (set_thread_inv _ _ _ _ _ _ T) in Tj as [[-> ->]|[Nj Tj]].
        -- cbn. generalize (F q Q). apply leads_less. intros r Y'.
           exact (yields_value init c k v r Y Y').
        -- apply (SF j t q Tj Q).
      * intros j t c' Tj Hc. apply (set_thread_inv _ _ _ _ _ _ T) in Tj as [[-> ->]|[Nj Tj]].
        -- apply I, Hc.
        -- apply (SI j t c' Tj Hc).
      * intros c' j K. destruct (SR c' j K) as (t & Tj & Hc). destruct (Nat.eq_dec j i) as [->|Nj].
        -- eexists. split; [eapply set_thread_same; exact T|].
           assert (t = mkThread (Deref c k) fr) by congruence. subst t. exact Hc.
        -- exists t. split; [|exact Hc]. rewrite set_thread_other by congruence. exact Tj.
      * intros j t Tj. apply (set_thread_inv _ _ _ _ _ _ T) in Tj as [[-> ->]|[Nj Tj]].
        -- exact A.
        -- apply (SA j t Tj).
    + (* the static is poisoned *)
      assert (Y := SP c C).
      constructor; cbn [state_of threads begun]; try assumption.
      * rewrite set_thread_length. exact SL.
      * intros j t q Tj Q. apply (set_thread_inv _ _ _ _ _ _ T) in Tj as [[-> ->]|[Nj Tj]].
        -- cbn. generalize (F q Q). apply leads_less. intros r Y'. inversion Y'. subst.
           exact (yields_panic init c k Y).
        -- apply (SF j t q Tj Q).
      * intros j t c' Tj Hc. apply (set_thread_inv _ _ _ _ _ _ T) in Tj as [[-> ->]|[Nj Tj]].
        -- apply I, Hc.
        -- apply (SI j t c' Tj Hc).
      * intros c' j K. destruct (SR c' j K) as (t & Tj & Hc). destruct (Nat.eq_dec j i) as [->|Nj].
        -- eexists. split; [eapply set_thread_same; exact T|].
           assert (t = mkThread (Deref c k) fr) by congruence. subst t. exact Hc.
        -- exists t. split; [|exact Hc]. rewrite set_thread_other by congruence. exact Tj.
      * intros j t Tj. apply (set_thread_inv _ _ _ _ _ _ T) in Tj as [[-> ->]|[Nj Tj]].
        -- exact A.
        -- apply (SA j t Tj).
Qed.

Lemma run_ind {L V} eqb (init : L -> prog L V) (P : process L V -> Prop) :
  (forall p i p', P p -> step eqb init p i = Some p' -> P p') ->
  forall l p, P p -> P (run eqb init p l).
Proof.
  intros HS l. induction l as [|i l IH]; intros p H; [exact H|]. cbn [run].
  destruct (step eqb init p i) as [p'|] eqn:E; [|apply IH, H]. apply IH. eapply HS; eauto.
Qed.

Lemma sane_run {L V} eqb (init : L -> prog L V) ps l :
  exact_on eqb -> sane init ps (run eqb init (launch ps) l).
Proof.
  intros E. apply run_ind; [|apply sane_launch]. intros p i p' S H. eapply sane_step; eauto.
Qed.

(** However the threads interleave: what a thread returns, and what a static holds, is what the
    computation yields alone. *)
Lemma pf_C91_results :
  forall L V eqb (init : L -> prog L V) ps schedule, (forall a b, eqb a b = true <-> a = b) ->
    let p := run eqb init (launch ps) schedule in
    List.length (threads p) = List.length ps /\
    (forall i q t r, nth_error ps i = Some q -> nth_error (threads p) i = Some t -> finished t r ->
       yields init q r) /\
    (forall c v, state_of p c = Complete v -> yields init (init c) (Ok v)) /\
    (forall c, state_of p c = Poisoned -> yields init (init c) Panic) /\
    (forall q r r', yields init q r -> yields init q r' -> r = r').
Proof.
  intros L V eqb init ps l E p. destruct (sane_run eqb init ps l E) as [SL _ _ SV SP SF _ _ _].
  split; [exact SL|]. split; [|split; [exact SV|split; [exact SP|apply yields_unique]]].
  intros i q t r Q T F. assert (K := SF i t q T Q). unfold finished in F. subst t. cbn in K.
  apply K. constructor.
Qed.

(** Every initializer is begun at most once, and a value, once there, stays. *)
Lemma pf_C91_once :
  forall L V eqb (init : L -> prog L V) ps schedule more, (forall a b, eqb a b = true <-> a = b) ->
    let p := run eqb init (launch ps) schedule in
    let p' := run eqb init p more in
    NoDup (begun p) /\
    (forall c, In c (begun p) <-> state_of p c <> Incomplete) /\
    (forall c v, state_of p c = Complete v -> state_of p' c = Complete v) /\
    (forall c, state_of p c = Poisoned -> state_of p' c = Poisoned).
Proof.
  intros L V eqb init ps l more E p p'. assert (S := sane_run eqb init ps l E).
  split; [apply (sane_once _ _ _ S)|]. split; [apply (sane_begun _ _ _ S)|].
  assert (K : forall c x, (forall j, x <> Running j) -> x <> Incomplete ->
                state_of p c = x -> state_of p' c = x).
  { intros c x X1 X2 H. unfold p'. fold p in S. clearbody p. clear p'.
    assert (G : sane init ps (run eqb init p more) /\ state_of (run eqb init p more) c = x);
      [|exact (proj2 G)].
    apply (run_ind eqb init (fun p => sane init ps p /\ state_of p c = x)); [|auto].
    clear p S H more. intros p i p' [S H] St. split; [eapply sane_step; eauto|].
    unfold step in St. destruct (nth_error (threads p) i) as [t|] eqn:T; [|discriminate].
    destruct t as [cur fr]; cbn [current frames] in St. destruct cur as [r|c' k].
    - destruct fr as [|[c' k] rest]; [discriminate|].
      assert (R := sane_inside _ _ _ S i _ c' T (or_introl eq_refl)).
      assert (N : c <> c') by (intros ->; rewrite R in H; destruct (X1 i); congruence).
      destruct r; injection St as <-; cbn [state_of]; rewrite set_state_other by assumption; exact H.
    - destruct (state_of p c') eqn:C; [| discriminate | |]; injection St as <-; cbn [state_of];
        try exact H.
      rewrite set_state_other; [exact H|exact E|]. intros ->. congruence. }
  split; intros c; [intros v|]; apply K; congruence.
Qed.

(** ** No deadlock *)

Fixpoint stacked {L V} (rank : L -> nat) (cur : prog L V) (fr : list (L * (V -> prog L V))) : Prop :=
  match fr with
  | [] => True
  | (c, k) :: rest => uses (fun c' => rank c' < rank c) cur /\ stacked rank (Deref c k) rest
  end.

Lemma stacked_less {L V} (rank : L -> nat) (a b : prog L V) fr :
  (forall P, uses P a -> uses P b) -> stacked rank a fr -> stacked rank b fr.
Proof.
  intros H. destruct fr as [|[c k] rest]; cbn; [trivial|]. intros [K1 K2]. split; [|exact K2].
  apply H, K1.
Qed.

Lemma stacked_below {L V} (rank : L -> nat) fr : forall c (k : V -> prog L V) c',
  stacked rank (Deref c k) fr -> In c' (map fst fr) -> rank c < rank c'.
Proof.
  induction fr as [|[c1 k1] rest IH]; intros c k c' H I; [contradiction|].
  cbn in H, I. destruct H as [[H _] K]. destruct I as [<-|I]; [exact H|].
  assert (J := IH _ _ _ K I). lia.
Qed.

Definition all_stacked {L V} (rank : L -> nat) (p : process L V) : Prop :=
  forall i t, nth_error (threads p) i = Some t -> stacked rank (current t) (frames t).

Lemma stacked_step {L V} eqb (init : L -> prog L V) rank p i p' :
  (forall c, uses (fun c' => rank c' < rank c) (init c)) ->
  all_stacked rank p -> step eqb init p i = Some p' -> all_stacked rank p'.
Proof.
  intros R S H. unfold step in H. destruct (nth_error (threads p) i) as [t|] eqn:T; [|discriminate].
  assert (St := S i t T). destruct t as [cur fr]. cbn [current frames] in *.
  assert (G : forall f x b, p' = mkProcess f (set_thread (threads p) i x) b ->
            stacked rank (current x) (frames x) -> all_stacked rank p').
  { intros f x b -> X j t Tj. cbn [threads] in Tj.
    apply (set_thread_inv _ _ _ _ _ _ T) in Tj as [[-> ->]|[_ Tj]]; [exact X|apply (S j t Tj)]. }
  destruct cur as [r|c k].
  - destruct fr as [|[c k] rest]; [discriminate|]. destruct St as [_ St].
    destruct r; injection H as H; symmetry in H; eapply G; eauto; cbn; revert St; apply stacked_less.
    + intros P U. apply U.
    + intros P U. exact I.
  - destruct (state_of p c); [| discriminate | |]; injection H as H; symmetry in H;
      eapply G; eauto; cbn.
    + split; [apply R|exact St].
    + revert St. apply stacked_less. intros P U. apply U.
    + revert St. apply stacked_less. intros P U. exact I.
Qed.

Lemma stacked_run {L V} eqb (init : L -> prog L V) rank ps l :
  (forall c, uses (fun c' => rank c' < rank c) (init c)) ->
  all_stacked rank (run eqb init (launch ps) l).
Proof.
  intros R. apply run_ind; [intros p i p' H St; eapply stacked_step; eauto|].
  intros i t H. cbn in H. rewrite nth_error_map in H. destruct (nth_error ps i); [|discriminate].
  injection H as <-. exact I.
Qed.

Lemma rest_waits {L V} eqb (init : L -> prog L V) p i t :
  at_rest eqb init p -> nth_error (threads p) i = Some t -> (forall r, ~ finished t r) ->
  exists c k j, current t = Deref c k /\ state_of p c = Running j.
Proof.
  intros A T F. specialize (A i). unfold step in A. rewrite T in A.
  destruct t as [cur fr]. cbn [current frames] in *. destruct cur as [r|c k].
  - destruct fr as [|[c k] rest]; [destruct (F r); reflexivity|]. destruct r; discriminate.
  - exists c, k. destruct (state_of p c) as [|j| |]; try discriminate. exists j. auto.
Qed.

Lemma rest_nobody {L V} eqb (init : L -> prog L V) ps rank p :
  sane init ps p -> all_stacked rank p -> at_rest eqb init p ->
  forall n c i, rank c < n -> state_of p c <> Running i.
Proof.
  intros S R A. induction n as [|n IH]; intros c i H K; [lia|].
  destruct (sane_runs _ _ _ S c i K) as (t & T & I).
  assert (F : forall r, ~ finished t r) by (intros r F; rewrite F in I; exact I).
  destruct (rest_waits eqb init p i t A T F) as (c' & k & j & C & K').
  apply (IH c' j); [|exact K']. assert (X := R i t T). rewrite C in X.
  assert (B := stacked_below rank _ _ _ _ X I). lia.
Qed.

(** If the initializers do not go round in circles, nobody waits for ever: when no thread can take
    a step, all have finished. *)
Lemma pf_C91_progress :
  forall L V eqb (init : L -> prog L V) ps schedule, (forall a b, eqb a b = true <-> a = b) ->
    acyclic init ->
    let p := run eqb init (launch ps) schedule in
    at_rest eqb init p ->
    (forall i t, nth_error (threads p) i = Some t -> exists r, finished t r) /\
    (forall c i, state_of p c <> Running i).
Proof.
  intros L V eqb init ps l E [rank R] p A.
  assert (S := sane_run eqb init ps l E). assert (K := stacked_run eqb init rank ps l R). fold p in S, K.
  assert (N : forall c i, state_of p c <> Running i).
  { intros c i. exact (rest_nobody eqb init ps rank p S K A (Datatypes.S (rank c)) c i (Nat.lt_succ_diag_r _)). }
  split; [|exact N]. intros i t T. destruct t as [cur fr]. destruct cur as [r|c k].
  - destruct fr as [|f rest]; [exists r; reflexivity|]. exfalso.
    destruct (rest_waits eqb init p i _ A T) as (c & k & j & C & _); [intros r' F; discriminate F|].
    discriminate C.
  - exfalso. destruct (rest_waits eqb init p i _ A T) as (c' & k' & j & C & Rn); [intros r' F; discriminate F|].
    exact (N c' j Rn).
Qed.

(** ** Every schedule ends *)

(** What a thread can do, whatever the statics hold. *)
Inductive moves {L V} (init : L -> prog L V) : thread L V -> thread L V -> Prop :=
| moves_value c k v fr : moves init (mkThread (Deref c k) fr) (mkThread (k v) fr)
| moves_poisoned c k fr : moves init (mkThread (Deref c k) fr) (mkThread (Return Panic) fr)
| moves_begin c k fr : moves init (mkThread (Deref c k) fr) (mkThread (init c) ((c, k) :: fr))
| moves_end c k v fr : moves init (mkThread (Return (Ok v)) ((c, k) :: fr)) (mkThread (k v) fr)
| moves_unwind c k fr :
    moves init (mkThread (Return Panic) ((c, k) :: fr)) (mkThread (Return Panic) fr).

Definition ends {L V} (init : L -> prog L V) (t : thread L V) : Prop :=
  Acc (fun b a => moves init a b) t.

Lemma ends_prog {L V} (init : L -> prog L V) (P : L -> Prop) :
  (forall c, P c -> forall fr, (forall r, ends init (mkThread (Return r) fr)) ->
     ends init (mkThread (init c) fr)) ->
  forall p, uses P p -> forall fr, (forall r, ends init (mkThread (Return r) fr)) ->
    ends init (mkThread p fr).
Proof.
  intros HP p. induction p as [r|c k IH]; intros U fr HF; [apply HF|].
  destruct U as [U1 U2]. constructor. intros t M. inversion M; subst.
  - apply IH; [apply U2|exact HF].
  - apply HF.
  - apply HP; [exact U1|]. intros r. constructor. intros t' M'. inversion M'; subst.
    + apply IH; [apply U2|exact HF].
    + apply HF.
Qed.

Lemma ends_init {L V} (init : L -> prog L V) rank :
  (forall c, uses (fun c' => rank c' < rank c) (init c)) ->
  forall n c, rank c < n -> forall fr, (forall r, ends init (mkThread (Return r) fr)) ->
    ends init (mkThread (init c) fr).
Proof.
  intros R. induction n as [|n IH]; intros c H fr HF; [lia|].
  apply (ends_prog init (fun c' => rank c' < rank c)); [|apply R|exact HF].
  intros c' K. apply IH. lia.
Qed.

Lemma uses_all {L V} (p : prog L V) : uses (fun _ => True) p.
Proof. induction p as [r|c k IH]; cbn; [exact I|]. split; [exact I|exact IH]. Qed.

Lemma ends_thread {L V} (init : L -> prog L V) p :
  acyclic init -> ends init (mkThread p []).
Proof.
  intros [rank R]. apply (ends_prog init (fun _ => True)); [|apply uses_all|].
  - intros c _. apply (ends_init init rank R (S (rank c))). lia.
  - intros r. constructor. intros t M. inversion M.
Qed.

Lemma step_moves {L V} eqb (init : L -> prog L V) p i p' :
  step eqb init p i = Some p' ->
  exists t t', nth_error (threads p) i = Some t /\ moves init t t' /\
    threads p' = set_thread (threads p) i t'.
Proof.
  intros H. unfold step in H. destruct (nth_error (threads p) i) as [t|] eqn:T; [|discriminate].
  exists t. destruct t as [cur fr]. cbn [current frames] in H. destruct cur as [r|c k].
  - destruct fr as [|[c k] rest]; [discriminate|].
    destruct r; injection H as <-; eexists; (split; [reflexivity|]); (split; [|reflexivity]);
      constructor.
  - destruct (state_of p c); [| discriminate | |]; injection H as <-; eexists;
      (split; [reflexivity|]); (split; [|reflexivity]); constructor.
Qed.

Lemma ends_list {L V} (init : L -> prog L V) (l : list (thread L V)) :
  (forall t, In t l -> ends init t) ->
  Acc (fun b a => exists i t t', nth_error a i = Some t /\ moves init t t' /\ b = set_thread a i t') l.
Proof.
  induction l as [|t l IH]; intros H.
  - constructor. intros b (i & t & t' & T & _). destruct i; discriminate.
  - assert (Ht := H t (or_introl eq_refl)).
    assert (Hl := IH (fun x K => H x (or_intror K))). clear IH H. revert l Hl.
    induction Ht as [t _ IHt]. intros l Hl. induction Hl as [l HL IHl].
    constructor. intros b (i & x & x' & T & M & ->). destruct i as [|i]; cbn in *.
    + injection T as ->. apply (IHt x' M). constructor. exact HL.
    + apply IHl. exists i, x, x'. auto.
Qed.

Lemma ends_process {L V} eqb (init : L -> prog L V) ps :
  acyclic init ->
  forall p, threads p = threads (launch ps) ->
  Acc (fun b a => exists i, step eqb init a i = Some b) p.
Proof.
  intros A p Hp.
  assert (G : Acc (fun b a => exists i t t', nth_error a i = Some t /\ moves init t t' /\
                     b = set_thread a i t') (threads p)).
  { apply ends_list. intros t I. rewrite Hp in I. cbn in I. apply in_map_iff in I as (q & <- & _).
    apply ends_thread, A. }
  remember (threads p) as l eqn:E. revert p E Hp.
  assert (X : forall p, l = threads p -> Acc (fun b a => exists i, step eqb init a i = Some b) p);
    [|intros p E _; apply X, E].
  induction G as [l _ IH]. intros p E. constructor. intros p' [i St].
  destruct (step_moves eqb init p i p' St) as (t & t' & T & M & Th). subst l.
  apply (IH (threads p')); [|reflexivity]. exists i, t, t'. auto.
Qed.

Lemma acc_run {L V} eqb (init : L -> prog L V) l : forall p,
  Acc (fun b a => exists i, step eqb init a i = Some b) p ->
  Acc (fun b a => exists i, step eqb init a i = Some b) (run eqb init p l).
Proof.
  induction l as [|i l IH]; intros p H; [exact H|]. cbn [run].
  destruct (step eqb init p i) as [p'|] eqn:E; [|apply IH, H]. apply IH. apply (Acc_inv H). exists i. exact E.
Qed.

Lemma rest_or_step {L V} eqb (init : L -> prog L V) p :
  at_rest eqb init p \/ exists i p', step eqb init p i = Some p'.
Proof.
  assert (G : forall n, (forall i, i < n -> step eqb init p i = None) \/
                        exists i p', step eqb init p i = Some p').
  { induction n as [|n [IH|IH]]; [left; lia| |right; exact IH].
    destruct (step eqb init p n) as [p'|] eqn:E; [right; exists n, p'; exact E|].
    left. intros i Hi. destruct (Nat.eq_dec i n) as [->|N]; [exact E|apply IH; lia]. }
  destruct (G (List.length (threads p))) as [H|H]; [left|right; exact H].
  intros i. destruct (Nat.lt_ge_cases i (List.length (threads p))) as [K|K]; [apply H, K|].
  unfold step. apply nth_error_None in K. rewrite K. reflexivity.
Qed.

(** No schedule goes on for ever, and whatever has happened so far, steps remain until all threads
    have the results of their computations. *)
Lemma pf_C91_ends :
  forall L V eqb (init : L -> prog L V) ps schedule, (forall a b, eqb a b = true <-> a = b) ->
    acyclic init ->
    let p := run eqb init (launch ps) schedule in
    (forall f : nat -> process L V, f 0 = p ->
       ~ forall n, exists i, step eqb init (f n) i = Some (f (S n))) /\
    (exists l q, goes eqb init p l q /\ at_rest eqb init q) /\
    (forall l q, goes eqb init p l q -> at_rest eqb init q ->
       Forall2 (fun x t => exists r, finished t r /\ yields init x r) ps (threads q)).
Proof.
  intros L V eqb init ps l E A p.
  assert (W : Acc (fun b a => exists i, step eqb init a i = Some b) p)
    by (apply acc_run, (ends_process eqb init ps A); reflexivity).
  split; [|split].
  - clear - W. induction W as [p _ IH]. intros f F H.
    destruct (H 0) as [i Hi]. rewrite F in Hi.
    apply (IH (f 1) (ex_intro _ i Hi) (fun n => f (S n)) eq_refl). intros n. apply H.
  - clear - W. induction W as [p _ IH].
    destruct (rest_or_step eqb init p) as [R|(i & p' & St)].
    + exists [], p. split; [constructor|exact R].
    + destruct (IH p' (ex_intro _ i St)) as (m & q & G & R). exists (i :: m), q.
      split; [econstructor; eauto|exact R].
  - intros m q G R.
    assert (Q : q = run eqb init (launch ps) (l ++ m)).
    { assert (K : forall x a y, goes eqb init x a y -> y = run eqb init x a).
      { intros x a y H. induction H as [|x i x' a y St _ IH]; [reflexivity|]. cbn [run].
        rewrite St. exact IH. }
      apply K in G. rewrite G. unfold p. clear. revert m. generalize (launch ps) as x.
      induction l as [|i l IH]; intros x m; [reflexivity|]. cbn [run app].
      destruct (step eqb init x i); apply IH. }
    destruct (pf_C91_progress L V eqb init ps (l ++ m) E A) as [F _]; [rewrite <- Q; exact R|].
    destruct (pf_C91_results L V eqb init ps (l ++ m) E) as (Len & Y & _).
    rewrite <- Q in *. clear - F Y Len. symmetry in Len. revert Len F Y. generalize (threads q) as ts.
    induction ps as [|x ps IH]; intros [|t ts] Len F Y; try discriminate; constructor.
    + destruct (F 0 t eq_refl) as [r Hr]. exists r. split; [exact Hr|].
      exact (Y 0 x t r eq_refl eq_refl Hr).
    + apply IH; [cbn in Len; lia| |].
      * intros i t' T. exact (F (S i) t' T).
      * intros i x' t' r Hx Ht. exact (Y (S i) x' t' r Hx Ht).
Qed.

(** ** The statics of the source *)

Lemma static_exact a b : static_eqb a b = true <-> a = b.
Proof.
  unfold static_eqb. rewrite Nat.eqb_eq. split; [|intros ->; reflexivity].
  destruct a; destruct b; cbn; intros H; solve [reflexivity | discriminate H].
Qed.

Lemma uses_attempt {L V A} (P : L -> Prop) (r : res A) (k : A -> prog L V) :
  (forall a, uses P (k a)) -> uses P (attempt r k).
Proof. intros H. destruct r; cbn; auto. Qed.
Lemma uses_variants (P : static -> Prop) c k : P c -> (forall x, uses P (k x)) -> uses P (use_variants c k).
Proof. intros H K. split; [exact H|]. intros []; cbn; auto. Qed.
Lemma uses_numbers (P : static -> Prop) c k : P c -> (forall x, uses P (k x)) -> uses P (use_numbers c k).
Proof. intros H K. split; [exact H|]. intros []; cbn; auto. Qed.
Lemma uses_map (P : static -> Prop) c k : P c -> (forall x, uses P (k x)) -> uses P (use_map c k).
Proof. intros H K. split; [exact H|]. intros []; cbn; auto. Qed.
Lemma uses_variant (P : static -> Prop) c k : P c -> (forall x, uses P (k x)) -> uses P (use_variant c k).
Proof. intros H K. split; [exact H|]. intros []; cbn; auto. Qed.
Lemma uses_number (P : static -> Prop) c k : P c -> (forall x, uses P (k x)) -> uses P (use_number c k).
Proof. intros H K. split; [exact H|]. intros []; cbn; auto. Qed.
Lemma uses_objects (P : static -> Prop) c k : P c -> (forall x, uses P (k x)) -> uses P (use_objects c k).
Proof. intros H K. split; [exact H|]. intros []; cbn; auto. Qed.

Ltac uses_tac :=
  repeat first
    [ apply uses_attempt; intros ?
    | apply uses_variants; [|intros ?] | apply uses_numbers; [|intros ?]
    | apply uses_map; [|intros ?] | apply uses_variant; [|intros ?]
    | apply uses_number; [|intros ?] | apply uses_objects; [|intros ?] ].

Lemma uses_bitmask (P : static -> Prop) x v k :
  P S_NUM_LOGICAL_OPCODES -> P S_NUM_INPUT_VARIANTS -> P S_NUM_OUTPUT_VARIANTS ->
  (forall n, uses P (k n)) -> uses P (lazy_bitmask x v k).
Proof. intros A B C K. unfold lazy_bitmask. uses_tac; auto. Qed.

Lemma uses_bitmasks (P : static -> Prop) v k :
  P S_NUM_LOGICAL_OPCODES -> P S_NUM_INPUT_VARIANTS -> P S_NUM_OUTPUT_VARIANTS ->
  (forall n, uses P (k n)) -> forall l acc, uses P (lazy_bitmasks l v acc k).
Proof.
  intros A B C K l. induction l as [|x l IH]; intros acc; cbn; [apply K|].
  apply uses_bitmask; auto.
Qed.

Lemma uses_monotonic (P : static -> Prop) :
  P S_OPCODES_TABLE -> forall l acc, uses P (lazy_monotonic l acc).
Proof.
  intros A l. induction l as [|[i x] l IH]; intros acc; cbn [lazy_monotonic]; [exact I|].
  destruct (map_get acc x); [|apply IH]. uses_tac; auto.
Qed.

Lemma uses_canonical (P : static -> Prop) :
  P S_OPCODES_TABLE -> forall l acc, uses P (lazy_canonical l acc).
Proof.
  intros A l. induction l as [|[i x] l IH]; intros acc; cbn [lazy_canonical]; [exact I|].
  destruct (map_get acc x); [|apply IH]. uses_tac; auto.
Qed.

(** The order in which the statics can be computed. *)
Definition static_rank (c : static) : nat :=
  match c with
  | S_NUM_LOGICAL_OPCODES | S_OPCODE_TO_MONOTONIC_INDEX_NUMBER_MAP
  | S_OPCODE_TO_CANONICAL_INDEX_LOOKUP_MAP | S_OPCODES_PRICES => 1
  | S_OPCODES_PROPS_INTEGER_BITMASKS | S_NOP_OPCODE_VARIANT | S_PANIC_OPCODE_VARIANT => 2
  | S_NOP_BITSPREAD_U64 | S_PANIC_BITSPREAD_U64 => 3
  | _ => 0
  end.

Lemma initializer_acyclic : acyclic initializer.
Proof.
  exists static_rank. intros c.
  destruct c; unfold initializer, lazy_variant, lazy_bitspread; try exact I; uses_tac;
    try (cbn [static_rank]; lia); try exact I.
  - unfold lazy_bit_decomposition. uses_tac. apply uses_bitmasks; try (cbn [static_rank]; lia).
    intros n. uses_tac. exact I.
  - apply uses_monotonic. cbn [static_rank]. lia.
  - apply uses_canonical. cbn [static_rank]. lia.
Qed.

Notation gives := (yields initializer).

Lemma gives_attempt {A} (r : res A) a k x : r = Ok a -> gives (k a) x -> gives (attempt r k) x.
Proof. intros ->. exact (fun H => H). Qed.
Lemma gives_variants c k l x :
  gives (initializer c) (Ok (V_variants l)) -> gives (k l) x -> gives (use_variants c k) x.
Proof. intros H K. eapply yields_value; [exact H|exact K]. Qed.
Lemma gives_numbers c k l x :
  gives (initializer c) (Ok (V_numbers l)) -> gives (k l) x -> gives (use_numbers c k) x.
Proof. intros H K. eapply yields_value; [exact H|exact K]. Qed.
Lemma gives_map c k l x :
  gives (initializer c) (Ok (V_canonical_map l)) -> gives (k l) x -> gives (use_map c k) x.
Proof. intros H K. eapply yields_value; [exact H|exact K]. Qed.
Lemma gives_variant c k l x :
  gives (initializer c) (Ok (V_variant l)) -> gives (k l) x -> gives (use_variant c k) x.
Proof. intros H K. eapply yields_value; [exact H|exact K]. Qed.
Lemma gives_number c k l x :
  gives (initializer c) (Ok (V_number l)) -> gives (k l) x -> gives (use_number c k) x.
Proof. intros H K. eapply yields_value; [exact H|exact K]. Qed.
Lemma gives_objects c k l x :
  gives (initializer c) (Ok (V_objects l)) -> gives (k l) x -> gives (use_objects c k) x.
Proof. intros H K. eapply yields_value; [exact H|exact K]. Qed.

Lemma gives_table : gives (initializer S_OPCODES_TABLE) (Ok (V_variants padded_table)).
Proof.
  unfold initializer. change OPCODES_TABLE_WIDTH with 11%N. change DEFAULT_ISA_VERSION with 1%N.
  rewrite synthesize_current, bind_Ok, into_array_ok, bind_Ok; [constructor|].
  unfold len. rewrite padded_length. reflexivity.
Qed.

Definition the_objects : list OpcodeProps := match all_opcodes with Ok a => a | Panic => [] end.
Lemma objects_ok : all_opcodes = Ok the_objects.
Proof. reflexivity. Qed.

Lemma gives_prototypes : gives (initializer S_OPCODE_PROTOTYPES) (Ok (V_objects the_objects)).
Proof. unfold initializer. rewrite objects_ok. constructor. Qed.

Lemma gives_logical : gives (initializer S_NUM_LOGICAL_OPCODES) (Ok (V_number (len the_objects))).
Proof. apply (gives_objects _ _ _ _ gives_prototypes). constructor. Qed.

Lemma gives_bitmask x v k m r :
  opcode_as_integer_bitmask Debug x v = Ok m -> gives (k m) r -> gives (lazy_bitmask x v k) r.
Proof.
  intros H K. unfold opcode_as_integer_bitmask, opcode_as_integer_bitmask_of in H.
  fold max_num_variants_for_version max_num_flags_for_version
    total_description_bits_rounded_for_version in H.
  change (set_objects current_set) with all_opcodes in H. rewrite objects_ok in H.
  change (set_index current_set) with Opcode_variant_idx in H.
  change (set_sub_index current_set) with Opcode_materialize_subvariant_idx in H.
  change (set_kernel current_set) with Opcode_requires_kernel_mode in H.
  change (set_static current_set) with Opcode_can_be_used_in_static_context in H.
  unfold NUM_INPUT_VARIANTS, NUM_OUTPUT_VARIANTS in H. unfold lazy_bitmask.
  cbn [bind] in H. revert H. generalize (len the_objects), gives_logical. intros nlo GL H.
  assert (GI : gives (initializer S_NUM_INPUT_VARIANTS) (Ok (V_number ImmMemHandlerFlags_num_src_variants)))
    by constructor.
  assert (GO : gives (initializer S_NUM_OUTPUT_VARIANTS) (Ok (V_number ImmMemHandlerFlags_num_dst_variants)))
    by constructor.
  Ltac walk H :=
    match goal with
    | |- gives (attempt ?e _) _ =>
        let E := fresh in destruct e eqn:E; [|exfalso; cbn [bind] in H; rewrite ?E in H; discriminate H];
        cbn [attempt]; cbn [bind] in H; rewrite ?E in H; cbn [bind] in H; clear E
    end.
  repeat first [walk H | eapply gives_number; [eassumption|]].
  injection H as <-. exact K.
Qed.

Lemma gives_bitmasks v k r (f : OpcodeVariant -> N) :
  (forall x, opcode_as_integer_bitmask Debug x v = Ok (f x)) ->
  forall l acc, gives (k (acc ++ map f l)) r -> gives (lazy_bitmasks l v acc k) r.
Proof.
  intros F l. induction l as [|x l IH]; intros acc K; cbn [lazy_bitmasks map] in *.
  - rewrite app_nil_r in K. exact K.
  - eapply gives_bitmask; [apply F|]. apply IH. rewrite <- app_assoc. exact K.
Qed.

Lemma gives_masks :
  gives (initializer S_OPCODES_PROPS_INTEGER_BITMASKS) (Ok (V_numbers (map mask_value padded_table))).
Proof.
  apply (gives_variants _ _ _ _ gives_table). unfold lazy_bit_decomposition.
  apply (gives_attempt _ _ _ _ objects_ok).
  apply (gives_attempt _ tt); [reflexivity|]. apply (gives_attempt _ tt); [reflexivity|].
  apply (gives_attempt _ tt); [reflexivity|].
  apply (gives_bitmasks _ _ _ mask_value).
  - intros x. rewrite bitmask_eq. reflexivity.
  - cbn [app]. rewrite into_array_ok; [constructor|]. unfold len. rewrite map_length, padded_length. reflexivity.
Qed.

Lemma gives_prices :
  gives (initializer S_OPCODES_PRICES) (Ok (V_numbers (map (fun x => spec_price (opcode x)) padded_table))).
Proof.
  apply (gives_variants _ _ _ _ gives_table). rewrite fold_left_snoc, app_nil_l.
  rewrite (map_ext _ (fun x => spec_price (opcode x))) by (intros x; apply price_eq).
  rewrite into_array_ok; [constructor|]. unfold len. rewrite map_length, padded_length. reflexivity.
Qed.

Lemma gives_canonical_loop l : forall acc m,
  for_each (fun result '(idx, el) =>
    match map_get result el with
    | Some existing =>
        let* e := index padded_table existing in
        let* _ := assert_ (OpcodeVariant_eqb e INVALID_OPCODE_VARIANT) in
        Ok result
    | None => Ok (map_insert result el idx)
    end) l acc = Ok m ->
  gives (lazy_canonical l acc) (Ok (V_canonical_map m)).
Proof.
  induction l as [|[i x] l IH]; intros acc m H; cbn [lazy_canonical for_each] in *.
  - injection H as <-. constructor.
  - destruct (map_get acc x) as [e|]; [|apply IH, H].
    apply (gives_variants _ _ _ _ gives_table).
    destruct (index padded_table e) as [y|]; [|discriminate H]. cbn [bind attempt] in *.
    destruct (assert_ (OpcodeVariant_eqb y INVALID_OPCODE_VARIANT)); [|discriminate H].
    cbn [bind attempt] in *. apply IH, H.
Qed.

Lemma gives_monotonic_loop l : forall acc m,
  for_each (fun result '(idx, el) =>
    match map_get result el with
    | Some existing =>
        let usize_index := VariantMonotonicNumber_into_usize existing in
        let* e := index padded_table usize_index in
        let* _ := assert_ (OpcodeVariant_eqb e INVALID_OPCODE_VARIANT) in
        Ok result
    | None => Ok (map_insert result el (VariantMonotonicNumber_from_usize idx))
    end) l acc = Ok m ->
  gives (lazy_monotonic l acc) (Ok (V_monotonic_map m)).
Proof.
  induction l as [|[i x] l IH]; intros acc m H; cbn [lazy_monotonic for_each] in *.
  - injection H as <-. constructor.
  - destruct (map_get acc x) as [e|]; [|apply IH, H].
    apply (gives_variants _ _ _ _ gives_table).
    destruct (index padded_table (VariantMonotonicNumber_into_usize e)) as [y|]; [|discriminate H].
    cbn [bind attempt] in *.
    destruct (assert_ (OpcodeVariant_eqb y INVALID_OPCODE_VARIANT)); [|discriminate H].
    cbn [bind attempt] in *. apply IH, H.
Qed.

Lemma gives_canonical m :
  OPCODE_TO_CANONICAL_INDEX_LOOKUP_MAP = Ok m ->
  gives (initializer S_OPCODE_TO_CANONICAL_INDEX_LOOKUP_MAP) (Ok (V_canonical_map m)).
Proof.
  intros H. rewrite canonical_map_eq in H. apply (gives_variants _ _ _ _ gives_table).
  apply gives_canonical_loop. exact H.
Qed.

Lemma gives_monotonic m :
  OPCODE_TO_MONOTONIC_INDEX_NUMBER_MAP = Ok m ->
  gives (initializer S_OPCODE_TO_MONOTONIC_INDEX_NUMBER_MAP) (Ok (V_monotonic_map m)).
Proof.
  intros H. assert (E : monotonic_map_of_table padded_table = Ok m).
  { rewrite monotonic_map_eq, <- canonical_map_eq, <- monotonic_static_eq. exact H. }
  apply (gives_variants _ _ _ _ gives_table). apply gives_monotonic_loop. exact E.
Qed.

Lemma monotonic_there : exists m, OPCODE_TO_MONOTONIC_INDEX_NUMBER_MAP = Ok m.
Proof.
  rewrite monotonic_static_eq. destruct canonical_map_defined as (m & -> & _). rewrite bind_Ok. eauto.
Qed.

Lemma there_key {V} (m : list (OpcodeVariant * V)) x : contains_key m x = match map_get m x with Some _ => true | None => false end.
Proof. reflexivity. Qed.

Lemma gives_named c x n m :
  initializer c = lazy_variant x -> OPCODE_TO_CANONICAL_INDEX_LOOKUP_MAP = Ok m ->
  map_get m x = Some n -> gives (initializer c) (Ok (V_variant x)).
Proof.
  intros -> M G. apply (gives_map _ _ _ _ (gives_canonical m M)). rewrite there_key, G. constructor.
Qed.

Lemma gives_spread c c' x n m :
  initializer c = lazy_bitspread c' -> gives (initializer c') (Ok (V_variant x)) ->
  OPCODE_TO_CANONICAL_INDEX_LOOKUP_MAP = Ok m -> map_get m x = Some n ->
  (forall y, map_get m y = spec_number y) ->
  gives (initializer c) (Ok (V_number (mask_value x))).
Proof.
  intros -> X M G Hm. apply (gives_map _ _ _ _ (gives_canonical m M)).
  apply (gives_variant _ _ _ _ X). rewrite G. cbn [unwrap attempt].
  apply (gives_numbers _ _ _ _ gives_masks).
  rewrite Hm, <- padded_first_index in G. apply first_index_Some in G as [G _].
  unfold index. rewrite nth_error_map', G. constructor.
Qed.

Definition the_nop : OpcodeVariant :=
  mkOpcodeVariant (Op_Nop nopOpcode) (Full UseRegOnly) (Full UseRegOnly) (false, false).
Definition the_panic : OpcodeVariant :=
  mkOpcodeVariant (Op_Ret RetOpcode_Panic) RegOnly RegOnly (false, false).

Lemma nop_there m : OPCODE_TO_CANONICAL_INDEX_LOOKUP_MAP = Ok m -> (forall y, map_get m y = spec_number y) ->
  NOP_OPCODE_VARIANT = Ok the_nop /\ NOP_BITSPREAD_U64 = Ok (mask_value the_nop).
Proof.
  intros M Hm. assert (N : exists n, spec_number the_nop = Some n) by (eexists; vm_compute; reflexivity).
  destruct N as [n N].
  assert (X : NOP_OPCODE_VARIANT = Ok the_nop).
  { unfold NOP_OPCODE_VARIANT. fold the_nop. rewrite M, bind_Ok, there_key, Hm, N. reflexivity. }
  split; [exact X|]. unfold NOP_BITSPREAD_U64. rewrite X.
  rewrite <- (bitspread_of the_nop n N). rewrite M, !bind_Ok. reflexivity.
Qed.

Lemma panic_there m : OPCODE_TO_CANONICAL_INDEX_LOOKUP_MAP = Ok m -> (forall y, map_get m y = spec_number y) ->
  PANIC_OPCODE_VARIANT = Ok the_panic /\ PANIC_BITSPREAD_U64 = Ok (mask_value the_panic).
Proof.
  intros M Hm. assert (N : exists n, spec_number the_panic = Some n) by (eexists; vm_compute; reflexivity).
  destruct N as [n N].
  assert (X : PANIC_OPCODE_VARIANT = Ok the_panic).
  { unfold PANIC_OPCODE_VARIANT. fold the_panic. rewrite M, bind_Ok, there_key, Hm, N. reflexivity. }
  split; [exact X|]. unfold PANIC_BITSPREAD_U64. rewrite X.
  rewrite <- (bitspread_of the_panic n N). rewrite M, !bind_Ok. reflexivity.
Qed.

Lemma gives_static c : exists v, static_value c = Ok v /\ gives (initializer c) (Ok v).
Proof.
  destruct canonical_map_defined as (m & M & Hm).
  destruct (nop_there m M Hm) as [NV NB]. destruct (panic_there m M Hm) as [PV PB].
  assert (N : exists n, spec_number the_nop = Some n) by (eexists; vm_compute; reflexivity).
  destruct N as [n N].
  assert (P : exists n, spec_number the_panic = Some n) by (eexists; vm_compute; reflexivity).
  destruct P as [n' P].
  rewrite <- Hm in N, P.
  assert (GN := gives_named S_NOP_OPCODE_VARIANT the_nop n m eq_refl M N).
  assert (GP := gives_named S_PANIC_OPCODE_VARIANT the_panic n' m eq_refl M P).
  destruct monotonic_there as [mm MM].
  destruct c; cbn [static_value];
    try match goal with
        | |- exists v, Ok _ = Ok v /\ _ => eexists; split; [reflexivity|constructor]
        end.
  - rewrite OPCODES_TABLE_eq, bind_Ok. eexists. split; [reflexivity|]. exact gives_table.
  - rewrite bitmasks_eq, bind_Ok. eexists. split; [reflexivity|]. exact gives_masks.
  - rewrite MM, bind_Ok. eexists. split; [reflexivity|]. exact (gives_monotonic mm MM).
  - rewrite M, bind_Ok. eexists. split; [reflexivity|]. exact (gives_canonical m M).
  - rewrite NV, bind_Ok. eexists. split; [reflexivity|]. exact GN.
  - rewrite NB, bind_Ok. eexists. split; [reflexivity|].
    exact (gives_spread S_NOP_BITSPREAD_U64 _ _ _ m eq_refl GN M N Hm).
  - rewrite PV, bind_Ok. eexists. split; [reflexivity|]. exact GP.
  - rewrite PB, bind_Ok. eexists. split; [reflexivity|].
    exact (gives_spread S_PANIC_BITSPREAD_U64 _ _ _ m eq_refl GP M P Hm).
  - unfold OPCODE_PROTOTYPES. rewrite objects_ok, bind_Ok. eexists. split; [reflexivity|].
    exact gives_prototypes.
  - unfold NUM_LOGICAL_OPCODES, OPCODE_PROTOTYPES. rewrite objects_ok, !bind_Ok. eexists.
    split; [reflexivity|]. exact gives_logical.
  - rewrite prices_eq, bind_Ok. eexists. split; [reflexivity|]. exact gives_prices.
Qed.

Lemma gives_request q : gives (request_prog q) (request_result q).
Proof.
  destruct canonical_map_defined as (m & M & Hm).
  destruct (nop_there m M Hm) as [NV NB]. destruct (panic_there m M Hm) as [PV PB].
  assert (G := gives_canonical m M).
  assert (GN : gives (initializer S_NOP_OPCODE_VARIANT) (Ok (V_variant the_nop))).
  { destruct (gives_static S_NOP_OPCODE_VARIANT) as (v & K & Y). cbn [static_value] in K.
    rewrite NV in K. injection K as <-. exact Y. }
  assert (GP : gives (initializer S_PANIC_OPCODE_VARIANT) (Ok (V_variant the_panic))).
  { destruct (gives_static S_PANIC_OPCODE_VARIANT) as (v & K & Y). cbn [static_value] in K.
    rewrite PV in K. injection K as <-. exact Y. }
  destruct q as [c|[|] w|[|] bld d|[|] bld|[|] bld]; cbn [request_prog request_result mode_impl
    EncodingModeProduction EncodingModeTesting parse_preliminary_variant_and_absolute_number
    encode_as_integer nop_encoding exception_revert_encoding].
  - destruct (gives_static c) as (v & -> & Y). eapply yields_value; [exact Y|constructor].
  - unfold prod_parse. rewrite OPCODES_TABLE_eq. apply (gives_variants _ _ _ _ gives_table). constructor.
  - unfold test_parse. rewrite OPCODES_TABLE_eq. apply (gives_variants _ _ _ _ gives_table). constructor.
  - unfold prod_encode_as_integer. rewrite M. apply (gives_map _ _ _ _ G). constructor.
  - unfold test_encode_as_integer. rewrite M. apply (gives_map _ _ _ _ G). constructor.
  - unfold prod_nop_encoding, prod_encode_as_integer. rewrite NV, bind_Ok, M.
    apply (gives_variant _ _ _ _ GN). apply (gives_map _ _ _ _ G). constructor.
  - unfold test_nop_encoding, test_encode_as_integer. rewrite NV, bind_Ok, M.
    apply (gives_variant _ _ _ _ GN). apply (gives_map _ _ _ _ G). constructor.
  - unfold prod_exception_revert_encoding, prod_encode_as_integer. rewrite PV, bind_Ok, M.
    apply (gives_variant _ _ _ _ GP). apply (gives_map _ _ _ _ G). constructor.
  - unfold test_exception_revert_encoding, test_encode_as_integer. rewrite PV, bind_Ok, M.
    apply (gives_variant _ _ _ _ GP). apply (gives_map _ _ _ _ G). constructor.
Qed.

(** The initializers of the source do not go round in circles, none panics, and the values and the
    results of the codecs are those of a single thread. *)
Lemma pf_C91_source :
  (forall a b, static_eqb a b = true <-> a = b) /\
  acyclic initializer /\
  (forall c, exists v, static_value c = Ok v /\ yields initializer (initializer c) (Ok v)) /\
  (forall q, yields initializer (request_prog q) (request_result q)).
Proof.
  split; [exact static_exact|]. split; [exact initializer_acyclic|].
  split; [exact gives_static|exact gives_request].
Qed.

(** Any number of threads with any requests, in any order of steps: no static is ever poisoned, what
    is there is the value of a single thread, a thread that is done has the result of a single
    thread, and all get done. *)
Lemma pf_C91_requests :
  forall (qs : list request) schedule,
    let p := run static_eqb initializer (launch (map request_prog qs)) schedule in
    (forall c v, state_of p c = Complete v -> static_value c = Ok v) /\
    (forall c, state_of p c <> Poisoned) /\
    (forall i q t r, nth_error qs i = Some q -> nth_error (threads p) i = Some t -> finished t r ->
       r = request_result q) /\
    (exists l p', goes static_eqb initializer p l p' /\ at_rest static_eqb initializer p') /\
    (forall l p', goes static_eqb initializer p l p' -> at_rest static_eqb initializer p' ->
       threads p' = map (fun q => mkThread (Return (request_result q)) []) qs) /\
    (forall f : nat -> process static value, f 0 = p ->
       ~ forall n, exists i, step static_eqb initializer (f n) i = Some (f (S n))).
Proof.
  intros qs l p.
  destruct (pf_C91_results _ _ static_eqb initializer (map request_prog qs) l static_exact)
    as (_ & R & SV & SP & _). fold p in R, SV, SP.
  destruct (pf_C91_ends _ _ static_eqb initializer (map request_prog qs) l static_exact
              initializer_acyclic) as (E1 & E2 & E3). fold p in E1, E2, E3.
  split; [|split; [|split; [|split; [exact E2|split; [|exact E1]]]]].
  - intros c v H. apply SV in H. destruct (gives_static c) as (w & W & Y).
    rewrite W. symmetry. exact (yields_unique _ _ _ _ H Y).
  - intros c H. apply SP in H. destruct (gives_static c) as (w & _ & Y).
    assert (K := yields_unique _ _ _ _ H Y). discriminate K.
  - intros i q t r Q T F.
    assert (Q' : nth_error (map request_prog qs) i = Some (request_prog q))
      by (rewrite nth_error_map, Q; reflexivity).
    exact (yields_unique _ _ _ _ (R i _ t r Q' T F) (gives_request q)).
  - intros m p' G A. assert (F := E3 m p' G A). clear - F. revert F. generalize (threads p') as ts.
    induction qs as [|q qs IH]; intros ts F; inversion F as [|x t xs ts' [r [Hr Y]] F']; subst;
      [reflexivity|]. cbn [map]. f_equal; [|apply IH, F'].
    rewrite Hr. rewrite (yields_unique _ _ _ _ Y (gives_request q)). reflexivity.
Qed.

(** Without the order among the initializers, threads can wait for each other, and one for itself. *)
Lemma pf_C91_circle_refuted :
  ~ (forall L V eqb (init : L -> prog L V) ps schedule, (forall a b, eqb a b = true <-> a = b) ->
       let p := run eqb init (launch ps) schedule in
       at_rest eqb init p -> forall i t, nth_error (threads p) i = Some t -> exists r, finished t r).
Proof.
  intros H.
  assert (E : forall a b, Bool.eqb a b = true <-> a = b) by (intros a b; apply Bool.eqb_true_iff).
  specialize (H bool N Bool.eqb mutual [mutual true; mutual false] [0; 1] E).
  destruct (H) with (i := 0) (t := mkThread (mutual false) [(false, fun v : N => Return (L := bool) (Ok v))])
    as [r F].
  - intros [|[|[|i]]]; reflexivity.
  - reflexivity.
  - discriminate F.
Qed.

Example pf_C91_itself :
  at_rest (fun _ _ => true) selfish (run (fun _ _ => true) selfish (launch [selfish tt]) [0]) /\
  threads (run (fun _ _ => true) selfish (launch [selfish tt]) [0])
    = [mkThread (selfish tt) [(tt, fun v => Return (Ok v))]].
Proof. split; [intros [|[|i]]; reflexivity|reflexivity]. Qed.

(** The second thread comes while the first computes: it waits, then finds the value. *)
Example pf_C91_second :
  let start := launch [request_prog (Use S_NUM_LOGICAL_OPCODES); request_prog (Use S_NUM_LOGICAL_OPCODES)] in
  let p := run static_eqb initializer start [0; 0] in
  step static_eqb initializer p 1 = None /\
  state_of p S_OPCODE_PROTOTYPES = Running 0 /\
  (let q := run static_eqb initializer p [1; 0; 1; 0; 1] in
   threads q = [mkThread (Return (Ok (V_number 16))) []; mkThread (Return (Ok (V_number 16))) []] /\
   begun q = [S_OPCODE_PROTOTYPES; S_NUM_LOGICAL_OPCODES] /\
   at_rest static_eqb initializer q).
Proof.
  split; [vm_compute; reflexivity|]. split; [vm_compute; reflexivity|].
  split; [vm_compute; reflexivity|]. split; [vm_compute; reflexivity|].
  intros [|[|i]]; [vm_compute; reflexivity|vm_compute; reflexivity|].
  unfold step. match goal with |- match ?x with Some _ => _ | None => _ end = _ => replace x with (@None (thread static value)) end; [reflexivity|].
  symmetry. apply nth_error_None. vm_compute. lia.
Qed.
