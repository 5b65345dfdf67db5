(** * Proofs about interrupted runs of the generator (C92) *)

From Coq Require Import Arith NArith List Bool String Ascii Lia.
From Verif Require Import Machine PricingGen GeneratorIO SpecPricing SpecDisplay SpecGenerator
  SpecGeneratorIO ProofsDisplay ProofsGenerator.
Import ListNotations.
Local Open Scope nat_scope.

(** ** Writing *)

Lemma split_string_app n s : forall a b, split_string n s = (a, b) ->
  s = (a ++ b)%string /\ String.length a = Nat.min n (String.length s).
Proof.
  revert s. induction n as [|n IH]; intros [|c s] a b H; cbn in H.
  - injection H as <- <-. auto.
  - injection H as <- <-. auto.
  - injection H as <- <-. auto.
  - destruct (split_string n s) as [x y] eqn:E. injection H as <- <-.
    destruct (IH s x y E) as [-> L]. cbn. rewrite L. auto.
Qed.

Lemma length_app a b : String.length (a ++ b)%string = String.length a + String.length b.
Proof. induction a as [|c a IH]; cbn; [reflexivity|]. rewrite IH. reflexivity. Qed.

Lemma app_nil_s a : (a ++ "")%string = a.
Proof. induction a as [|c a IH]; cbn; [reflexivity|]. rewrite IH. reflexivity. Qed.

(** How writing ends. *)
Definition all_taken (answers : list answer) (n : nat) : Prop :=
  exists l rest, answers = l ++ rest /\ forallb goes_on l = true /\ n <= total l.
Definition stopped_at (answers : list answer) (n k : nat) : Prop :=
  exists l a rest, answers = l ++ a :: rest /\ forallb goes_on l = true /\ goes_on a = false /\
    total l = k /\ k < n.

Lemma write_all_ends answers : forall buf file o f, write_all answers buf file = (o, f) ->
  exists pre rest, buf = (pre ++ rest)%string /\ f = (file ++ pre)%string /\
    match o with
    | Returned => rest = EmptyString /\ all_taken answers (String.length buf)
    | Panicked => stopped_at answers (String.length buf) (String.length pre)
    | Waits => forallb goes_on answers = true /\ total answers = String.length pre /\
               String.length pre < String.length buf
    end.
Proof.
  induction answers as [|a answers IH]; intros buf file o f H.
  - destruct buf as [|c buf]; cbn in H; injection H as <- <-.
    + exists EmptyString, EmptyString. rewrite (app_nil_s file). repeat split.
      exists [], []. cbn. auto.
    + exists EmptyString, (String c buf). rewrite (app_nil_s file). repeat split. cbn. lia.
  - destruct buf as [|c buf].
    + cbn in H. destruct a; injection H as <- <-; exists EmptyString, EmptyString;
        rewrite (app_nil_s file); repeat split; eexists [], _; cbn; auto.
    + destruct a as [[|n]| |]; cbn [write_all] in H.
      * injection H as <- <-. exists EmptyString, (String c buf). rewrite (app_nil_s file). repeat split.
        exists [], (Took 0), answers. cbn. repeat split. lia.
      * destruct (split_string (S n) (String c buf)) as [x y] eqn:E.
        destruct (split_string_app _ _ _ _ E) as [X L]. rewrite X in *. clear E X c buf.
        destruct (IH y _ o f H) as (pre & rest & -> & -> & K). clear IH H.
        exists (x ++ pre)%string, rest. rewrite !append_assoc. repeat split.
        rewrite !length_app in *. destruct o.
        -- destruct K as [-> (l & r & -> & G & T)]. split; [reflexivity|].
           exists (Took (S n) :: l), r. cbn [app forallb goes_on total fold_right bytes] in *.
           rewrite ?length_app in T. cbn [String.length] in *. repeat split; [exact G|].
           fold (total l). lia.
        -- destruct K as (l & a & r & -> & G & A & T & Lt). exists (Took (S n) :: l), a, r.
           cbn [app forallb goes_on total fold_right bytes] in *. fold (total l).
           repeat split; [exact G|exact A|lia|lia].
        -- destruct K as (G & T & Lt). cbn [forallb goes_on total fold_right bytes] in *.
           fold (total answers). repeat split; [exact G|lia|lia].
      * destruct (IH _ _ o f H) as (pre & rest & B & -> & K). exists pre, rest. repeat split; [exact B|].
        destruct o.
        -- destruct K as [-> (l & r & -> & G & T)]. split; [reflexivity|].
           exists (Interrupted :: l), r. auto.
        -- destruct K as (l & a & r & -> & G & A & T & Lt). exists (Interrupted :: l), a, r. auto 6.
        -- exact K.
      * injection H as <- <-. exists EmptyString, (String c buf). rewrite (app_nil_s file). repeat split.
        exists [], Failed, answers. cbn. repeat split. lia.
Qed.

Lemma stop_after l r l' a r' : l ++ r = l' ++ a :: r' -> forallb goes_on l = true -> goes_on a = false ->
  exists z, l' = l ++ z.
Proof.
  revert l'. induction l as [|x l IH]; intros l' H G A; [exists l'; reflexivity|].
  destruct l' as [|y l']; cbn in H; injection H as -> H; cbn in G; apply andb_prop in G as [G1 G2].
  - congruence.
  - destruct (IH l' H G2 A) as [z ->]. exists z. reflexivity.
Qed.

Lemma total_app a b : total (a ++ b) = total a + total b.
Proof. induction a as [|x a IH]; cbn; [reflexivity|]. fold (total (a ++ b)). rewrite IH. unfold total. lia. Qed.

Lemma taken_not_stopped answers n k : all_taken answers n -> stopped_at answers n k -> False.
Proof.
  intros (l & r & -> & G & T) (l' & a & r' & H & G' & A & T' & Lt).
  destruct (stop_after _ _ _ _ _ H G A) as [z ->]. rewrite total_app in T'. lia.
Qed.

Lemma forallb_app_l {A} (f : A -> bool) a b : forallb f (a ++ b) = true -> forallb f a = true /\ forallb f b = true.
Proof. rewrite forallb_app. apply andb_prop. Qed.

Lemma stopped_unique answers n k k' : stopped_at answers n k -> stopped_at answers n k' -> k = k'.
Proof.
  intros (l & a & r & -> & G & A & T & _) (l' & a' & r' & H & G' & A' & T' & _).
  destruct (stop_after _ _ _ _ _ H G A') as [z Z]. symmetry in H.
  destruct (stop_after _ _ _ _ _ H G' A) as [z' Z']. subst l'.
  rewrite total_app in T'. apply (f_equal total) in Z'. rewrite !total_app in Z'. lia.
Qed.

Definition on_disk (r : outcome * disk) (path : string) (o : outcome) (pre : string) : Prop :=
  fst r = o /\ snd r path = Some pre.

Lemma set_file_same d p x : set_file d p x p = Some x.
Proof. unfold set_file. rewrite String.eqb_refl. reflexivity. Qed.
Lemma set_file_other d p x q : q <> p -> set_file d p x q = d q.
Proof. intros N. unfold set_file. apply String.eqb_neq in N. rewrite N. reflexivity. Qed.

(** What a run leaves on the disk, for every way in which the operating system answers. *)
Lemma pf_C92_save :
  forall P bld path text created answers d,
    generator_main_at P bld = Ok (path, text) ->
    let (o, d') := generator_run P bld created answers d in
    (forall q, q <> path -> d' q = d q) /\
    (created = false -> o = Panicked /\ d' path = d path) /\
    (created = true ->
       (o = Returned <->
          exists l rest, answers = l ++ rest /\ forallb goes_on l = true /\
            String.length text <= total l) /\
       (o = Panicked <->
          exists l a rest, answers = l ++ a :: rest /\ forallb goes_on l = true /\
            goes_on a = false /\ total l < String.length text) /\
       (o = Waits <-> forallb goes_on answers = true /\ total answers < String.length text) /\
       (o = Returned -> d' path = Some text) /\
       (forall l a rest, answers = l ++ a :: rest -> forallb goes_on l = true ->
          goes_on a = false -> total l < String.length text ->
          exists pre, d' path = Some pre /\ first_bytes (total l) text pre) /\
       (o = Waits -> exists pre, d' path = Some pre /\ first_bytes (total answers) text pre)).
Proof.
  intros P bld path text created answers d H. unfold generator_run. rewrite H. unfold save_to_disk.
  destruct created.
  2:{ split; [reflexivity|]. split; [auto|]. intros K; discriminate K. }
  destruct (write_all answers text EmptyString) as [o f] eqn:W.
  destruct (write_all_ends _ _ _ _ _ W) as (pre & rest & T & F & K). cbn in F. subst f.
  split; [intros q N; rewrite !set_file_other by exact N; reflexivity|].
  split; [intros X; discriminate X|]. intros _. rewrite set_file_same.
  assert (L : String.length text = String.length pre + String.length rest)
    by (rewrite T; apply length_app).
  assert (FB : forall k, String.length pre = k -> first_bytes k text pre).
  { intros k <-. exists rest. split; [exact T|]. lia. }
  assert (NW : forallb goes_on answers = true -> total answers < String.length text ->
               ~ all_taken answers (String.length text) /\
               forall k, ~ stopped_at answers (String.length text) k).
  { intros G Lt. split.
    - intros (l & r & -> & _ & T'). rewrite total_app in Lt. lia.
    - intros k (l & a & r & -> & _ & A & _). apply forallb_app_l in G as [_ G]. cbn in G.
      rewrite A in G. discriminate G. }
  assert (AT : all_taken answers (String.length text) <-> exists l rest, answers = l ++ rest /\
            forallb goes_on l = true /\ String.length text <= total l) by reflexivity.
  assert (ST : (exists k, stopped_at answers (String.length text) k) <->
            exists l a rest, answers = l ++ a :: rest /\ forallb goes_on l = true /\
            goes_on a = false /\ total l < String.length text).
  { split.
    - intros (k & l & a & r & X & G & A & <- & Lt). exists l, a, r. auto.
    - intros (l & a & r & X & G & A & Lt). exists (total l), l, a, r. auto. }
  rewrite <- AT, <- ST. clear AT ST.
  destruct o.
  - destruct K as [-> K]. rewrite app_nil_s in T. subst pre.
    repeat split; try discriminate; try auto.
    + intros [k S]. destruct (taken_not_stopped _ _ _ K S).
    + intros [G Lt]. destruct (NW G Lt) as [N _]. contradiction.
    + intros l a r X G A Lt. destruct (taken_not_stopped _ _ (total l) K). exists l, a, r. auto.
  - repeat split; try discriminate; try auto.
    + intros A. destruct (taken_not_stopped _ _ _ A K).
    + intros _. exists (String.length pre). exact K.
    + intros [G Lt]. destruct (NW G Lt) as [_ N]. destruct (N _ K).
    + intros l a r X G A Lt. exists pre. split; [reflexivity|]. apply FB.
      apply (stopped_unique _ _ _ _ K). exists l, a, r. auto.
  - destruct K as (G & T' & Lt). assert (Lt' : total answers < String.length text) by lia.
    destruct (NW G Lt') as [N1 N2]. repeat split; try discriminate; try auto.
    + intros A. contradiction.
    + intros [k S]. destruct (N2 k S).
    + intros l a r -> G' A _. apply forallb_app_l in G as [_ G]. cbn in G. rewrite A in G. discriminate G.
    + intros _. exists pre. split; [reflexivity|]. apply FB. lia.
Qed.

(** A run that cannot compute the prices panics before the file is opened: the disk is as before. *)
Lemma pf_C92_unpriced :
  forall P, typed_parameters P ->
  forall bld,
    match bld with
    | Debug => ~ computable (narrowed P)
    | Release => limit_for_l1_messages_merklizer P = 0%N \/
                 exists n c, In (n, c) (metered P) /\ (c mod 2 ^ 32 = 0)%N
    end ->
  forall created answers d,
    fst (generator_run P bld created answers d) = Panicked /\
    (forall q, snd (generator_run P bld created answers d) q = d q).
Proof.
  intros P T bld H created answers d.
  assert (E : generator_main_at P bld = Panic) 
    by (destruct (pf_C74_panics P T) as [A B]; destruct bld; [exact (proj2 A H)|exact (proj2 B H)]).
  unfold generator_run. rewrite E. auto.
Qed.

(** ** Torn files *)

Lemma app_cut a b c d : (a ++ b = c ++ d)%string ->
  (exists e, a = c ++ e /\ d = e ++ b)%string \/ (exists e, c = a ++ e /\ b = e ++ d)%string.
Proof.
  revert c. induction a as [|x a IH]; intros c H.
  - right. exists c. auto.
  - destruct c as [|y c]; cbn in H.
    + left. exists (String x a). auto.
    + injection H as -> H. destruct (IH c H) as [(e & -> & ->)|(e & -> & ->)]; [left|right]; exists e; auto.
Qed.

Lemma app_cancel p a b : (p ++ a = p ++ b)%string -> a = b.
Proof. induction p as [|c p IH]; intros H; [exact H|]. cbn in H. injection H as H. auto. Qed.

Lemma free_app c a b : free_of c (a ++ b)%string <-> free_of c a /\ free_of c b.
Proof. induction a as [|x a IH]; cbn; [tauto|]. rewrite IH. tauto. Qed.

Lemma free_no_char c s : no_char c s = true <-> free_of c s.
Proof.
  induction s as [|x s IH]; cbn; [tauto|]. rewrite andb_true_iff, IH, negb_true_iff, Ascii.eqb_neq. tauto.
Qed.

Lemma free_split c a a' b b' : free_of c a -> free_of c a' ->
  (a ++ String c b = a' ++ String c b')%string -> a = a' /\ b = b'.
Proof. rewrite <- !free_no_char. apply split_at. Qed.

Fixpoint unl (ls : list string) (last : string) : string :=
  match ls with [] => last | l :: r => (line l ++ unl r last)%string end.

Lemma line_app s t : (line s ++ t = s ++ String "010" t)%string.
Proof. unfold line. rewrite append_assoc. reflexivity. Qed.

Lemma unl_app ls a b : unl ls (a ++ b)%string = (unl ls a ++ b)%string.
Proof. induction ls as [|l ls IH]; cbn [unl]; [reflexivity|]. rewrite IH, append_assoc. reflexivity. Qed.

Lemma unl_cut ls : forall pre rest, unl ls "" = (pre ++ rest)%string ->
  (pre = unl ls "" /\ rest = EmptyString) \/
  exists ls1 l ls3 last e, ls = (ls1 ++ l :: ls3)%list /\ l = (last ++ e)%string /\ pre = unl ls1 last.
Proof.
  induction ls as [|l ls IH]; intros pre rest H.
  - cbn in H. destruct pre; [|discriminate]. cbn in H. left. auto.
  - cbn [unl] in H. rewrite line_app in H.
    apply app_cut in H as [(e & -> & R)|(e & -> & R)].
    + right. exists [], (pre ++ e)%string, ls, pre, e. auto.
    + destruct e as [|c e].
      * right. exists [], l, ls, l, EmptyString. rewrite !app_nil_s. auto.
      * cbn in R. injection R as <- R. destruct (IH e rest R) as [[-> ->]|K].
        -- left. cbn [unl]. rewrite line_app. auto.
        -- destruct K as (ls1 & l' & ls3 & last & e' & -> & -> & ->). right.
           exists (l :: ls1), (last ++ e')%string, ls3, last, e'. cbn [unl List.app].
           rewrite line_app. auto.
Qed.

Lemma unl_find D after ls : forall last before,
  unl ls last = (before ++ D ++ after)%string -> line_start before -> free_of "010" D ->
  Forall (free_of "010") (ls ++ [last]) ->
  exists l e, In l (ls ++ [last]) /\ l = (D ++ e)%string.
Proof.
  induction ls as [|l ls IH]; intros last before H B FD FL.
  - cbn in H. destruct B as [->|[b ->]].
    + exists last, after. split; [left; reflexivity|exact H].
    + exfalso. cbn in FL. inversion FL as [|? ? F _]; subst. rewrite line_app in F.
      apply free_app in F as [_ F]. cbn in F. tauto.
  - cbn in FL. inversion FL as [|? ? Fl FL']; subst. cbn [unl] in H. rewrite line_app in H.
    destruct B as [->|[b ->]].
    + cbn in H. apply app_cut in H as [(e & -> & R)|(e & -> & R)].
      * eexists _, e. split; [left; reflexivity|reflexivity].
      * destruct e as [|c e].
        -- exists l, EmptyString. rewrite !app_nil_s. split; [left; reflexivity|reflexivity].
        -- exfalso. cbn in R. injection R as <- _. apply free_app in FD as [_ FD]. cbn in FD. tauto.
    + rewrite line_app in H.
      assert (G : exists before', unl ls last = (before' ++ D ++ after)%string /\ line_start before').
      { apply app_cut in H as [(e & -> & R)|(e & -> & R)].
        - destruct e as [|c e].
          + cbn in R. injection R as R. exists EmptyString. split; [symmetry; exact R|left; reflexivity].
          + exfalso. cbn in R. injection R as <- _. apply free_app in Fl as [_ Fl]. cbn in Fl. tauto.
        - destruct e as [|c e].
          + cbn in R. injection R as R. exists EmptyString. split; [exact R|left; reflexivity].
          + cbn in R. injection R as <- R. exists (line e). rewrite line_app.
            split; [exact R|right; exists e; reflexivity]. }
      destruct G as (before' & E & B'). destruct (IH last before' E B' FD FL') as (l' & e & I & X).
      exists l', e. split; [right; exact I|exact X].
Qed.

Lemma line_start_line l a : line_start a -> line_start (line l ++ a)%string.
Proof.
  intros [->|[b ->]]; right.
  - exists l. apply app_nil_s.
  - exists (line l ++ b)%string. unfold line. rewrite !append_assoc. reflexivity.
Qed.

Lemma unl_in ls last l : In l (ls ++ [last]) ->
  exists before after, unl ls last = (before ++ l ++ after)%string /\ line_start before.
Proof.
  induction ls as [|x ls IH]; intros I; cbn in I.
  - destruct I as [->|[]]. exists EmptyString, EmptyString. rewrite app_nil_s.
    split; [reflexivity|left; reflexivity].
  - destruct I as [->|I].
    + exists EmptyString, (String "010" (unl ls last)). cbn [unl]. rewrite line_app.
      split; [reflexivity|left; reflexivity].
    + destruct (IH I) as (b & a & E & B). exists (line x ++ b)%string, a. cbn [unl].
      rewrite E, append_assoc. split; [reflexivity|apply line_start_line, B].
Qed.

Inductive file_line := Plain (s : string) | Const (n : string).
Definition render (t : string -> string) (f : file_line) : string :=
  match f with
  | Plain s => s
  | Const n => ("pub const " ++ n ++ ": u32 = " ++ t n ++ ";")%string
  end.
Definition names (l : list file_line) : list string :=
  flat_map (fun f => match f with Plain _ => [] | Const n => [n] end) l.

Definition price_layout : list file_line :=
  [ Plain "// This file is auto-generated, do not edit it manually";
    Plain "// Any changes to this file require system upgrade!";
    Plain "";
    Const "VM_CYCLE_COST_IN_ERGS";
    Const "RAM_PERMUTATION_COST_IN_ERGS";
    Const "CODE_DECOMMITMENT_COST_PER_WORD_IN_ERGS";
    Const "STORAGE_APPLICATION_COST_IN_ERGS";
    Const "CODE_DECOMMITTER_SORTER_COST_IN_ERGS";
    Const "LOG_DEMUXER_COST_IN_ERGS";
    Const "STORAGE_SORTER_COST_IN_ERGS";
    Const "EVENTS_OR_L1_MESSAGES_SORTER_COST_IN_ERGS";
    Const "INITIAL_WRITES_PUBDATA_HASHER_COST_IN_ERGS";
    Const "REPEATED_WRITES_PUBDATA_HASHER_COST_IN_ERGS";
    Const "CODE_DECOMMITMENT_SORTER_COST_IN_ERGS";
    Plain "";
    Plain "// The following circuits are single-instance and so the provided prices are just minimal prices to preserve DDoS safety";
    Const "L1_MESSAGE_MIN_COST_IN_ERGS";
    Const "INITIAL_WRITES_PUBDATA_HASHER_MIN_COST_IN_ERGS";
    Const "REPEATED_WRITES_PUBDATA_HASHER_MIN_COST_IN_ERGS";
    Plain "";
    Plain "// Equals to max(INITIAL_WRITES_PUBDATA_HASHER_MIN_COST_IN_ERGS, REPEATED_WRITES_PUBDATA_HASHER_MIN_COST_IN_ERGS)";
    Const "STORAGE_WRITE_HASHER_MIN_COST_IN_ERGS";
    Plain "";
    Plain "// The following constants should not be used in the VM directly, but only in Solidity wrappers";
    Const "KECCAK256_CIRCUIT_COST_IN_ERGS";
    Const "SHA256_CIRCUIT_COST_IN_ERGS" ]%string.
Definition last_name : string := "ECRECOVER_CIRCUIT_COST_IN_ERGS".

Lemma price_file_lines t :
  price_file t = unl (map (render t) (price_layout ++ [Const last_name])) "".
Proof.
  unfold price_file, price_layout, last_name.
  cbn [map List.app unl render]. rewrite app_nil_s. reflexivity.
Qed.

Lemma unl_two a b z : unl (a ++ b)%list z = unl a (unl b z).
Proof. induction a as [|q a IH]; cbn [unl List.app]; [reflexivity|]. rewrite IH. reflexivity. Qed.

Definition whole_layout : list file_line := (price_layout ++ [Const last_name])%list.

Lemma names_in n l : In n (names l) <-> In (Const n) l.
Proof.
  unfold names. rewrite in_flat_map. split.
  - intros (f & I & J). destruct f; cbn in J; [contradiction|]. destruct J as [->|[]]. exact I.
  - intros I. exists (Const n). split; [exact I|left; reflexivity].
Qed.

Lemma names_app a b : names (a ++ b)%list = (names a ++ names b)%list.
Proof. apply flat_map_app. Qed.

Lemma layout_names : names whole_layout = file_order.
Proof. reflexivity. Qed.

Fixpoint free_ofb (c : ascii) (s : string) : bool :=
  match s with EmptyString => true | String x r => negb (Ascii.eqb x c) && free_ofb c r end.
Lemma free_ofb_ok c s : free_ofb c s = true -> free_of c s.
Proof.
  induction s as [|x s IH]; cbn; [trivial|]. rewrite andb_true_iff, negb_true_iff, Ascii.eqb_neq.
  intros [A B]. auto.
Qed.

Lemma layout_plain s : In (Plain s) whole_layout ->
  free_of "010" s /\ (s = EmptyString \/ exists r, s = String "/" r).
Proof.
  assert (C : forallb (fun f => match f with
    | Plain s => free_ofb "010" s && match s with EmptyString => true | String c _ => Ascii.eqb c "/" end
    | Const _ => true end) whole_layout = true) by (vm_compute; reflexivity).
  intros I. rewrite forallb_forall in C. specialize (C _ I). cbn [forallb] in C.
  apply andb_prop in C as [C1 C2]. split; [apply free_ofb_ok, C1|].
  destruct s as [|c r]; [left; reflexivity|right]. apply Ascii.eqb_eq in C2. subst c. exists r. reflexivity.
Qed.

Lemma layout_const n : In n file_order -> free_of ":" n /\ free_of "010" n.
Proof.
  assert (C : forallb (fun n => free_ofb ":" n && free_ofb "010" n) file_order = true)
    by (vm_compute; reflexivity).
  intros I. rewrite forallb_forall in C. specialize (C _ I). apply andb_prop in C as [C1 C2].
  split; apply free_ofb_ok; assumption.
Qed.

Lemma order_nodup : NoDup file_order.
Proof. unfold file_order. repeat (constructor; [cbn; intuition discriminate|]). constructor. Qed.

Definition declaration (m s : string) : string := ("pub const " ++ m ++ ": u32 = " ++ s ++ ";")%string.

Lemma declaration_app m s e : (declaration m s ++ e)%string
  = ("pub const " ++ (m ++ String ":" (" u32 = " ++ (s ++ String ";" e))))%string.
Proof. unfold declaration. rewrite !append_assoc. reflexivity. Qed.

Lemma match_line t f m s e :
  In f whole_layout -> (forall n, In n file_order -> free_of ";" (t n)) ->
  free_of ":" m -> free_of ";" s ->
  render t f = (declaration m s ++ e)%string -> f = Const m /\ t m = s /\ e = EmptyString.
Proof.
  intros I T M S H. rewrite declaration_app in H. destruct f as [p|n]; cbn [render] in H.
  - exfalso. destruct (layout_plain p I) as [_ [->|[r ->]]]; discriminate H.
  - assert (N : In n file_order) by (rewrite <- layout_names; apply names_in, I).
    apply app_cancel in H. destruct (layout_const n N) as [F _].
    apply (free_split ":") in H as [-> H]; [|exact F|exact M].
    change (" u32 = " ++ (t m ++ String ";" "") = " u32 = " ++ (s ++ String ";" e))%string in H.
    apply app_cancel in H. change (t m ++ String ";" "" = s ++ String ";" e)%string in H.
    apply free_split in H as [H E]; [|apply T, N|exact S]. auto.
Qed.

Lemma decimal_free x s : decimal_text x s -> free_of ";" s /\ free_of "010" s.
Proof. intros D. split; apply free_no_char; eapply decimal_sep; eauto. Qed.

Lemma render_free t f : In f whole_layout -> (forall n, In n file_order -> free_of "010" (t n)) ->
  free_of "010" (render t f).
Proof.
  intros I T. destruct f as [p|n]; cbn [render]; [apply (layout_plain p I)|].
  assert (N : In n file_order) by (rewrite <- layout_names; apply names_in, I).
  repeat rewrite free_app. repeat split; try (apply (layout_const n N)); try (apply T, N); cbn;
    intuition discriminate.
Qed.

Lemma declares_iff file m x : declares file m x <->
  free_of ":" m /\ free_of "010" m /\
  exists before s after, file = (before ++ declaration m s ++ after)%string /\ line_start before /\
    decimal_text x s.
Proof.
  unfold declares, declaration. split.
  - intros (b & s & a & -> & B & M1 & M2 & D). repeat split; try assumption. exists b, s, a.
    rewrite !append_assoc. auto.
  - intros (M1 & M2 & b & s & a & -> & B & D). exists b, s, a. rewrite !append_assoc. auto 6.
Qed.

Lemma declared_in t v lay last :
  (forall n, In n file_order -> decimal_text (v n) (t n)) -> incl lay whole_layout ->
  free_of "010" last -> forall m x, declares (unl (map (render t) lay) last) m x ->
  decimal_text x (t m) /\ In m (names lay) \/
  exists s e, last = (declaration m s ++ e)%string /\ free_of ":" m /\ decimal_text x s.
Proof.
  intros T I F m x D. apply declares_iff in D as (M1 & M2 & b & s & a & E & B & D).
  assert (FD : free_of "010" (declaration m s)).
  { unfold declaration. repeat rewrite free_app. assert (FS := decimal_free _ _ D).
    repeat split; try tauto; cbn; intuition discriminate. }
  assert (T1 : forall n, In n file_order -> free_of "010" (t n))
    by (intros n N; apply (decimal_free _ _ (T n N))).
  assert (T2 : forall n, In n file_order -> free_of ";" (t n))
    by (intros n N; apply (decimal_free _ _ (T n N))).
  destruct (unl_find _ _ _ _ _ E B FD) as (l & e & L & X).
  - apply Forall_app. split; [|repeat constructor; exact F]. apply Forall_map, Forall_forall.
    intros f J. apply render_free; [apply I, J|exact T1].
  - apply in_app_or in L as [L|[<-|[]]].
    + left. apply in_map_iff in L as (f & R & J). rewrite <- R in X. 
      destruct (match_line t f m s e (I f J) T2 M1 (proj1 (decimal_free _ _ D)) X) as (-> & <- & _).
      split; [exact D|apply names_in, J].
    + right. exists s, e. auto.
Qed.

Lemma in_declared t v lay last :
  (forall n, In n file_order -> decimal_text (v n) (t n)) -> incl lay whole_layout ->
  forall m x, decimal_text x (t m) -> In m (names lay) \/ (In m file_order /\ last = render t (Const m)) ->
  declares (unl (map (render t) lay) last) m x.
Proof.
  intros T I m x D H.
  assert (N : In m file_order).
  { destruct H as [H|[H _]]; [|exact H]. rewrite <- layout_names. apply names_in, I, names_in, H. }
  assert (L : In (render t (Const m)) (map (render t) lay ++ [last])%list).
  { apply in_or_app. destruct H as [H|[_ ->]]; [left; apply in_map, names_in, H|right; left; reflexivity]. }
  destruct (unl_in _ _ _ L) as (b & a & E & B). apply declares_iff. destruct (layout_const m N) as [F1 F2].
  split; [exact F1|split; [exact F2|]]. exists b, (t m), a. rewrite E. auto.
Qed.

Lemma layout_end a f b : whole_layout = (a ++ f :: b)%list -> In last_name (names (f :: b)).
Proof.
  intros H. apply names_in.
  assert (N : f :: b <> []) by discriminate. destruct (exists_last N) as (c & g & E).
  rewrite E in *. unfold whole_layout in H. rewrite app_assoc in H. apply app_inj_tail in H as [_ <-].
  apply in_or_app. right. left. reflexivity.
Qed.

Lemma unl_empty ls : unl ls "" = EmptyString -> ls = [].
Proof.
  destruct ls as [|l ls]; [reflexivity|]. cbn [unl]. rewrite line_app. destruct l; discriminate.
Qed.

Lemma torn t v pre rest :
  (forall n, In n file_order -> decimal_text (v n) (t n)) -> price_file t = (pre ++ rest)%string ->
  exists k, k <= List.length file_order /\
    (forall m x, declares pre m x <-> In m (firstn k file_order) /\ decimal_text x (t m)) /\
    (k = List.length file_order <-> rest = EmptyString \/ rest = line "").
Proof.
  intros T H. rewrite price_file_lines in H. fold whole_layout in H.
  destruct (unl_cut _ _ _ H) as [[-> ->]|(ls1 & l & ls3 & last & e & EL & El & EP)].
  - exists (List.length file_order). split; [lia|]. split; [|split; [left; reflexivity|reflexivity]].
    intros m x. rewrite firstn_all. split.
    + intros D. destruct (declared_in t v whole_layout "" T (incl_refl _) I m x D) as [[D' N]|(s & e & X & _)].
      * rewrite layout_names in N. auto.
      * discriminate X.
    + intros [N D]. apply (in_declared t v); try assumption; [apply incl_refl|].
      left. rewrite layout_names. exact N.
  - apply map_eq_app in EL as (lay1 & lay2 & EW & <- & E2).
    apply map_eq_cons in E2 as (f & lay3 & -> & Ef & <-). subst l.
    assert (I1 : incl lay1 whole_layout) by (intros z Z; rewrite EW; apply in_or_app; auto).
    assert (If : In f whole_layout) by (rewrite EW; apply in_or_app; right; left; reflexivity).
    assert (T1 : forall n, In n file_order -> free_of "010" (t n))
      by (intros n N; apply (decimal_free _ _ (T n N))).
    assert (T2 : forall n, In n file_order -> free_of ";" (t n))
      by (intros n N; apply (decimal_free _ _ (T n N))).
    assert (FL : free_of "010" last).
    { assert (X := render_free t f If T1). rewrite El in X. apply free_app in X. tauto. }
    assert (EN : file_order = (names lay1 ++ names [f] ++ names lay3)%list).
    { rewrite <- layout_names, EW, names_app. change (f :: lay3) with ([f] ++ lay3)%list.
      rewrite names_app. reflexivity. }
    assert (LE := layout_end lay1 f lay3 EW).
    assert (ER : rest = (e ++ String "010" (unl (map (render t) lay3) ""))%string).
    { rewrite EW, map_app in H. cbn [map] in H.
      rewrite unl_two in H. cbn [unl] in H. rewrite line_app, El, append_assoc in H. rewrite unl_app in H.
      rewrite EP in H. apply app_cancel in H. symmetry. exact H. }
    assert (LN : List.length file_order = List.length (names lay1) + List.length (names [f]) + List.length (names lay3))
      by (rewrite EN, !app_length; lia).
    destruct e as [|c e].
    + (* the line is there *)
      rewrite app_nil_s in El. exists (List.length (names lay1) + List.length (names [f])).
      split; [lia|]. split.
      * intros m x. rewrite EN, app_assoc, <- app_length, firstn_app, Nat.sub_diag, firstn_all, app_nil_r.
        rewrite EP. split.
        -- intros D. destruct (declared_in t v lay1 last T I1 FL m x D) as [[D' N]|(s & e & X & M & D')].
           ++ split; [apply in_or_app; left; exact N|exact D'].
           ++ rewrite <- El in X.
              destruct (match_line t f m s e If T2 M (proj1 (decimal_free _ _ D')) X) as (-> & <- & _).
              split; [apply in_or_app; right; left; reflexivity|exact D'].
        -- intros [N D]. apply (in_declared t v); try assumption.
           apply in_app_or in N as [N|N]; [left; exact N|right].
           destruct f as [p|n]; cbn in N; [contradiction|]. destruct N as [->|[]].
           split; [|symmetry; exact El]. rewrite <- layout_names. apply names_in, If.
      * cbn in ER. split.
        -- intros K. assert (Z : names lay3 = []) by (apply length_zero_iff_nil; lia).
           destruct lay3 as [|g lay3].
           ++ right. exact ER.
           ++ exfalso. assert (X := layout_end (lay1 ++ [f]) g lay3).
              rewrite <- app_assoc in X. specialize (X EW). rewrite Z in X. exact X.
        -- intros [R|R]; [rewrite R in ER; discriminate ER|]. rewrite R in ER. cbn in ER.
           injection ER as ER. symmetry in ER. apply unl_empty in ER. destruct lay3; [|discriminate ER].
           rewrite LN. cbn [names flat_map List.length]. lia.
    + (* the line is torn *)
      exists (List.length (names lay1)). split; [lia|]. split.
      * intros m x. rewrite EN, firstn_app, Nat.sub_diag, firstn_all, app_nil_r. rewrite EP. split.
        -- intros D. destruct (declared_in t v lay1 last T I1 FL m x D) as [[D' N]|(s & e' & X & M & D')].
           ++ auto.
           ++ exfalso. rewrite X in El. rewrite append_assoc in El.
              destruct (match_line t f m s _ If T2 M (proj1 (decimal_free _ _ D')) El) as (_ & _ & Z).
              destruct e'; discriminate Z.
        -- intros [N D]. apply (in_declared t v); try assumption. left. exact N.
      * split.
        -- intros K. exfalso. assert (Z : names [f] = [] /\ names lay3 = []).
           { split; apply length_zero_iff_nil; lia. }
           replace (names (f :: lay3)) with (names [f] ++ names lay3)%list in LE
             by (rewrite <- names_app; reflexivity).
           destruct Z as [Z1 Z2]. rewrite Z1, Z2 in LE. exact LE.
        -- intros [R|R]; rewrite R in ER; cbn in ER; [discriminate ER|]. injection ER as <- ER.
           destruct e; discriminate ER.
Qed.

Lemma order_names P : forall m, In m (price_names P) <-> In m file_order.
Proof.
  intros m. unfold price_names, metered, pubdata_hashers, L1_floor, write_floor, file_order.
  cbn [map fst List.app In]. tauto.
Qed.

Lemma decimal_value x y s : decimal_text x s -> decimal_text y s -> x = y.
Proof. intros [A _] [B _]. congruence. Qed.

(** A file of which only the beginning was written has no wrong price: what it declares has the value
    of the complete file.  The constants appear in their order, and all are there exactly if at most
    the last newline is missing. *)
Lemma pf_C92_torn :
  forall P, typed_parameters P -> computable (narrowed P) ->
  forall bld path text v, generator_main_at P bld = Ok (path, text) -> prices (narrowed P) v ->
  forall pre rest, text = (pre ++ rest)%string ->
    (forall m x, declares pre m x -> In m (price_names P) /\ x = v m) /\
    (exists k, forall m, (exists x, declares pre m x) <-> In m (firstn k file_order)) /\
    ((forall m, In m (price_names P) -> declares pre m (v m)) <->
       rest = EmptyString \/ rest = line "").
Proof.
  intros P HT HC bld path text v HG HV pre rest E.
  destruct (pf_C74_text P HT HC) as (w & t & HW & HD & HM). rewrite HM in HG. injection HG as _ HG.
  assert (VW : forall n, In n file_order -> v n = w n).
  { intros n N. apply (pf_C74_unique (narrowed P)); try assumption. apply order_names, N. }
  assert (T : forall n, In n file_order -> decimal_text (v n) (t n)).
  { intros n N. rewrite (VW n N). apply HD, order_names, N. }
  rewrite <- HG in E. destruct (torn t v pre rest T E) as (k & K & D & Z).
  split; [|split].
  - intros m x X. apply D in X as [N X].
    assert (N' : In m file_order) by (rewrite <- (firstn_skipn k file_order); apply in_or_app; left; exact N).
    split; [apply order_names, N'|]. exact (decimal_value _ _ _ X (T m N')).
  - exists k. intros m. split.
    + intros [x X]. apply D in X. tauto.
    + intros N. exists (v m). apply D. split; [exact N|]. apply T.
      rewrite <- (firstn_skipn k file_order). apply in_or_app. left. exact N.
  - rewrite <- Z. split.
    + intros A.
      assert (N : In last_name (firstn k file_order)).
      { destruct (proj1 (D last_name (v last_name))) as [N _]; [|exact N]. apply A, order_names.
        rewrite <- layout_names. apply names_in. unfold whole_layout. apply in_or_app. right. left. reflexivity. }
      destruct (Nat.eq_dec k (List.length file_order)) as [->|NE]; [reflexivity|exfalso].
      assert (K' : k <= 17) by (cbn in K, NE; lia).
      assert (M : In last_name (firstn 17 file_order)).
      { rewrite <- (firstn_skipn k (firstn 17 file_order)). rewrite firstn_firstn.
        rewrite Nat.min_l by exact K'. apply in_or_app. left. exact N. }
      cbn in M. intuition discriminate.
    + intros -> m N. apply D. rewrite firstn_all. apply order_names in N. split; [exact N|apply T, N].
Qed.

(** So no run, however it ends, leaves a file with a wrong price, unless it was there before and the
    file could not be opened; and the next run that returns completes the file. *)
Lemma pf_C92_left :
  forall P, typed_parameters P -> computable (narrowed P) ->
  forall bld path text v, generator_main_at P bld = Ok (path, text) -> prices (narrowed P) v ->
  forall created answers d,
    let d' := snd (generator_run P bld created answers d) in
    (created = false /\ d' path = d path \/
     exists file, d' path = Some file /\
       forall m x, declares file m x -> In m (price_names P) /\ x = v m) /\
    forall created' answers',
      let (o, d'') := generator_run P bld created' answers' d' in
      o = Returned -> d'' path = Some text /\ forall m, In m (price_names P) -> declares text m (v m).
Proof.
  intros P T C bld path text v G V created answers d. cbn zeta.
  assert (Q := pf_C92_torn P T C bld path text v G V).
  split.
  - assert (S := pf_C92_save P bld path text created answers d G).
    destruct (generator_run P bld created answers d) as [o d'] eqn:R. cbn [snd].
    destruct S as (_ & S0 & S1). destruct created; [right|left; split; [reflexivity|apply S0; reflexivity]].
    destruct (S1 eq_refl) as (_ & A2 & _ & B1 & B2 & B3).
    assert (K : exists pre rest, d' path = Some pre /\ text = (pre ++ rest)%string).
    { destruct o.
      - exists text, EmptyString. rewrite app_nil_s. auto.
      - destruct (proj1 A2 eq_refl) as (l & a & r & E & Gl & Ga & L).
        destruct (B2 l a r E Gl Ga L) as (pre & X & rest & Y & _). exists pre, rest. auto.
      - destruct (B3 eq_refl) as (pre & X & rest & Y & _). exists pre, rest. auto. }
    destruct K as (pre & rest & X & Y). exists pre. split; [exact X|]. apply (Q pre rest Y).
  - intros created' answers'. set (d' := snd (generator_run P bld created answers d)).
    assert (S := pf_C92_save P bld path text created' answers' d' G).
    destruct (generator_run P bld created' answers' d') as [o d'']. intros ->.
    destruct S as (_ & S0 & S1). destruct created'.
    + destruct (S1 eq_refl) as (_ & _ & _ & B1 & _). split; [apply B1; reflexivity|].
      apply (Q text EmptyString); [symmetry; apply app_nil_s|left; reflexivity].
    + destruct (S0 eq_refl) as [X _]. discriminate X.
Qed.

(** The expectation that a failing run leaves the old or the new file is wrong. *)
Lemma pf_C92_atomic_refuted :
  ~ (forall P bld path text created answers d, generator_main_at P bld = Ok (path, text) ->
       let d' := snd (generator_run P bld created answers d) in
       d' path = d path \/ d' path = Some text).
Proof.
  intros H. destruct pf_C74_current as (T & E & C & _). rewrite <- E in C.
  destruct (pf_C74_text _ T C) as (v & t & _ & _ & M). specialize (M Debug).
  assert (X := H current_parameters Debug _ _ true [Failed] (fun _ => Some "old"%string) M).
  cbn zeta in X. unfold generator_run in X. rewrite M in X. unfold save_to_disk in X.
  rewrite price_file_lines in X. cbn [price_layout List.app map render unl] in X.
  unfold line at 1 in X. cbn [write_all String.append snd] in X. rewrite set_file_same in X.
  destruct X as [X|X]; discriminate X.
Qed.

(** The expectation that the crate does not compile with a torn file is wrong: a file of complete
    lines can have every constant the crate refers to, and lack others. *)
Lemma pf_C92_silent_refuted :
  ~ (forall P bld path text, generator_main_at P bld = Ok (path, text) ->
       forall pre rest, text = (pre ++ rest)%string -> line_start pre ->
       (forall m, In m used_by_crate -> exists x, declares pre m x) ->
       forall m, In m (price_names P) -> exists x, declares pre m x).
Proof.
  intros H. destruct pf_C74_current as (T & E & C & _). rewrite <- E in C.
  destruct (pf_C74_text _ T C) as (v & t & V & D & M). specialize (M Debug).
  assert (D' : forall n, In n file_order -> decimal_text (v n) (t n))
    by (intros n N; apply D, (order_names current_parameters), N).
  set (pre := unl (map (render t) (firstn 22 whole_layout)) "").
  set (rest := unl (map (render t) (skipn 22 whole_layout)) "").
  assert (S : price_file t = (pre ++ rest)%string).
  { rewrite price_file_lines. fold whole_layout. unfold pre. rewrite <- unl_app.
    change (""%string ++ rest)%string with rest. unfold rest.
    rewrite <- unl_two, <- map_app, firstn_skipn. reflexivity. }
  assert (I1 : incl (firstn 22 whole_layout) whole_layout).
  { intros z Z. rewrite <- (firstn_skipn 22 whole_layout). apply in_or_app. left. exact Z. }
  assert (A := H current_parameters Debug _ _ M pre rest S).
  destruct (pf_C92_torn _ T C Debug _ _ v M V pre rest S) as (_ & _ & Z).
  assert (B : rest = EmptyString \/ rest = line "").
  { apply Z. intros m N. destruct A with (m := m) as [x X]; try assumption.
    - right. exists (unl (map (render t) (firstn 21 whole_layout))
                       (render t (Const "STORAGE_WRITE_HASHER_MIN_COST_IN_ERGS"))).
      unfold pre. change (firstn 22 whole_layout)
        with (firstn 21 whole_layout ++ [Const "STORAGE_WRITE_HASHER_MIN_COST_IN_ERGS"])%list.
      rewrite map_app, unl_two. cbn [map unl]. rewrite app_nil_s. unfold line. apply unl_app.
    - intros n N'. exists (v n).
      assert (O : In n (names (firstn 22 whole_layout))).
      { cbn in N'. repeat (destruct N' as [<-|N']; [cbn; tauto|]). contradiction. }
      apply (in_declared t v); try assumption; [|left; exact O].
      apply D'. rewrite <- layout_names. apply names_in, I1, names_in, O.
    - assert (Q := pf_C92_torn _ T C Debug _ _ v M V pre rest S).
      destruct (proj1 Q m x X) as [_ <-]. exact X. }
  destruct B as [B|B]; discriminate B.
Qed.

(** A run with partial writes and interruptions, and one that stops in the middle of a line. *)
Example pf_C92_runs :
  exists text,
    generator_main_at current_parameters Debug = Ok ("src/circuit_prices.rs"%string, text) /\
    (let (o, d) := generator_run current_parameters Debug true
                     [Took 100; Interrupted; Took 1; Took 4000; Failed] (fun _ => None) in
     o = Returned /\ d "src/circuit_prices.rs"%string = Some text) /\
    (let (o, d) := generator_run current_parameters Debug true
                     [Took 100; Interrupted; Took 98; Failed] (fun _ => None) in
     o = Panicked /\
     exists pre, d "src/circuit_prices.rs"%string = Some pre /\
       declares pre "VM_CYCLE_COST_IN_ERGS" 4%N /\
       forall x, ~ declares pre "RAM_PERMUTATION_COST_IN_ERGS" x).
Proof.
  destruct pf_C74_current as (T & E & C & _). rewrite <- E in C.
  destruct (pf_C74_text _ T C) as (v & t & V & D & M). specialize (M Debug).
  exists (price_file t). split; [exact M|].
  split.
  - remember (generator_run current_parameters Debug true
                [Took 100; Interrupted; Took 1; Took 4000; Failed] (fun _ => None)) as r eqn:R.
    vm_compute in R. subst r. split; [reflexivity|].
    rewrite <- (f_equal (fun r => match r with Ok (_, z) => z | Panic => EmptyString end) M).
    vm_compute. reflexivity.
  - remember (generator_run current_parameters Debug true
                [Took 100; Interrupted; Took 98; Failed] (fun _ => None)) as r eqn:R.
    vm_compute in R. subst r. split; [reflexivity|].
    eexists. split; [vm_compute; reflexivity|].
    match goal with |- declares ?f _ _ /\ _ =>
      replace f with (unl (map (render (fun _ => "4"%string)) (firstn 4 whole_layout))
                        "pub const RAM_PERMUTATION_COST_IN_ERGS: u32 = 1") by (vm_compute; reflexivity)
    end.
    assert (I1 : incl (firstn 4 whole_layout) whole_layout).
    { intros z Z. rewrite <- (firstn_skipn 4 whole_layout). apply in_or_app. left. exact Z. }
    assert (F : decimal_text 4 "4") by (repeat split; discriminate).
    split.
    + apply (in_declared _ (fun _ => 4%N)); [intros _ _; exact F|exact I1|exact F|left; left; reflexivity].
    + intros x X. apply (declared_in _ (fun _ => 4%N)) in X as [[_ X]|(s & e & X & _)];
        [|clear - X|intros _ _; exact F|exact I1|cbn; intuition discriminate].
      * cbn in X. intuition discriminate.
      * assert (Y : free_of ";" "pub const RAM_PERMUTATION_COST_IN_ERGS: u32 = 1")
          by (cbn; intuition discriminate).
        rewrite X in Y. unfold declaration in Y. rewrite !free_app in Y.
        destruct Y as [(_ & _ & _ & _ & Y & _) _]. apply Y. reflexivity.
Qed.
