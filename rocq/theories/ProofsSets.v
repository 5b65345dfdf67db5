(** * Proofs about table synthesis for an arbitrary instruction set (C75). *)

From Coq Require Import Arith NArith Lia ZArith List Bool String Permutation.
From Coq Require Import ZifyBool ZifyNat ZifyN.
From Verif Require Import Machine Constants Operands OpcodeTrait Opcodes AllOpcodes Tables
  SpecIsa SpecFamilies SpecSets.
From Verif Require Import BitLemmas TableProofs TableProofs2 TableProofs3.
Import ListNotations.
Open Scope N_scope.

(** ** Loops that append *)

Lemma for_each_collect {A B} (f : list B -> A -> res (list B)) (g : A -> res (list B)) l :
  (forall s x, f s x = let* y := g x in Ok (s ++ y)) ->
  forall s, for_each f l s = let* ys := map_res g l in Ok (s ++ List.concat ys).
Proof.
  intros H. induction l as [|x l IH]; intros s; cbn [for_each map_res].
  - cbn. rewrite app_nil_r. reflexivity.
  - rewrite H. destruct (g x) as [y|]; cbn [bind]; [|reflexivity]. rewrite IH.
    destruct (map_res g l) as [ys|]; cbn [bind]; [|reflexivity]. cbn [List.concat].
    rewrite app_assoc. reflexivity.
Qed.

Lemma map_res_Ok {A B} (g : A -> B) l : map_res (fun x => Ok (g x)) l = Ok (map g l).
Proof. induction l as [|x l IH]; cbn; [reflexivity|]. rewrite IH. reflexivity. Qed.

Lemma map_res_iff {A B} (g : A -> res B) l ys :
  map_res g l = Ok ys <-> Forall2 (fun x y => g x = Ok y) l ys.
Proof.
  revert ys. induction l as [|x l IH]; intros ys; cbn [map_res].
  - split; [intros K; injection K as <-; constructor|intros K; inversion K; reflexivity].
  - split.
    + intros K. destruct (g x) as [y|] eqn:E; cbn [bind] in K; [|discriminate].
      destruct (map_res g l) as [zs|]; cbn [bind] in K; [|discriminate].
      injection K as <-. constructor; [exact E|]. apply IH. reflexivity.
    + intros K. inversion K as [|a b l' ys' E F]; subst. rewrite E. cbn [bind].
      apply IH in F. rewrite F. reflexivity.
Qed.

Lemma for_each_pure {A B} (f : list B -> A -> res (list B)) (g : A -> list B) l :
  (forall s x, f s x = Ok (s ++ g x)) ->
  forall s, for_each f l s = Ok (s ++ flat_map g l).
Proof.
  intros H s. rewrite (for_each_collect f (fun x => Ok (g x))) by (intros; rewrite H; reflexivity).
  rewrite map_res_Ok. cbn [bind]. rewrite <- flat_map_concat_map. reflexivity.
Qed.

Lemma for_each_panic {A B} (f : list B -> A -> res (list B)) x l :
  (forall s, f s x = Panic) -> forall s, for_each f (x :: l) s = Panic.
Proof. intros H s. cbn. rewrite H. reflexivity. Qed.

(** ** One bare opcode *)

Definition shape_ok (ins outs : list Operand) : bool :=
  existsb (fun s =>
    (if list_eq_dec (fun a b : operand_kind => ltac:(decide equality)) (map kind_of ins) (fst s)
     then true else false)
    && (if list_eq_dec (fun a b : operand_kind => ltac:(decide equality)) (map kind_of outs) (snd s)
        then true else false)) supported_shapes.

Lemma shape_ok_iff ins outs : shape_ok ins outs = true <-> supported ins outs.
Proof.
  unfold shape_ok, supported. rewrite existsb_exists. split.
  - intros ([a b] & Hin & H). cbn [fst snd] in H.
    destruct list_eq_dec as [->|]; [|discriminate]. destruct list_eq_dec as [->|]; [|discriminate].
    exact Hin.
  - intros H. exists (map kind_of ins, map kind_of outs). split; [exact H|]. cbn [fst snd].
    destruct list_eq_dec; [|contradiction]. destruct list_eq_dec; [reflexivity|contradiction].
Qed.

Lemma push_flags n t r :
  flags t = (false, false) ->
  push_flag_options n t r =
  if n <=? 2
  then Ok (r ++ map (fun f => mkOpcodeVariant (opcode t) (src0_operand_type t)
                                (dst0_operand_type t) f) (flag_settings n))
  else Panic.
Proof.
  destruct t as [o s d f]. cbn. intros ->.
  destruct n as [|[p|[p|p|]|]]; try reflexivity;
    match goal with |- context [?a <=? 2] => replace (a <=? 2) with false by lia end; reflexivity.
Qed.

Definition entries (o : Opcode) (ins outs : list Operand) (n : N) : res (list OpcodeVariant) :=
  if shape_ok ins outs && (n <=? 2) then Ok (addressed (mkBare o ins outs n)) else Panic.

Lemma push_body I v proto d o ins outs r :
  set_materialize I proto (variant_idx d) v = Ok o ->
  set_inputs I o v = Ok ins -> set_outputs I o v = Ok outs ->
  push_variant_of I v proto r d =
  let* es := entries o ins outs (num_non_exclusive_flags d) in Ok (r ++ es).
Proof.
  intros H1 H2 H3. unfold push_variant_of. rewrite H1. cbn [bind]. rewrite H2. cbn [bind].
  rewrite H3. cbn [bind]. set (n := num_non_exclusive_flags d).
  assert (R : forall r, push_flag_options n (set_opcode INVALID_OPCODE_VARIANT o) r =
    if n <=? 2 then Ok (r ++ map (fun f => mkOpcodeVariant o RegOnly RegOnly f) (flag_settings n))
    else Panic) by (intros r'; rewrite push_flags by reflexivity; reflexivity).
  assert (F2 : forall r,
    for_each (fun result input_variant =>
        for_each (fun result output_variant =>
          if negb (ImmMemHandlerFlags_is_allowed_for_dst output_variant) then Ok result
          else push_flag_options n
                 (set_dst0 (set_src0 (set_opcode INVALID_OPCODE_VARIANT o) (Full input_variant))
                    (Full output_variant)) result)
          ImmMemHandlerFlags_all_variants result)
        ImmMemHandlerFlags_all_variants r
    = if n <=? 2 then Ok (r ++ flat_map (fun s => flat_map (fun d =>
         map (fun f => mkOpcodeVariant o s d f) (flag_settings n))
           (map Full [ UseRegOnly; UseStackWithPushPop; UseStackWithOffset; UseAbsoluteOnStack ]))
           (map Full [ UseRegOnly; UseStackWithPushPop; UseStackWithOffset;
                              UseAbsoluteOnStack; UseImm16Only; UseCodePage ]))
      else Panic).
  { intros r'. destruct (n <=? 2) eqn:Hn.
    - rewrite (for_each_pure _ (fun s => flat_map (fun d =>
         map (fun f => mkOpcodeVariant o (Full s) d f) (flag_settings n))
           (map Full [ UseRegOnly; UseStackWithPushPop; UseStackWithOffset; UseAbsoluteOnStack ]))).
      + reflexivity.
      + intros s x.
        rewrite (for_each_pure _ (fun d => if ImmMemHandlerFlags_is_allowed_for_dst d
           then map (fun f => mkOpcodeVariant o (Full x) (Full d) f) (flag_settings n) else [])).
        * reflexivity.
        * intros s' y. rewrite push_flags, Hn by reflexivity. cbn [opcode src0_operand_type
            dst0_operand_type set_dst0 set_src0 set_opcode].
          destruct (ImmMemHandlerFlags_is_allowed_for_dst y); cbn [negb]; [reflexivity|].
          rewrite app_nil_r. reflexivity.
    - unfold ImmMemHandlerFlags_all_variants at 2. cbn [for_each].
      unfold ImmMemHandlerFlags_all_variants at 1. cbn [for_each]. rewrite push_flags, Hn by reflexivity.
      reflexivity. }
  assert (F1 : forall r,
    for_each (fun result input_variant =>
        push_flag_options n (set_src0 (set_opcode INVALID_OPCODE_VARIANT o) (Full input_variant))
           result)
        ImmMemHandlerFlags_all_variants r
    = if n <=? 2 then Ok (r ++ flat_map (fun s =>
         map (fun f => mkOpcodeVariant o s RegOnly f) (flag_settings n))
           (map Full [ UseRegOnly; UseStackWithPushPop; UseStackWithOffset;
                              UseAbsoluteOnStack; UseImm16Only; UseCodePage ]))
      else Panic).
  { intros r'. destruct (n <=? 2) eqn:Hn.
    - rewrite (for_each_pure _ (fun s =>
         map (fun f => mkOpcodeVariant o (Full s) RegOnly f) (flag_settings n))).
      + reflexivity.
      + intros s x. rewrite push_flags, Hn by reflexivity. reflexivity.
    - unfold ImmMemHandlerFlags_all_variants. cbn [for_each].
      rewrite push_flags, Hn by reflexivity. reflexivity. }
  assert (F3 : forall r,
    for_each (fun result input_variant =>
        push_flag_options n (set_src0 (set_opcode INVALID_OPCODE_VARIANT o) (RegOrImm input_variant))
           result)
        RegOrImmFlags_all_variants r
    = if n <=? 2 then Ok (r ++ flat_map (fun s =>
         map (fun f => mkOpcodeVariant o s RegOnly f) (flag_settings n))
           (map RegOrImm [ RI_UseRegOnly; RI_UseImm16Only ]))
      else Panic).
  { intros r'. destruct (n <=? 2) eqn:Hn.
    - rewrite (for_each_pure _ (fun s =>
         map (fun f => mkOpcodeVariant o (RegOrImm s) RegOnly f) (flag_settings n))).
      + reflexivity.
      + intros s x. rewrite push_flags, Hn by reflexivity. reflexivity.
    - unfold RegOrImmFlags_all_variants. cbn [for_each].
      rewrite push_flags, Hn by reflexivity. reflexivity. }
  unfold entries.
  destruct ins as [|[|i0|i0] [|[|i1|i1] [|i2 ins]]];
  destruct outs as [|[|o0|o0] [|[|o1|o1] [|o2 outs]]];
  try reflexivity;
  cbn [bind assert_ is_RegOnly set_opcode set_src0 set_dst0 src0_operand_type dst0_operand_type
       INVALID_OPCODE_VARIANT];
  change (shape_ok _ _) with true; cbn [andb];
  (rewrite R || rewrite F2 || rewrite F1 || rewrite F3);
  (destruct (n <=? 2); [|reflexivity]); cbn [bind]; f_equal; f_equal;
  unfold addressed; cbn [bare_inputs bare_outputs bare_flags bare_opcode_of source_modes
    destination_modes flat_map]; rewrite ?app_nil_r; try reflexivity.
  all: apply flat_map_ext; intros s; rewrite app_nil_r; reflexivity.
Qed.

Definition bare_of (I : InstructionSet) (v : N) (proto : Opcode) (d : OpcodeVariantData)
  : res bare_opcode :=
  let* o := set_materialize I proto (variant_idx d) v in
  let* ins := set_inputs I o v in
  let* outs := set_outputs I o v in
  Ok (mkBare o ins outs (num_non_exclusive_flags d)).

Definition ok_bare (b : bare_opcode) : bool :=
  shape_ok (bare_inputs b) (bare_outputs b) && (bare_flags b <=? 2).

Definition entries_of (I : InstructionSet) (v : N) (proto : Opcode) (d : OpcodeVariantData)
  : res (list OpcodeVariant) :=
  let* b := bare_of I v proto d in if ok_bare b then Ok (addressed b) else Panic.

Lemma push_eq I v proto r d :
  push_variant_of I v proto r d = let* es := entries_of I v proto d in Ok (r ++ es).
Proof.
  unfold entries_of, bare_of.
  destruct (set_materialize I proto (variant_idx d) v) as [o|] eqn:E1;
    [|unfold push_variant_of; rewrite E1; reflexivity].
  cbn [bind].
  destruct (set_inputs I o v) as [ins|] eqn:E2;
    [|unfold push_variant_of; rewrite E1; cbn [bind]; rewrite E2; reflexivity].
  cbn [bind].
  destruct (set_outputs I o v) as [outs|] eqn:E3;
    [|unfold push_variant_of; rewrite E1; cbn [bind]; rewrite E2; cbn [bind]; rewrite E3;
      reflexivity].
  cbn [bind]. rewrite (push_body I v proto d o ins outs r E1 E2 E3). reflexivity.
Qed.

Lemma is_bare_iff I v proto d b : is_bare I v proto d b <-> bare_of I v proto d = Ok b.
Proof.
  unfold is_bare, bare_of. split.
  - intros (-> & E2 & E3 & E4). cbn [bind]. rewrite E2. cbn [bind]. rewrite E3. cbn [bind].
    rewrite <- E4. destruct b; reflexivity.
  - intros H. destruct (set_materialize I proto (variant_idx d) v) as [o|] eqn:E1; [|discriminate H].
    cbn [bind] in H. destruct (set_inputs I o v) as [ins|] eqn:E2; [|discriminate H].
    cbn [bind] in H. destruct (set_outputs I o v) as [outs|] eqn:E3; [|discriminate H].
    cbn [bind] in H. injection H as <-. cbn. auto.
Qed.

(** ** Unique names *)

Lemma names_from ops : forall acc,
  (exists r, for_each (fun checker op =>
              if existsb (String.eqb (name op)) checker then Panic
              else Ok (name op :: checker)) ops acc = Ok r) <->
  NoDup (map name ops) /\ (forall x, In x (map name ops) -> ~ In x acc).
Proof.
  induction ops as [|o ops IH]; intros acc; cbn [for_each map].
  - split; [|intros _; exists acc; reflexivity]. intros _. split; [constructor|intros x []].
  - destruct (existsb (String.eqb (name o)) acc) eqn:E.
    + cbn [bind]. split; [intros [r K]; discriminate K|]. intros [_ K]. exfalso.
      apply existsb_exists in E as (y & Hy & E). apply String.eqb_eq in E. subst y.
      apply (K (name o)); [left; reflexivity|exact Hy].
    + cbn [bind]. rewrite IH. assert (N1 : ~ In (name o) acc).
      { intros K. assert (existsb (String.eqb (name o)) acc = true); [|congruence].
        apply existsb_exists. exists (name o). split; [exact K|apply String.eqb_refl]. }
      split.
      * intros [D K]. split.
        -- constructor; [|exact D]. intros Hin. apply (K _ Hin). left. reflexivity.
        -- intros x [<-|Hx]; [exact N1|]. intros Hin. apply (K x Hx). right. exact Hin.
      * intros [D K]. inversion D as [|a l Ha D']; subst. split; [exact D'|].
        intros x Hx [<-|Hin]; [contradiction|]. apply (K x); [right; exact Hx|exact Hin].
Qed.

Lemma names_iff ops : (exists r, check_unique_names ops = Ok r) <-> NoDup (map name ops).
Proof.
  unfold check_unique_names. rewrite names_from. split; [intros [H _]; exact H|].
  intros H. split; [exact H|]. intros x _ [].
Qed.

(** ** The enumeration *)

Definition row_of (I : InstructionSet) (v : N) (io : N * OpcodeProps)
  : res (list bare_opcode) :=
  let* ds := variants_data (snd io) v in
  let* proto := index (set_prototypes I) (fst io) in
  map_res (bare_of I v proto) ds.

Definition first_name_ok (io : N * OpcodeProps) : bool :=
  if fst io =? 0 then String.eqb (name (snd io)) "Invalid opcode" else true.

Definition row_entries (I : InstructionSet) (v : N) (io : N * OpcodeProps)
  : res (list OpcodeVariant) :=
  if first_name_ok io then
    let* row := row_of I v io in
    if forallb ok_bare row then Ok (flat_map addressed row) else Panic
  else Panic.

Lemma entries_row I v proto ds :
  (let* ys := map_res (entries_of I v proto) ds in Ok (List.concat ys)) =
  let* row := map_res (bare_of I v proto) ds in
  if forallb ok_bare row then Ok (flat_map addressed row) else Panic.
Proof.
  induction ds as [|d ds IH]; [reflexivity|]. cbn [map_res]. unfold entries_of at 1.
  destruct (bare_of I v proto d) as [b|]; cbn [bind]; [|reflexivity].
  destruct (map_res (bare_of I v proto) ds) as [row|] eqn:E; cbn [bind] in IH |- *.
  - cbn [forallb flat_map]. destruct (ok_bare b); cbn [bind andb]; [|reflexivity].
    destruct (map_res (entries_of I v proto) ds) as [ys|]; cbn [bind] in IH |- *.
    + destruct (forallb ok_bare row); [|discriminate IH]. injection IH as IH.
      cbn [List.concat]. rewrite IH. reflexivity.
    + destruct (forallb ok_bare row); [discriminate IH|reflexivity].
  - destruct (ok_bare b); cbn [bind]; [|reflexivity].
    destruct (map_res (entries_of I v proto) ds) as [ys|]; cbn [bind] in IH |- *;
      [discriminate IH|reflexivity].
Qed.

Lemma step_eq I v s io :
  (let '(i, opcode) := io in
   let* _ := (if i =? 0 then assert_ (String.eqb (name opcode) "Invalid opcode") else Ok tt) in
   let* ds := variants_data opcode v in
   let* proto := index (set_prototypes I) i in
   for_each (push_variant_of I v proto) ds s)
  = let* es := row_entries I v io in Ok (s ++ es).
Proof.
  destruct io as [i o]. unfold row_entries, first_name_ok, row_of. cbn [fst snd].
  replace (if i =? 0 then assert_ (String.eqb (name o) "Invalid opcode") else Ok tt)
    with (assert_ (if i =? 0 then String.eqb (name o) "Invalid opcode" else true))
    by (destruct (i =? 0); reflexivity).
  destruct (if i =? 0 then String.eqb (name o) "Invalid opcode" else true); cbn [assert_ bind];
    [|reflexivity].
  destruct (variants_data o v) as [ds|]; cbn [bind]; [|reflexivity].
  destruct (index (set_prototypes I) i) as [proto|]; cbn [bind]; [|reflexivity].
  rewrite (for_each_collect _ (entries_of I v proto)) by (intros; apply push_eq).
  assert (E := entries_row I v proto ds).
  destruct (map_res (entries_of I v proto) ds) as [ys|]; cbn [bind] in E |- *;
    destruct (map_res (bare_of I v proto) ds) as [row|]; cbn [bind] in E |- *;
    try (destruct (forallb ok_bare row)); try discriminate E; try reflexivity.
  injection E as E. rewrite E. reflexivity.
Qed.

Lemma enumerate_from_nth {A} (l : list A) k i :
  nth_error (enumerate_from k l) i =
  match nth_error l i with Some x => Some (k + N.of_nat i, x) | None => None end.
Proof.
  revert k i. induction l as [|x l IH]; intros k [|i]; cbn [enumerate_from nth_error]; try reflexivity.
  - f_equal. f_equal. lia.
  - rewrite IH. destruct (nth_error l i); [|reflexivity]. f_equal. f_equal. lia.
Qed.

Lemma enumerate_from_length {A} (l : list A) k :
  List.length (enumerate_from k l) = List.length l.
Proof. revert k. induction l; intros k; cbn; [reflexivity|]. rewrite IHl. reflexivity. Qed.

Lemma Forall2_nth {A B} (R : A -> B -> Prop) l1 l2 :
  Forall2 R l1 l2 <->
  List.length l2 = List.length l1 /\
  forall i x, nth_error l1 i = Some x -> exists y, nth_error l2 i = Some y /\ R x y.
Proof.
  split.
  - intros H. induction H as [|x y l1 l2 Hxy H [IL IH]]; cbn.
    + split; [reflexivity|]. intros [|i] x K; discriminate K.
    + split; [f_equal; exact IL|]. intros [|i] z K; cbn in *.
      * injection K as <-. exists y. auto.
      * apply IH, K.
  - revert l2. induction l1 as [|x l1 IH]; intros [|y l2] [L H]; try discriminate L; constructor.
    + destruct (H 0%nat x eq_refl) as (z & K & R1). injection K as <-. exact R1.
    + apply IH. injection L as L. split; [exact L|]. intros i z K. apply (H (S i) z K).
Qed.

Lemma Forall2_weaken {A B} (P Q : A -> B -> Prop) l1 l2 :
  (forall a b, P a b -> Q a b) -> Forall2 P l1 l2 -> Forall2 Q l1 l2.
Proof. intros H F. induction F; constructor; auto. Qed.

Lemma described_iff I v objs rows :
  described I v objs rows <->
  set_objects I = Ok objs /\ map_res (row_of I v) (enumerate objs) = Ok rows.
Proof.
  unfold described. rewrite map_res_iff, Forall2_nth. unfold enumerate.
  rewrite enumerate_from_length.
  assert (C : forall i o row, row_of I v (N.of_nat i, o) = Ok row <->
     exists proto ds, nth_error (set_prototypes I) i = Some proto /\ variants_data o v = Ok ds /\
       Forall2 (is_bare I v proto) ds row).
  { intros i o row. unfold row_of. cbn [fst snd]. unfold index. rewrite Nnat.Nat2N.id. split.
    - intros H. destruct (variants_data o v) as [ds|]; [|discriminate H]. cbn [bind] in H.
      destruct (nth_error (set_prototypes I) i) as [proto|]; [|discriminate H]. cbn in H.
      exists proto, ds. split; [reflexivity|]. split; [reflexivity|].
      apply map_res_iff in H. eapply Forall2_weaken; [|exact H]. intros; apply is_bare_iff; assumption.
    - intros (proto & ds & E1 & E2 & F). rewrite E2. cbn [bind]. rewrite E1. cbn [unwrap bind].
      apply map_res_iff. eapply Forall2_weaken; [|exact F]. intros; apply is_bare_iff; assumption. }
  split.
  - intros (H & L & D). split; [exact H|]. split; [exact L|]. intros i [k o] K.
    rewrite enumerate_from_nth in K. destruct (nth_error objs i) as [o'|] eqn:E; [|discriminate K].
    injection K as <- <-. destruct (D i o' E) as (proto & ds & row & P1 & P2 & P3 & P4).
    exists row. split; [exact P3|]. apply C. exists proto, ds. auto.
  - intros (H & L & D). split; [exact H|]. split; [exact L|]. intros i o E.
    destruct (D i (N.of_nat i, o)) as (row & P3 & P4).
    { rewrite enumerate_from_nth, E. f_equal. }
    apply C in P4 as (proto & ds & P1 & P2 & P4). exists proto, ds, row. auto.
Qed.

Definition spec_names (objs : list OpcodeProps) : Prop :=
  match objs with [] => True | o :: _ => name o = "Invalid opcode"%string end.

Lemma first_names (objs : list OpcodeProps) :
  forallb first_name_ok (enumerate objs) = true <-> spec_names objs.
Proof.
  destruct objs as [|o objs]; [cbn; split; auto|].
  unfold enumerate. cbn [enumerate_from forallb]. unfold first_name_ok at 1. cbn [fst snd N.eqb].
  assert (R : forall l k, k <> 0 -> forallb first_name_ok (enumerate_from k l) = true).
  { intros l. induction l as [|x l IH]; intros k Hk; [reflexivity|]. cbn [enumerate_from forallb].
    unfold first_name_ok at 1. cbn [fst snd]. replace (k =? 0) with false by lia.
    apply IH. lia. }
  rewrite R by lia. rewrite andb_true_r. apply String.eqb_eq.
Qed.

Lemma rows_collect I v l es :
  (let* ys := map_res (row_entries I v) l in Ok (List.concat ys)) = Ok es <->
  forallb first_name_ok l = true /\
  exists rows, map_res (row_of I v) l = Ok rows /\
    forallb (forallb ok_bare) rows = true /\ es = flat_map addressed (List.concat rows).
Proof.
  revert es. induction l as [|io l IH]; intros es.
  - cbn. split.
    + intros K. injection K as <-. split; [reflexivity|]. exists []. auto.
    + intros (_ & rows & K & _ & ->). injection K as <-. reflexivity.
  - cbn [map_res forallb]. unfold row_entries at 1. split.
    + intros K. destruct (first_name_ok io); [|discriminate K].
      destruct (row_of I v io) as [row|]; [|discriminate K]. cbn [bind] in K.
      destruct (forallb ok_bare row) eqn:E; [|discriminate K]. cbn [bind] in K.
      destruct (map_res (row_entries I v) l) as [ys|]; [|discriminate K]. cbn in K.
      injection K as <-. destruct (IH (List.concat ys)) as [IH1 _].
      destruct (IH1 eq_refl) as (F & rows & M & G & Q). rewrite F, M. split; [reflexivity|].
      exists (row :: rows). split; [reflexivity|]. cbn. rewrite E, G, Q, flat_map_app. auto.
    + intros (F & rows & M & G & ->). apply andb_prop in F as [F1 F2]. rewrite F1.
      destruct (row_of I v io) as [row|]; [|discriminate M]. cbn [bind] in M |- *.
      destruct (map_res (row_of I v) l) as [rows'|]; [|discriminate M]. cbn in M. injection M as <-.
      cbn in G. apply andb_prop in G as [G1 G2]. rewrite G1. cbn [bind].
      destruct (IH (flat_map addressed (List.concat rows'))) as [_ IH2].
      destruct (map_res (row_entries I v) l) as [ys|].
      * cbn [bind] in IH2 |- *. assert (K := IH2 (conj F2 (ex_intro _ rows' (conj eq_refl (conj G2 eq_refl))))).
        injection K as K. cbn [List.concat]. rewrite K, flat_map_app. reflexivity.
      * assert (K := IH2 (conj F2 (ex_intro _ rows' (conj eq_refl (conj G2 eq_refl))))). discriminate K.
Qed.

Lemma ok_bare_iff b : ok_bare b = true <-> supported (bare_inputs b) (bare_outputs b) /\ bare_flags b <= 2.
Proof. unfold ok_bare. rewrite andb_true_iff, shape_ok_iff, N.leb_le. reflexivity. Qed.

Lemma ok_rows rows :
  forallb (forallb ok_bare) rows = true <->
  forall row b, In row rows -> In b row ->
    supported (bare_inputs b) (bare_outputs b) /\ bare_flags b <= 2.
Proof.
  rewrite forallb_forall. split.
  - intros H row b H1 H2. apply ok_bare_iff. specialize (H _ H1). rewrite forallb_forall in H. auto.
  - intros H row H1. apply forallb_forall. intros b H2. apply ok_bare_iff. eauto.
Qed.

(** The enumeration of a version, for every instruction set: the variants of each opcode in
    turn, by sub-variant, source, destination and flags.  It succeeds exactly if all names
    differ and the first is that of the invalid opcode, every query succeeds, every combination
    of operands is a supported one, no opcode has more than two flags, and the first variant is
    the invalid one. *)
Lemma pf_C75_enumeration :
  forall I v l,
    all_variants_in_version_of I v = Ok l <->
    exists objs rows,
      described I v objs rows /\ NoDup (map name objs) /\
      hd_error (map name objs) = Some "Invalid opcode"%string /\
      (forall row b, In row rows -> In b row ->
         supported (bare_inputs b) (bare_outputs b) /\ bare_flags b <= 2) /\
      l = flat_map addressed (List.concat rows) /\ hd_error l = Some spec_invalid.
Proof.
  intros I v l. unfold all_variants_in_version_of.
  set (body := fun (result : list OpcodeVariant) '(i, opcode) => _).
  assert (B : forall objs, for_each body (enumerate objs) []
     = let* ys := map_res (row_entries I v) (enumerate objs) in Ok (List.concat ys)).
  { intros objs. apply (for_each_collect body (row_entries I v)). intros s' x. apply step_eq. }
  split.
  - intros H. destruct (set_objects I) as [objs|] eqn:E0; [|discriminate H]. cbn [bind] in H.
    destruct (check_unique_names objs) as [nm|] eqn:E1; [|discriminate H]. cbn [bind] in H.
    rewrite B in H.
    destruct (let* ys := map_res (row_entries I v) (enumerate objs) in Ok (List.concat ys))
      as [es|] eqn:E2; [|discriminate H].
    cbn [bind] in H. apply rows_collect in E2 as (F & rows & M & G & Q).
    unfold index in H. change (N.to_nat 0) with 0%nat in H.
    destruct es as [|e es]; [discriminate H|]. cbn [nth_error unwrap bind] in H.
    destruct (OpcodeVariant_eqb e INVALID_OPCODE_VARIANT) eqn:E3; [|discriminate H].
    cbn [assert_ bind] in H. injection H as <-. apply eqb_iff in E3. subst e.
    exists objs, rows. split; [apply described_iff; auto|].
    split; [apply names_iff; eauto|]. split.
    + apply first_names in F. destruct objs as [|o objs].
      * cbn in M. injection M as <-. discriminate Q.
      * cbn in F |- *. rewrite F. reflexivity.
    + split; [apply ok_rows, G|]. split; [exact Q|reflexivity].
  - intros (objs & rows & D & N1 & N2 & S & Q & Hd). apply described_iff in D as [E0 M].
    rewrite E0. cbn [bind]. apply names_iff in N1 as [nm ->]. cbn [bind]. rewrite B.
    assert (R : (let* ys := map_res (row_entries I v) (enumerate objs) in Ok (List.concat ys)) = Ok l).
    { apply rows_collect. split.
      - apply first_names. destruct objs as [|o objs]; [exact Logic.I|]. cbn in N2 |- *. congruence.
      - exists rows. split; [exact M|]. split; [apply ok_rows, S|exact Q]. }
    rewrite R. cbn [bind]. unfold index. change (N.to_nat 0) with 0%nat. destruct l as [|e l]; [discriminate Hd|].
    cbn in Hd. injection Hd as ->. reflexivity.
Qed.

(** ** The density *)

Definition total (l : list N) : N := fold_right N.add 0 l.

Lemma total_app l1 l2 : total (l1 ++ l2) = total l1 + total l2.
Proof. unfold total. induction l1 as [|x l1 IH]; cbn; [reflexivity|]. rewrite IH. lia. Qed.

Lemma fold_product {A} (w : A -> N) l : forall a,
  fold_left (fun acc el => acc * w el) l a = a * fold_right N.mul 1 (map w l).
Proof. induction l as [|x l IH]; intros a; cbn [fold_left map fold_right]; [lia|]. rewrite IH. lia. Qed.

Definition density_body (I : InstructionSet) (v idx num_options : N)
    (variant : OpcodeVariantData) : res N :=
      let* proto := index (set_prototypes I) idx in
      let* concrete_opcode_without_addressing := set_materialize I proto (variant_idx variant) v in
      let* ins := set_inputs I concrete_opcode_without_addressing v in
      let num_addressing_modes :=
        fold_left (fun acc el =>
                     acc * match el with
                           | Full _ => ImmMemHandlerFlags_num_src_variants
                           | RegOrImm _ => RegOrImmFlags_num_src_variants
                           | RegOnly => 1
                           end) ins 1 in
      let* outs := set_outputs I concrete_opcode_without_addressing v in
      let num_addressing_modes :=
        fold_left (fun acc el =>
                     acc * match el with
                           | Full _ => ImmMemHandlerFlags_num_dst_variants
                           | RegOrImm _ => RegOrImmFlags_num_dst_variants
                           | RegOnly => 1
                           end) outs num_addressing_modes in
      let multiplier_for_non_exclusive := 2 ^ num_non_exclusive_flags variant in
      Ok (num_options + multiplier_for_non_exclusive * num_addressing_modes).

Lemma density_row I v proto idx ds row :
  (ds <> [] -> index (set_prototypes I) idx = Ok proto) ->
  Forall2 (is_bare I v proto) ds row ->
  forall n, for_each (density_body I v idx) ds n = Ok (n + total (map weight row)).
Proof.
  intros Hp F. induction F as [|d b ds row Hb F IH]; intros n.
  - cbn. f_equal. lia.
  - cbn [for_each]. unfold density_body at 1. rewrite Hp by discriminate. cbn [bind]. destruct Hb as (-> & E2 & E3 & E4).
    cbn [bind]. rewrite E2. cbn [bind]. rewrite E3. cbn [bind].
    rewrite IH by (intros _; apply Hp; discriminate).
    f_equal. cbn [map total fold_right]. fold (total (map weight row)).
    rewrite N.add_assoc. f_equal. f_equal. unfold weight. rewrite <- E4, !fold_product.
    rewrite N.mul_1_l, N.mul_assoc. f_equal; [f_equal|]; f_equal; apply map_ext; intros []; reflexivity.
Qed.

Lemma density_rows I v objs rows :
  described I v objs rows -> NoDup (map name objs) ->
  compute_encoding_density_of I v = Ok (total (map weight (List.concat rows))).
Proof.
  intros D N1. assert (D' := D). apply described_iff in D' as [E0 M].
  unfold compute_encoding_density_of. rewrite E0. cbn [bind].
  apply names_iff in N1 as [nm ->]. cbn [bind].
  apply map_res_iff in M. clear D E0.
  set (body := fun num_options '(idx, opcode) => _).
  assert (R : forall l rows, Forall2 (fun x y => row_of I v x = Ok y) l rows -> forall n,
     for_each body l n = Ok (n + total (map weight (List.concat rows)))).
  { clear. intros l rows F. induction F as [|[i o] row l rows E F IH]; intros n.
    - cbn. f_equal. lia.
    - unfold row_of in E. cbn [fst snd] in E.
      destruct (variants_data o v) as [ds|] eqn:Ed; [|discriminate E]. cbn [bind] in E.
      destruct (index (set_prototypes I) i) as [proto|] eqn:Ep; [|discriminate E]. cbn [bind] in E.
      apply map_res_iff in E. 
      change ((let* s' := let* ds := variants_data o v in for_each (density_body I v i) ds n in
               for_each body l s') = Ok (n + total (map weight (List.concat (row :: rows))))).
      rewrite Ed. cbn [bind].
      rewrite (density_row I v proto i ds row).
      + cbn [bind]. rewrite IH. cbn [List.concat]. rewrite map_app, total_app. f_equal. lia.
      + intros _. exact Ep.
      + eapply Forall2_weaken; [|exact E]. intros; apply is_bare_iff; assumption. }
  rewrite (R _ _ M). reflexivity.
Qed.

Lemma weight_addressed b : ok_bare b = true -> len (addressed b) = weight b.
Proof.
  destruct b as [o ins outs n]. unfold ok_bare. cbn [bare_inputs bare_outputs bare_flags].
  intros H. apply andb_prop in H as [H1 H2].
  assert (C : n = 0 \/ n = 1 \/ n = 2) by lia. clear H2.
  destruct ins as [|[|i0|i0] [|[|i1|i1] [|i2 ins]]];
  destruct outs as [|[|o0|o0] [|[|o1|o1] [|o2 outs]]];
  try discriminate H1; destruct C as [C|[C|C]]; subst n; reflexivity.
Qed.

Lemma weight_total l : forallb ok_bare l = true ->
  len (flat_map addressed l) = total (map weight l).
Proof.
  induction l as [|b l IH]; intros H; [reflexivity|]. cbn [forallb] in H.
  apply andb_prop in H as [H1 H2]. cbn [flat_map map total fold_right]. unfold len in *.
  rewrite app_length, Nat2N.inj_add, (IH H2). f_equal. apply (weight_addressed b H1).
Qed.

Lemma concat_ok rows : forallb (forallb ok_bare) rows = true -> forallb ok_bare (List.concat rows) = true.
Proof.
  induction rows as [|r rows IH]; [reflexivity|]. cbn. intros H. apply andb_prop in H as [H1 H2].
  rewrite forallb_app, H1, (IH H2). reflexivity.
Qed.

Lemma enumeration_density I v l :
  all_variants_in_version_of I v = Ok l -> compute_encoding_density_of I v = Ok (len l).
Proof.
  intros H. apply pf_C75_enumeration in H as (objs & rows & D & N1 & _ & S & -> & _).
  rewrite (density_rows I v objs rows D N1). f_equal. symmetry. apply weight_total, concat_ok.
  apply ok_rows, S.
Qed.

(** The density of every instruction set: the sum over its opcodes of two to the number of flags
    times the modes of every operand.  Whenever the enumeration succeeds, this is its length, so
    that the comparison of the two cannot fail. *)
Lemma pf_C75_density :
  forall I v,
    (forall objs rows, described I v objs rows -> NoDup (map name objs) ->
       compute_encoding_density_of I v
       = Ok (fold_right N.add 0 (map weight (List.concat rows)))) /\
    (forall l, all_variants_in_version_of I v = Ok l ->
       compute_encoding_density_of I v = Ok (N.of_nat (List.length l))).
Proof.
  intros I v. split; [exact (density_rows I v)|exact (enumeration_density I v)].
Qed.

(** ** Synthesis *)

Definition set_step (I : InstructionSet) (result : list OpcodeVariant) (version : ISAVersion)
  : res (list OpcodeVariant) :=
  let* all_opcodes_in_version := all_variants_in_version_of I version in
  let* (result, new_opcodes) := find_new_opcodes result all_opcodes_in_version in
  let result := result ++ new_opcodes in
  let* density := compute_encoding_density_of I version in
  let* _ := assert_ (len result =? density) in
  Ok result.

Lemma set_step_iff I r v r' :
  set_step I r v = Ok r' <->
  exists l, all_variants_in_version_of I v = Ok l /\
    forallb (fun o => existsb (spec_equivalentb o) l) r = true /\
    r' = after l r ++ filter (fun n => negb (existsb (spec_equivalentb n) r)) l /\
    List.length r' = List.length l.
Proof.
  unfold set_step. split.
  - intros H. destruct (all_variants_in_version_of I v) as [l|] eqn:E; [|discriminate H].
    cbn [bind] in H. rewrite find_new_eq in H.
    destruct (forallb _ r) eqn:F; [|discriminate H]. cbn [bind] in H.
    rewrite (enumeration_density I v l E) in H. cbn [bind] in H.
    destruct (len _ =? len l) eqn:L; [|discriminate H]. cbn [assert_ bind] in H. injection H as <-.
    exists l. split; [reflexivity|]. split; [exact F|]. split; [reflexivity|].
    unfold len in L. lia.
  - intros (l & E & F & -> & L). rewrite E. cbn [bind]. rewrite find_new_eq, F. cbn [bind].
    rewrite (enumeration_density I v l E). cbn [bind]. unfold len. rewrite L, N.eqb_refl.
    reflexivity.
Qed.

Lemma after_length l r : List.length (after l r) = List.length r.
Proof.
  assert (P := after_pointwise l r). symmetry. induction P; cbn; [reflexivity|]. f_equal. assumption.
Qed.

(** Positions of a table keep their meaning. *)
Definition kept (r r' : list OpcodeVariant) : Prop :=
  forall i a, nth_error r i = Some a ->
    exists b, nth_error r' i = Some b /\ spec_equivalentb a b = true.

Lemma kept_refl r : kept r r.
Proof. intros i a H. exists a. split; [exact H|apply eqv_refl]. Qed.

Lemma kept_trans r1 r2 r3 : kept r1 r2 -> kept r2 r3 -> kept r1 r3.
Proof.
  intros H1 H2 i a Ha. destruct (H1 i a Ha) as (b & Hb & Eb). destruct (H2 i b Hb) as (c & Hc & Ec).
  exists c. split; [exact Hc|]. rewrite (eqv_trans a b c Eb). exact Ec.
Qed.

Lemma set_step_kept I r v r' : set_step I r v = Ok r' -> kept r r'.
Proof.
  intros H. apply set_step_iff in H as (l & _ & _ & -> & _). intros i a Ha.
  assert (P := after_pointwise l r). apply Forall2_nth in P as [L P].
  destruct (P i a Ha) as (b & Hb & Eb). exists b. split; [|exact Eb].
  rewrite nth_error_app1; [exact Hb|]. apply nth_error_Some. congruence.
Qed.

Lemma set_steps_kept I vs : forall r r', for_each (set_step I) vs r = Ok r' -> kept r r'.
Proof.
  induction vs as [|v vs IH]; intros r r' H; cbn in H.
  - injection H as <-. apply kept_refl.
  - destruct (set_step I r v) as [r1|] eqn:E; [|discriminate H]. cbn in H.
    eapply kept_trans; [eapply set_step_kept, E|apply IH, H].
Qed.

Lemma versions_prefix l u : versions_until_break l u = versions_until_break l u ++ [].
Proof. rewrite app_nil_r. reflexivity. Qed.

Lemma versions_split l u u' : u <= u' ->
  exists more, versions_until_break l u' = versions_until_break l u ++ more.
Proof.
  intros H. induction l as [|v l [more IH]]; cbn; [exists []; reflexivity|].
  destruct (u <? v) eqn:E1; [exists (if u' <? v then [] else v :: versions_until_break l u');
    destruct (u' <? v); reflexivity|].
  replace (u' <? v) with false by lia. exists more. rewrite IH. reflexivity.
Qed.

Lemma versions_used_iff I u vs :
  versions_used I u vs <-> vs = versions_until_break (set_versions I) u.
Proof.
  unfold versions_used. generalize (set_versions I) as l. intros l. revert vs.
  induction l as [|v l IH]; intros vs.
  - cbn. split; [intros (rest & E & _); symmetry in E; apply app_eq_nil in E as [-> _]; reflexivity|].
    intros ->. exists []. cbn. auto.
  - cbn [versions_until_break]. destruct (u <? v) eqn:Hv.
    + split.
      * intros (rest & E & F & _). destruct vs as [|w vs]; [reflexivity|]. injection E as <- _.
        inversion F; subst. lia.
      * intros ->. exists (v :: l). split; [reflexivity|]. split; [constructor|]. lia.
    + split.
      * intros (rest & E & F & R). destruct vs as [|w vs].
        -- cbn in E. subst rest. lia.
        -- injection E as <- E. f_equal. apply IH. exists rest. inversion F; subst. auto.
      * intros ->. destruct (IH (versions_until_break l u)) as [_ K].
        destruct (K eq_refl) as (rest & E & F & R). exists rest. split; [cbn; f_equal; exact E|].
        split; [constructor; [lia|exact F]|exact R].
Qed.

Lemma synth_iff I p bld bits u t :
  synthesize_opcode_decoding_tables_of I p bld bits u = Ok t <->
  exists r c objs,
    set_objects I = Ok objs /\ NoDup (map name objs) /\
    for_each (set_step I) (versions_until_break (set_versions I) u) [] = Ok r /\
    shl_one bld p bits = Ok c /\ hd_error r = Some spec_invalid /\ len r <= c /\
    t = r ++ repeat spec_invalid (N.to_nat (c - len r)).
Proof.
  unfold synthesize_opcode_decoding_tables_of. change (fun result version => _) with (set_step I).
  split.
  - intros H. destruct (set_objects I) as [objs|]; [|discriminate H]. cbn [bind] in H.
    destruct (check_unique_names objs) as [nm|] eqn:E1; [|discriminate H]. cbn [bind] in H.
    destruct (shl_one bld p bits) as [c|]; [|discriminate H]. cbn [bind] in H.
    destruct (for_each (set_step I) _ []) as [r|]; [|discriminate H]. cbn [bind] in H.
    destruct r as [|e r]; [discriminate H|]. cbn [index N.to_nat nth_error unwrap bind] in H.
    change (index (e :: r) 0) with (Ok e) in H. cbn [bind] in H.
    destruct (OpcodeVariant_eqb e INVALID_OPCODE_VARIANT) eqn:E3; [|discriminate H].
    cbn [assert_ bind] in H. apply eqb_iff in E3. subst e.
    destruct (len _ <=? c) eqn:L; [|discriminate H]. cbn [assert_ bind] in H. apply N.leb_le in L.
    rewrite resize_eq in H by exact L. injection H as <-.
    exists (INVALID_OPCODE_VARIANT :: r), c, objs.
    split; [reflexivity|]. split; [apply names_iff; eauto|]. repeat split; assumption.
  - intros (r & c & objs & E0 & N1 & E1 & E2 & Hd & L & ->). rewrite E0. cbn [bind].
    apply names_iff in N1 as [nm ->]. cbn [bind]. rewrite E2. cbn [bind]. rewrite E1. cbn [bind].
    destruct r as [|e r]; [discriminate Hd|]. injection Hd as ->.
    change (index (spec_invalid :: r) 0) with (Ok spec_invalid). cbn [bind].
    change (OpcodeVariant_eqb spec_invalid INVALID_OPCODE_VARIANT) with true. cbn [assert_ bind].
    apply N.leb_le in L. rewrite L. cbn [assert_ bind]. apply N.leb_le in L.
    rewrite resize_eq by exact L. reflexivity.
Qed.

Lemma nth_pad {A} (r : list A) x n i a :
  nth_error (r ++ repeat x n) i = Some a -> a <> x -> nth_error r i = Some a.
Proof.
  intros H Ha. destruct (Nat.lt_ge_cases i (List.length r)) as [L|L].
  - rewrite nth_error_app1 in H by exact L. exact H.
  - rewrite nth_error_app2 in H by exact L. apply nth_error_In in H.
    apply repeat_spec in H. contradiction.
Qed.

(** Numbers are stable in every instruction set: if tables up to two versions can be
    synthesized, every number that means something in the earlier one means the same in the later
    one.  The widths of the tables, the build and the pointer width do not matter. *)
Lemma pf_C75_stable :
  forall I p p' bld bld' bits bits' u u' t t',
    u <= u' ->
    synthesize_opcode_decoding_tables_of I p bld bits u = Ok t ->
    synthesize_opcode_decoding_tables_of I p' bld' bits' u' = Ok t' ->
    forall i a, nth_error t i = Some a -> a <> spec_invalid ->
      exists b, nth_error t' i = Some b /\ spec_equivalent a b.
Proof.
  intros I p p' bld bld' bits bits' u u' t t' Hu H H' i a Ha Hn.
  apply synth_iff in H as (r & c & objs & _ & _ & E & _ & _ & _ & ->).
  apply synth_iff in H' as (r' & c' & objs' & _ & _ & E' & _ & _ & _ & ->).
  destruct (versions_split (set_versions I) u u' Hu) as [more Hm]. rewrite Hm, for_each_app, E in E'.
  cbn [bind] in E'. apply set_steps_kept in E'. apply nth_pad in Ha; [|exact Hn].
  destruct (E' i a Ha) as (b & Hb & Eb). exists b. split; [|apply equivalentb_iff, Eb].
  rewrite nth_error_app1; [exact Hb|]. apply nth_error_Some. congruence.
Qed.

(** ** Contents *)

Local Notation E := spec_equivalentb.

Lemma norm_iff a b : E a b = true <-> spec_norm a = spec_norm b.
Proof. unfold spec_equivalentb. apply eqb_iff. Qed.

Lemma existsb_norm x l : existsb (E x) l = true <-> In (spec_norm x) (map spec_norm l).
Proof.
  rewrite existsb_exists, in_map_iff. split.
  - intros (y & Hy & H). exists y. split; [symmetry; apply norm_iff, H|exact Hy].
  - intros (y & H & Hy). exists y. split; [exact Hy|apply norm_iff; symmetry; exact H].
Qed.

Lemma inequivalent_iff l : inequivalent l <-> NoDup (map spec_norm l).
Proof.
  rewrite NoDup_nth_error. unfold inequivalent. split.
  - intros H i j Hi K. rewrite map_length in Hi. rewrite !nth_error_map' in K.
    destruct (nth_error l i) as [a|] eqn:Ea; [|apply nth_error_Some in Hi; congruence].
    destruct (nth_error l j) as [b|] eqn:Eb; [|discriminate K]. cbn in K. injection K as K1 K2 K3 K4.
    apply (H i j a b Ea Eb). unfold spec_equivalent. auto.
  - intros H i j a b Ea Eb K. apply H.
    + rewrite map_length. apply nth_error_Some. congruence.
    + rewrite !nth_error_map', Ea, Eb. cbn. f_equal. apply norm_iff, equivalentb_iff, K.
Qed.

Lemma covered_iff l l' : covered l l' <-> forallb (fun o => existsb (E o) l') l = true.
Proof.
  unfold covered. rewrite forallb_forall. split.
  - intros H x Hx. destruct (H x Hx) as (b & Hb & K). apply existsb_exists. exists b.
    split; [exact Hb|apply equivalentb_iff, K].
  - intros H x Hx. apply H, existsb_exists in Hx as (b & Hb & K). exists b.
    split; [exact Hb|apply equivalentb_iff, K].
Qed.

Lemma covered_norm l l' : covered l l' <-> incl (map spec_norm l) (map spec_norm l').
Proof.
  rewrite covered_iff, forallb_forall. unfold incl. split.
  - intros H x Hx. apply in_map_iff in Hx as (y & <- & Hy). apply existsb_norm, H, Hy.
  - intros H x Hx. apply existsb_norm, H, in_map, Hx.
Qed.

Lemma covered_trans l1 l2 l3 : covered l1 l2 -> covered l2 l3 -> covered l1 l3.
Proof. rewrite !covered_norm. intros H1 H2 x Hx. auto. Qed.

Lemma after_norm l r : map spec_norm (after l r) = map spec_norm r.
Proof.
  assert (P := after_pointwise l r). symmetry. induction P as [|a b l1 l2 H P IH]; [reflexivity|].
  cbn [map]. f_equal; [apply norm_iff, H|exact IH].
Qed.

Definition extended (l r : list OpcodeVariant) : list OpcodeVariant :=
  after l r ++ filter (fun n => negb (existsb (E n) r)) l.

Lemma extended_norm_in l r x :
  covered r l ->
  In x (map spec_norm (extended l r)) <-> In x (map spec_norm l).
Proof.
  rewrite covered_norm. intros C. unfold extended. rewrite map_app, after_norm, in_app_iff. split.
  - intros [H|H]; [apply C, H|]. apply in_map_iff in H as (y & <- & Hy).
    apply filter_In in Hy as [Hy _]. apply in_map, Hy.
  - intros H. apply in_map_iff in H as (y & <- & Hy).
    destruct (existsb (E y) r) eqn:K.
    + left. apply existsb_norm, K.
    + right. apply in_map, filter_In. rewrite K. auto.
Qed.

Lemma NoDup_map_filter {A B} (f : A -> B) g l : NoDup (map f l) -> NoDup (map f (filter g l)).
Proof.
  induction l as [|x l IH]; cbn; [auto|]. intros H. inversion H as [|a b Ha Hl]; subst.
  destruct (g x); [|apply IH, Hl]. cbn. constructor; [|apply IH, Hl].
  intros K. apply Ha. apply in_map_iff in K as (y & <- & Hy). apply filter_In in Hy as [Hy _].
  apply in_map, Hy.
Qed.

Lemma extended_perm l r :
  covered r l -> inequivalent r -> inequivalent l ->
  Permutation (map spec_norm (extended l r)) (map spec_norm l).
Proof.
  intros C Nr Nl. apply inequivalent_iff in Nr, Nl.
  apply NoDup_Permutation; [|exact Nl|intros x; apply extended_norm_in, C].
  unfold extended. rewrite map_app, after_norm. apply NoDup_app_intro.
  - exact Nr.
  - apply NoDup_map_filter, Nl.
  - intros x Hx K. apply in_map_iff in K as (y & <- & Hy). apply filter_In in Hy as [_ Hy].
    apply existsb_norm in Hx. rewrite Hx in Hy. discriminate Hy.
Qed.

(** Position by position the extended table holds entries of the new enumeration. *)
Lemma extended_in l r x :
  covered r l -> inequivalent r -> In x (extended l r) -> In x l.
Proof.
  intros C Nr H. unfold extended in H. apply in_app_or in H as [H|H];
    [|apply filter_In in H; apply H].
  apply In_nth_error in H as [i H]. rewrite after_nth in H.
  destruct (nth_error r i) as [o|] eqn:Eo; [|discriminate H]. injection H as H.
  destruct (existsb (E o) (firstn i r)) eqn:K.
  - exfalso. apply existsb_exists in K as (y & Hy & K). apply In_nth_error in Hy as [j Hy].
    assert (J : (j < i)%nat).
    { assert (j < List.length (firstn i r))%nat by (apply nth_error_Some; congruence).
      rewrite firstn_length in H0. lia. }
    assert (Hy' : nth_error r j = Some y).
    { rewrite <- (firstn_skipn i r). rewrite nth_error_app1; [exact Hy|].
      apply nth_error_Some. congruence. }
    assert (i = j); [|lia]. apply (Nr i j o y Eo Hy'). apply equivalentb_iff, K.
  - apply covered_iff in C. rewrite forallb_forall in C.
    assert (Ho := C o (nth_error_In _ _ Eo)). apply existsb_exists in Ho as (y & Hy & K').
    assert (F : In y (filter (E o) l)) by (apply filter_In; auto).
    destruct (filter (E o) l) as [|z zs] eqn:Ef using rev_ind; [destruct F|].
    rewrite last_snoc in H. subst x.
    assert (G : In z (filter (E o) l)) by (rewrite Ef; apply in_or_app; right; left; reflexivity).
    apply filter_In in G. apply G.
Qed.

Lemma NoDup_app_left {A} (l1 l2 : list A) : NoDup (l1 ++ l2) -> NoDup l1.
Proof.
  induction l1 as [|x l1 IH]; cbn; [constructor|]. intros H. inversion H as [|a b Ha Hl]; subst.
  constructor; [|apply IH, Hl]. intros K. apply Ha, in_or_app. left. exact K.
Qed.

Lemma for_each_last I vs r : hd_error r = Some spec_invalid ->
  for_each (set_step I) vs [] = Ok r ->
  exists vs' w r0, vs = vs' ++ [w] /\ for_each (set_step I) vs' [] = Ok r0 /\ set_step I r0 w = Ok r.
Proof.
  intros Hd H. destruct vs as [|w vs _] using rev_ind.
  - injection H as <-. discriminate Hd.
  - rewrite for_each_app in H. destruct (for_each (set_step I) vs []) as [r0|] eqn:E0; [|discriminate H].
    cbn in H. destruct (set_step I r0 w) as [r1|] eqn:E1; [|discriminate H]. cbn in H.
    injection H as <-. exists vs, w, r0. auto.
Qed.

Lemma shl_one_small bld p b c : b < p -> shl_one bld p b = Ok c -> c = 2 ^ b.
Proof. intros H. unfold shl_one. replace (b <? p) with true by lia. intros K. injection K as <-. reflexivity. Qed.

(** What a synthesized table holds, for every instruction set: the meanings of exactly the
    variants of the last version used, in as many entries, followed by the invalid variant.  If no
    two variants of that version mean the same, the entries are those variants, in some order. *)
Lemma pf_C75_contents :
  forall I p bld bits u t, bits < p ->
    synthesize_opcode_decoding_tables_of I p bld bits u = Ok t ->
    exists vs w l r,
      versions_used I u (vs ++ [w]) /\ all_variants_in_version_of I w = Ok l /\
      N.of_nat (List.length t) = 2 ^ bits /\
      t = r ++ repeat spec_invalid (List.length t - List.length l) /\
      List.length r = List.length l /\ hd_error r = Some spec_invalid /\
      covered l r /\ covered r l /\ (inequivalent l -> Permutation r l).
Proof.
  intros I p bld bits u t Hb H.
  apply synth_iff in H as (r & c & objs & _ & _ & E1 & Ec & Hd & L & ->).
  destruct (for_each_last I _ r Hd E1) as (vs & w & r0 & Ev & _ & S).
  apply set_step_iff in S as (l & El & F & Er & Ln). fold (extended l r0) in Er.
  apply covered_iff in F. apply shl_one_small in Ec; [|exact Hb].
  exists vs, w, l, r. unfold len in *.
  assert (Lt : List.length (r ++ repeat spec_invalid (N.to_nat (c - N.of_nat (List.length r))))
               = N.to_nat c).
  { rewrite app_length, repeat_length. lia. }
  rewrite Lt. split; [apply versions_used_iff; symmetry; exact Ev|]. split; [exact El|].
  split; [rewrite Ec; lia|].
  split; [f_equal; f_equal; lia|]. split; [exact Ln|]. split; [exact Hd|].
  assert (M := extended_norm_in l r0). rewrite <- Er in M.
  split; [apply covered_norm; intros x Hx; apply M; assumption|].
  split; [apply covered_norm; intros x Hx; apply M in Hx; assumption|].
  intros Nl. assert (Nn := Nl). apply inequivalent_iff in Nn.
  assert (Nr : NoDup (map spec_norm r)).
  { apply (NoDup_incl_NoDup Nn); [rewrite !map_length; lia|].
    intros x Hx. apply M; assumption. }
  assert (Nr0 : inequivalent r0).
  { apply inequivalent_iff. rewrite Er in Nr. unfold extended in Nr.
    rewrite map_app, after_norm in Nr. eapply NoDup_app_left, Nr. }
  apply NoDup_Permutation_bis.
  - eapply NoDup_map_inv, Nr.
  - lia.
  - intros x Hx. rewrite Er in Hx. apply (extended_in l r0); assumption.
Qed.

Lemma set_step_total I r v l :
  all_variants_in_version_of I v = Ok l -> covered r l -> inequivalent r -> inequivalent l ->
  set_step I r v = Ok (extended l r).
Proof.
  intros El C Nr Nl. apply set_step_iff. exists l. split; [exact El|].
  split; [apply covered_iff, C|]. split; [reflexivity|].
  assert (P := Permutation_length (extended_perm l r C Nr Nl)). rewrite !map_length in P. exact P.
Qed.

Lemma steps_total I : forall vs,
  vs <> [] ->
  (forall v, In v vs -> exists l, all_variants_in_version_of I v = Ok l /\ inequivalent l) ->
  (forall i v v' l l', nth_error vs i = Some v -> nth_error vs (S i) = Some v' ->
     all_variants_in_version_of I v = Ok l -> all_variants_in_version_of I v' = Ok l' ->
     covered l l') ->
  exists w l r, nth_error vs (List.length vs - 1) = Some w /\
    all_variants_in_version_of I w = Ok l /\
    for_each (set_step I) vs [] = Ok r /\ hd_error r = Some spec_invalid /\
    Permutation (map spec_norm r) (map spec_norm l).
Proof.
  intros vs. induction vs as [|w vs IH] using rev_ind; [intros K; contradiction|].
  intros _ H1 H2. destruct (H1 w) as (l & El & Nl); [apply in_or_app; right; left; reflexivity|].
  exists w, l. rewrite app_length. cbn [List.length].
  replace (List.length vs + 1 - 1)%nat with (List.length vs) by lia.
  rewrite nth_error_app2, Nat.sub_diag by lia.
  assert (Hl : hd_error l = Some spec_invalid).
  { apply pf_C75_enumeration in El as (? & ? & _ & _ & _ & _ & _ & Hl). exact Hl. }
  destruct (list_eq_dec N.eq_dec vs []) as [->|Hv].
  - assert (C : covered [] l) by (intros a []).
    assert (Nn : inequivalent []) by (intros [|i] j a b K; discriminate K).
    exists (extended l []). split; [reflexivity|]. split; [exact El|]. split.
    + cbn [List.app for_each]. rewrite (set_step_total I [] w l El C Nn Nl). reflexivity.
    + split; [|apply extended_perm; assumption].
      unfold extended. cbn [existsb negb].
      replace (after l []) with (@nil OpcodeVariant)
        by (symmetry; apply length_zero_iff_nil; rewrite after_length; reflexivity).
      destruct l as [|e l]; [discriminate Hl|exact Hl].
  - destruct (IH Hv) as (w0 & l0 & r0 & W0 & El0 & F0 & Hd0 & P0).
    { intros v Hin. apply H1, in_or_app. left. exact Hin. }
    { intros i v v' a a' Ea Ea'. apply (H2 i).
      - rewrite nth_error_app1; [exact Ea|]. apply nth_error_Some. congruence.
      - rewrite nth_error_app1; [exact Ea'|]. apply nth_error_Some. congruence. }
    assert (C0 : covered l0 l).
    { destruct vs as [|v0 vs]; [contradiction|]. apply (H2 (List.length vs) w0 w l0 l); try assumption.
      - rewrite nth_error_app1 by (cbn; lia). cbn [List.length] in W0.
        replace (S (List.length vs) - 1)%nat with (List.length vs) in W0 by lia. exact W0.
      - rewrite nth_error_app2 by (cbn; lia). cbn [List.length]. rewrite Nat.sub_diag. reflexivity. }
    destruct (H1 w0) as (l0' & El0' & Nl0).
    { apply in_or_app. left. eapply nth_error_In, W0. }
    assert (l0' = l0) by congruence. subst l0'.
    assert (Nr0 : inequivalent r0).
    { apply inequivalent_iff. eapply Permutation_NoDup; [apply Permutation_sym, P0|].
      apply inequivalent_iff, Nl0. }
    assert (C : covered r0 l).
    { eapply covered_trans; [|exact C0]. apply covered_norm. intros x Hx.
      eapply Permutation_in; [exact P0|exact Hx]. }
    exists (extended l r0). split; [reflexivity|]. split; [exact El|]. split.
    + rewrite for_each_app, F0. cbn [bind for_each].
      rewrite (set_step_total I r0 w l El C Nr0 Nl). reflexivity.
    + split; [|apply extended_perm; assumption].
      destruct r0 as [|e r0]; [discriminate Hd0|]. injection Hd0 as ->.
      assert (G := after_nth l (spec_invalid :: r0) 0%nat). cbn [nth_error firstn existsb] in G.
      unfold extended. destruct (after l (spec_invalid :: r0)) as [|a0 a]; [discriminate G|].
      cbn [nth_error] in G. cbn [List.app hd_error]. rewrite G. f_equal.
      destruct l as [|e l]; [discriminate Hl|]. injection Hl as ->.
      cbn [filter]. replace (E spec_invalid spec_invalid) with true by reflexivity.
      replace (filter (E spec_invalid) l) with (@nil OpcodeVariant); [reflexivity|].
      symmetry. destruct (filter (E spec_invalid) l) as [|z zs] eqn:Ef; [reflexivity|].
      exfalso. assert (Hz : In z (filter (E spec_invalid) l)) by (rewrite Ef; left; reflexivity).
      apply filter_In in Hz as [Hz K]. apply In_nth_error in Hz as [j Hz].
      assert (0%nat = S j); [|discriminate].
      apply (Nl 0%nat (S j) spec_invalid z eq_refl Hz). apply equivalentb_iff, K.
Qed.

(** Synthesis succeeds for every instruction set whose used versions can be enumerated, have no
    two variants of one meaning, and drop no meaning of the version before, if the last of them
    fits into the table. *)
Lemma pf_C75_total :
  forall I p bld bits u vs, bits < p ->
    versions_used I u vs -> vs <> [] ->
    (forall v, In v vs -> exists l, all_variants_in_version_of I v = Ok l /\ inequivalent l) ->
    (forall i v v' l l', nth_error vs i = Some v -> nth_error vs (S i) = Some v' ->
       all_variants_in_version_of I v = Ok l -> all_variants_in_version_of I v' = Ok l' ->
       covered l l') ->
    forall w l, nth_error vs (List.length vs - 1) = Some w ->
      all_variants_in_version_of I w = Ok l ->
      ((exists t, synthesize_opcode_decoding_tables_of I p bld bits u = Ok t) <->
       N.of_nat (List.length l) <= 2 ^ bits).
Proof.
  intros I p bld bits u vs Hb Hu Hv H1 H2 w l W El.
  destruct (steps_total I vs Hv H1 H2) as (w' & l' & r & W' & El' & F & Hd & P).
  assert (Ew := eq_trans (eq_sym W') W). injection Ew as ->.
  assert (l' = l) by congruence. subst l'.
  apply Permutation_length in P. rewrite !map_length in P.
  apply versions_used_iff in Hu. subst vs.
  split.
  - intros [t H]. apply synth_iff in H as (r' & c & objs & _ & _ & F' & Ec & _ & L & _).
    assert (r' = r) by congruence. subst r'. apply shl_one_small in Ec; [|exact Hb].
    unfold len in L. lia.
  - intros L. eexists. apply synth_iff.
    apply pf_C75_enumeration in El as (objs & rows & D & N1 & _).
    exists r, (2 ^ bits), objs. split; [apply D|]. split; [exact N1|]. split; [exact F|].
    split; [unfold shl_one; replace (bits <? p) with true by lia; reflexivity|].
    split; [exact Hd|]. split; [unfold len; lia|reflexivity].
Qed.

(** ** Legacy synthesis *)

Lemma for_each_ext_in {A S} (f g : S -> A -> res S) l :
  (forall s x, In x l -> f s x = g s x) -> forall s, for_each f l s = for_each g l s.
Proof.
  induction l as [|x l IH]; intros H s; [reflexivity|]. cbn. rewrite H by (left; reflexivity).
  destruct (g s x); cbn; [|reflexivity]. apply IH. intros s' y Hy. apply H. right. exact Hy.
Qed.

Lemma for_each_panic_in {A S} (f : S -> A -> res S) x l :
  (forall s, f s x = Panic) -> In x l -> forall s, for_each f l s = Panic.
Proof.
  intros H. induction l as [|y l IH]; intros Hin s; [destruct Hin|]. cbn.
  destruct Hin as [->|Hin]; [rewrite H; reflexivity|].
  destruct (f s y); cbn; [apply IH, Hin|reflexivity].
Qed.

Lemma legacy_push_eq I v o proto ds ins outs :
  variants_data o v = Ok ds -> input_operands o v = Ok ins -> output_operands o v = Ok outs ->
  supported ins outs -> hd_error (map kind_of ins) <> Some KRegOrImm ->
  (forall d, In d ds -> exists op, set_materialize I proto (variant_idx d) v = Ok op /\
     set_inputs I op v = Ok ins /\ set_outputs I op v = Ok outs) ->
  forall r, legacy_push_opcode_of I v o proto r = for_each (push_variant_of I v proto) ds r.
Proof.
  intros E1 E2 E3 Hs Hk Hd r. unfold legacy_push_opcode_of. rewrite E1. cbn [bind]. rewrite E2.
  cbn [bind]. rewrite E3. cbn [bind]. apply shape_ok_iff in Hs. clear E1 E2 E3.
  assert (G : forall s d, In d ds -> exists op,
     set_materialize I proto (variant_idx d) v = Ok op /\
     push_variant_of I v proto s d =
     let ins := ins in let outs := outs in
     push_variant_of (mkInstructionSet (set_objects I) (set_prototypes I) (fun _ _ _ => Ok op)
       (fun _ _ => Ok ins) (fun _ _ => Ok outs) (set_index I) (set_sub_index I) (set_kernel I)
       (set_static I) (set_versions I)) v proto s d).
  { intros s d Hin. destruct (Hd d Hin) as (op & M1 & M2 & M3). exists op. split; [exact M1|].
    cbv zeta. rewrite (push_body I v proto d op ins outs s M1 M2 M3).
    rewrite (push_body (mkInstructionSet (set_objects I) (set_prototypes I) (fun _ _ _ => Ok op)
       (fun _ _ => Ok ins) (fun _ _ => Ok outs) (set_index I) (set_sub_index I) (set_kernel I)
       (set_static I) (set_versions I)) v proto d op ins outs s
       eq_refl eq_refl eq_refl). reflexivity. }
  destruct ins as [|[|i0|i0] [|[|i1|i1] [|i2 ins]]];
  destruct outs as [|[|o0|o0] [|[|o1|o1] [|o2 outs]]];
  try discriminate Hs; try (exfalso; apply Hk; reflexivity);
  (apply for_each_ext_in; intros s d Hin; destruct (G s d Hin) as (op & M & ->);
   rewrite M; reflexivity).
Qed.

(** The older procedure, for every instruction set: it agrees with the newer one while a single
    version is used, the operands of an opcode are those of all its sub-variants, and no source
    is a register or an immediate.  It panics if an opcode has such a source. *)
Lemma pf_C75_legacy :
  forall I p bld bits u,
    (forall w, versions_used I u [w] ->
       (exists objs, set_objects I = Ok objs /\
          forall i o, nth_error objs i = Some o ->
            exists proto ds ins outs,
              nth_error (set_prototypes I) i = Some proto /\ variants_data o w = Ok ds /\
              input_operands o w = Ok ins /\ output_operands o w = Ok outs /\
              supported ins outs /\ hd_error (map kind_of ins) <> Some KRegOrImm /\
              forall d, In d ds -> exists op,
                set_materialize I proto (variant_idx d) w = Ok op /\
                set_inputs I op w = Ok ins /\ set_outputs I op w = Ok outs) ->
       synthesize_opcode_decoding_tables_legacy_of I p bld bits u
       = synthesize_opcode_decoding_tables_of I p bld bits u) /\
    (forall vs w objs o ins,
       versions_used I u vs -> In w vs -> set_objects I = Ok objs -> In o objs ->
       input_operands o w = Ok ins -> hd_error (map kind_of ins) = Some KRegOrImm ->
       synthesize_opcode_decoding_tables_legacy_of I p bld bits u = Panic).
Proof.
  intros I p bld bits u. split.
  - intros w Hu (objs & E0 & D). apply versions_used_iff in Hu.
    unfold synthesize_opcode_decoding_tables_legacy_of, synthesize_opcode_decoding_tables_of.
    rewrite E0, <- Hu. cbn [bind].
    destruct (check_unique_names objs) as [nm|] eqn:En; cbn [bind]; [|reflexivity].
    destruct (shl_one bld p bits) as [c|]; cbn [bind]; [|reflexivity].
    cbn [for_each].
    set (inner := fun (result : list OpcodeVariant) '(i, opcode) =>
      let* _ := (if i =? 0 then assert_ (String.eqb (name opcode) "Invalid opcode") else Ok tt) in
      let* ds := variants_data opcode w in
      let* proto := index (set_prototypes I) i in
      for_each (push_variant_of I w proto) ds result).
    assert (L : forall s,
      for_each (fun result '(i, opcode) =>
          let* _ := (if i =? 0 then assert_ (String.eqb (name opcode) "Invalid opcode")
                     else Ok tt) in
          let* proto := index (set_prototypes I) i in
          legacy_push_opcode_of I w opcode proto result) (enumerate objs) s
      = for_each inner (enumerate objs) s).
    { apply for_each_ext_in. intros s [k o] Hin. apply In_nth_error in Hin as [i Hin].
      unfold enumerate in Hin. rewrite enumerate_from_nth in Hin.
      destruct (nth_error objs i) as [o'|] eqn:Eo; [|discriminate Hin].
      injection Hin as <- <-. destruct (D i o' Eo) as (proto & ds & ins & outs & P1 & P2 & P3 & P4
        & P5 & P6 & P7).
      unfold inner. rewrite P2. cbn [bind]. unfold index. rewrite Nnat.Nat2N.id, P1.
      cbn [unwrap bind].
      rewrite (legacy_push_eq I w o' proto ds ins outs P2 P3 P4 P5 P6 P7). reflexivity. }
    rewrite L.
    assert (A : all_variants_in_version_of I w =
      let* result := for_each inner (enumerate objs) [] in
      let* r0 := index result 0 in
      let* _ := assert_ (OpcodeVariant_eqb r0 INVALID_OPCODE_VARIANT) in Ok result).
    { unfold all_variants_in_version_of. rewrite E0. cbn [bind]. rewrite En. reflexivity. }
    assert (Ad := enumeration_density I w).
    destruct (for_each inner (enumerate objs) []) as [r|]; cbn [bind] in A |- *;
      [|rewrite A; reflexivity].
    destruct r as [|e r].
    { rewrite A. cbn [index nth_error unwrap bind]. change (index [] 0) with (@Panic OpcodeVariant).
      cbn [bind]. destruct (compute_encoding_density_of I w); cbn [bind]; [|reflexivity].
      destruct (_ =? _); reflexivity. }
    change (index (e :: r) 0) with (Ok e) in *. cbn [bind] in A |- *.
    destruct (OpcodeVariant_eqb e INVALID_OPCODE_VARIANT) eqn:Ee; cbn [assert_ bind] in A.
    + rewrite A. cbn [bind]. rewrite (Ad _ A). cbn [bind].
      rewrite find_new_eq. cbn [forallb bind].
      replace (after (e :: r) []) with (@nil OpcodeVariant)
        by (symmetry; apply length_zero_iff_nil; rewrite after_length; reflexivity).
      cbn [List.app existsb negb].
      replace (filter (fun _ => true) (e :: r)) with (e :: r)
        by (clear; induction (e :: r) as [|x l IH]; cbn; congruence).
      rewrite N.eqb_refl. cbn [assert_ bind]. change (index (e :: r) 0) with (Ok e). cbn [bind].
      rewrite Ee. reflexivity.
    + rewrite A. cbn [bind]. destruct (compute_encoding_density_of I w); cbn [bind]; [|reflexivity].
      destruct (_ =? _); cbn [assert_ bind]; [|reflexivity].
      change (index (e :: r) 0) with (Ok e). cbn [bind]. rewrite Ee. reflexivity.
  - intros vs w objs o ins Hu Hw E0 Ho Ei Hk. apply versions_used_iff in Hu. subst vs.
    unfold synthesize_opcode_decoding_tables_legacy_of. rewrite E0. cbn [bind].
    destruct (check_unique_names objs) as [nm|]; cbn [bind]; [|reflexivity].
    destruct (shl_one bld p bits) as [c|]; cbn [bind]; [|reflexivity].
    rewrite (for_each_panic_in _ w); [reflexivity| |exact Hw].
    intros s. apply In_nth_error in Ho as [i Ho].
    rewrite (for_each_panic_in _ (N.of_nat i, o)); [reflexivity| |].
    + intros s'. destruct (if N.of_nat i =? 0 then _ else _); cbn [bind]; [|reflexivity].
      destruct (index (set_prototypes I) (N.of_nat i)) as [proto|]; cbn [bind]; [|reflexivity].
      unfold legacy_push_opcode_of. destruct (variants_data o w) as [ds|]; cbn [bind]; [|reflexivity].
      rewrite Ei. cbn [bind]. destruct (output_operands o w) as [outs|]; cbn [bind]; [|reflexivity].
      destruct ins as [|[|i0|i0] ins]; try discriminate Hk. reflexivity.
    + eapply nth_error_In. unfold enumerate. rewrite enumerate_from_nth, Ho. reflexivity.
Qed.

Lemma norms_nodup l :
  (fix go l := match l with [] => true
               | a :: r => negb (existsb (E a) r) && go r end) l = true -> inequivalent l.
Proof.
  intros H. apply inequivalent_iff. induction l as [|a l IH]; [constructor|].
  apply andb_prop in H as [H1 H2]. cbn. constructor; [|apply IH, H2].
  intros K. apply existsb_norm in K. rewrite K in H1. discriminate H1.
Qed.

Lemma current_inequivalent v : v <= 1 -> inequivalent (spec_enumeration v).
Proof.
  intros H. assert (C : v = 0 \/ v = 1) by lia. destruct C; subst v;
    apply norms_nodup; vm_compute; reflexivity.
Qed.

Lemma current_covered : covered (spec_enumeration 0) (spec_enumeration 1).
Proof. apply covered_iff. vm_compute. reflexivity. Qed.

(** The functions of the source are those above for the current instruction set, which meets the
    conditions of the theorems. *)
Lemma pf_C75_current :
  (forall v, all_variants_in_version_of current_set v = all_variants_in_version v) /\
  (forall v, compute_encoding_density_of current_set v = compute_encoding_density v) /\
  (forall bld bits v, synthesize_opcode_decoding_tables_of current_set 64 bld bits v
                      = synthesize_opcode_decoding_tables bld bits v) /\
  (forall bld bits v, synthesize_opcode_decoding_tables_legacy_of current_set 64 bld bits v
                      = synthesize_opcode_decoding_tables_legacy bld bits v) /\
  (forall v, v <= 1 -> exists l, all_variants_in_version_of current_set v = Ok l /\ inequivalent l) /\
  (forall l l', all_variants_in_version_of current_set 0 = Ok l ->
     all_variants_in_version_of current_set 1 = Ok l' -> covered l l').
Proof.
  split; [reflexivity|]. split; [reflexivity|]. split; [reflexivity|]. split; [reflexivity|].
  split.
  - intros v Hv. exists (spec_enumeration v). split; [|apply current_inequivalent, Hv].
    change (all_variants_in_version_of current_set v) with (all_variants_in_version v).
    rewrite enumeration_eq. replace (v <=? 1) with true by lia. reflexivity.
  - intros l l' H H'. change (all_variants_in_version 0 = Ok l) in H.
    change (all_variants_in_version 1 = Ok l') in H'. rewrite enumeration_0 in H.
    rewrite enumeration_1 in H'. injection H as <-. injection H' as <-. exact current_covered.
Qed.

(** A set with operand combinations the current one does not have. *)
Example pf_C75_example :
  all_variants_in_version_of toy_set 0
  = Ok [spec_invalid; mkOpcodeVariant (Op_Ret RetOpcode_Ok) RegOnly RegOnly (false, false)] /\
  (exists l, all_variants_in_version_of toy_set 1 = Ok l /\ List.length l = 99%nat /\
             compute_encoding_density_of toy_set 1 = Ok 99) /\
  (exists t t', synthesize_opcode_decoding_tables_of toy_set 64 Debug 7 0 = Ok t /\
     synthesize_opcode_decoding_tables_of toy_set 64 Debug 7 1 = Ok t' /\
     nth_error t 1 = Some (mkOpcodeVariant (Op_Ret RetOpcode_Ok) RegOnly RegOnly (false, false)) /\
     nth_error t' 1 = Some (mkOpcodeVariant (Op_Ret RetOpcode_Ok) (RegOrImm RI_UseRegOnly) RegOnly
                              (false, false)) /\
     synthesize_opcode_decoding_tables_legacy_of toy_set 64 Debug 7 0 = Ok t) /\
  synthesize_opcode_decoding_tables_of toy_set 64 Debug 6 1 = Panic /\
  synthesize_opcode_decoding_tables_legacy_of toy_set 64 Debug 7 1 = Panic.
Proof.
  split; [vm_compute; reflexivity|]. split.
  - destruct (all_variants_in_version_of toy_set 1) as [l|] eqn:H; [|vm_compute in H; discriminate H].
    exists l. split; [reflexivity|]. vm_compute in H. injection H as <-. split; vm_compute; reflexivity.
  - split; [|split; vm_compute; reflexivity].
    destruct (synthesize_opcode_decoding_tables_of toy_set 64 Debug 7 0) as [t|] eqn:H;
      [|vm_compute in H; discriminate H].
    destruct (synthesize_opcode_decoding_tables_of toy_set 64 Debug 7 1) as [t'|] eqn:H';
      [|vm_compute in H'; discriminate H'].
    exists t, t'. vm_compute in H, H'. injection H as <-. injection H' as <-.
    repeat split; vm_compute; reflexivity.
Qed.
