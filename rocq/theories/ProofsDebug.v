(** * Proofs about the [Debug] texts (C79). *)

From Coq Require Import Arith NArith Lia ZArith List Bool String Ascii.
From Coq Require Import ZifyBool ZifyNat ZifyN.
From Verif Require Import Machine Operands OpcodeTrait Opcodes AllOpcodes Tables Decoding Abi
  VersionedHash PricingGen Display DebugText SpecIsa SpecCodec SpecFamilies SpecPricing SpecDisplay SpecDebug.
From Verif Require Import BitLemmas TableProofs TableProofs2 ProofsDisplay ProofsGenerator ProofsMasks.
Import ListNotations.
Open Scope N_scope.

(** ** Trees *)

Lemma tree_ind' (P : tree -> Prop) :
  (forall s, P (Word s)) -> (forall n, P (Number n)) ->
  (forall s cs, Forall P cs -> P (Call s cs)) ->
  (forall s fs, Forall (fun f => P (snd f)) fs -> P (Rec s fs)) ->
  (forall cs, Forall P cs -> P (Seq cs)) -> forall t, P t.
Proof.
  intros Hw Hn Hc Hr Hs. fix IH 1. intros [s|n|s cs|s fs|cs].
  - apply Hw.
  - apply Hn.
  - apply Hc. induction cs as [|c cs IHl]; constructor; [apply IH|exact IHl].
  - apply Hr. induction fs as [|c fs IHl]; constructor; [apply IH|exact IHl].
  - apply Hs. induction cs as [|c cs IHl]; constructor; [apply IH|exact IHl].
Qed.

(** ** Numerals *)

Lemma digit_char d : d < 10 -> digit_value (ascii_of_N (48 + d)) = Some d.
Proof.
  intros H. unfold digit_value. rewrite N_ascii_embedding by lia.
  replace ((48 <=? 48 + d) && (48 + d <=? 57)) with true by lia. f_equal. lia.
Qed.

Lemma digits_upto_numeral fuel : forall n acc, n < 10 ^ N.of_nat fuel -> (0 < fuel)%nat ->
  numeral 10 0 (digits_upto fuel n acc) = numeral 10 n acc.
Proof.
  induction fuel as [|f IH]; intros n acc Hn Hf; [lia|].
  cbn [digits_upto]. rewrite Nat2N.inj_succ, N.pow_succ_r' in Hn.
  assert (M : n mod 10 < 10) by (apply N.mod_lt; discriminate).
  assert (D := N.div_mod n 10 ltac:(discriminate)).
  assert (V : forall a, numeral 10 a (String (ascii_of_N (48 + n mod 10)) acc)
                        = numeral 10 (a * 10 + n mod 10) acc).
  { intros a. cbn [numeral]. rewrite digit_char by exact M.
    replace (n mod 10 <? 10) with true by lia. reflexivity. }
  cbv zeta. destruct (n <? 10) eqn:E.
  - rewrite V. f_equal. rewrite N.mod_small by lia. lia.
  - assert (n / 10 < 10 ^ N.of_nat f) by (apply N.div_lt_upper_bound; lia).
    destruct f as [|f].
    + change (10 ^ N.of_nat 0) with 1 in *. lia.
    + rewrite IH by lia. rewrite V. f_equal. lia.
Qed.

Lemma digits_upto_lead fuel : forall n acc, n < 10 ^ N.of_nat fuel -> 0 < n ->
  exists c r, digits_upto fuel n acc = String c r /\ c <> "0"%char.
Proof.
  induction fuel as [|f IH]; intros n acc Hn Hp; [change (10 ^ N.of_nat 0) with 1 in Hn; lia|].
  cbn [digits_upto]. rewrite Nat2N.inj_succ, N.pow_succ_r' in Hn. cbv zeta.
  destruct (n <? 10) eqn:E.
  - eexists _, _. split; [reflexivity|]. rewrite N.mod_small by lia. intros C.
    assert (V := digit_char n ltac:(lia)). rewrite C in V. injection V as V. lia.
  - apply IH; [apply N.div_lt_upper_bound; lia|].
    apply N.div_str_pos. lia.
Qed.

Lemma digits_decimal n : decimal_text n (digits n).
Proof.
  unfold digits.
  assert (B : n < 10 ^ N.of_nat (S (N.to_nat (N.log2 n)))).
  { rewrite Nat2N.inj_succ, N2Nat.id. destruct (N.eq_dec n 0) as [->|Z]; [reflexivity|].
    assert (L := proj2 (N.log2_spec n ltac:(lia))).
    assert (P := N.pow_le_mono_l 2 10 (N.succ (N.log2 n)) ltac:(lia)). lia. }
  split; [|split].
  - rewrite digits_upto_numeral by (exact B || lia). reflexivity.
  - destruct (N.eq_dec n 0) as [->|Z]; [discriminate|].
    destruct (digits_upto_lead _ n EmptyString B ltac:(lia)) as (c & r & -> & _). discriminate.
  - destruct (N.eq_dec n 0) as [->|Z]; [reflexivity|].
    destruct (digits_upto_lead _ n EmptyString B ltac:(lia)) as (c & r & E & C).
    rewrite E. intros S. exfalso. apply C. cbn in S.
    destruct c as [[] [] [] [] [] [] [] []]; cbn in S; congruence.
Qed.

Lemma digits_fmt n : fmt_u32 n = digits n.
Proof. apply (decimal_unique n); [apply fmt_decimal|apply digits_decimal]. Qed.

Lemma digits_inj n m : digits n = digits m -> n = m.
Proof.
  intros E. destruct (digits_decimal n) as [A _], (digits_decimal m) as [B _].
  rewrite E, B in A. congruence.
Qed.

Lemma numeral_word_chars : forall s acc n, numeral 10 acc s = Some n -> word_chars s = true.
Proof.
  induction s as [|c s IH]; intros acc n H; [reflexivity|]. cbn [numeral] in H.
  cbn [word_chars]. destruct (digit_value c) as [d|] eqn:D; [|discriminate].
  destruct (d <? 10) eqn:L; [|discriminate].
  rewrite (IH _ _ H), andb_true_r. unfold word_char. unfold digit_value in D.
  destruct ((48 <=? N_of_ascii c) && (N_of_ascii c <=? 57)) eqn:A; [reflexivity|].
  destruct ((97 <=? N_of_ascii c) && (N_of_ascii c <=? 102)) eqn:B; [|discriminate].
  injection D as <-. lia.
Qed.

Lemma digits_chars n : word_chars (digits n) = true.
Proof. destruct (digits_decimal n) as [A _]. eapply numeral_word_chars, A. Qed.

Lemma digits_head n : exists c r, digits n = String c r /\
  (48 <=? N_of_ascii c) && (N_of_ascii c <=? 57) = true.
Proof.
  destruct (digits_decimal n) as (A & B & _). destruct (digits n) as [|c r]; [congruence|].
  exists c, r. split; [reflexivity|]. cbn [numeral] in A. unfold digit_value in A.
  destruct ((48 <=? N_of_ascii c) && (N_of_ascii c <=? 57)) eqn:X; [reflexivity|].
  destruct ((97 <=? N_of_ascii c) && (N_of_ascii c <=? 102)) eqn:Y; [|discriminate].
  destruct (N_of_ascii c - 87 <? 10) eqn:Z; [lia|discriminate].
Qed.

(** ** Padding *)

Lemma nl_newline : nl = newline.
Proof. reflexivity. Qed.

Lemma word_not_nl c : word_char c = true -> Ascii.eqb c (ascii_of_N 10) = false.
Proof.
  intros H. destruct (Ascii.eqb_spec c (ascii_of_N 10)) as [->|]; [discriminate H|reflexivity].
Qed.

Lemma is_name_chars s : is_name s = true -> word_chars s = true.
Proof.
  destruct s as [|c r]; [discriminate|]. cbn. intros H.
  apply andb_prop in H as [H Hr]. apply andb_prop in H as [_ H]. rewrite H, Hr. reflexivity.
Qed.

Lemma pad_word s : forall r, word_chars s = true -> pad false (s ++ r) = (s ++ pad false r)%string.
Proof.
  induction s as [|c s IH]; intros r H; [reflexivity|].
  cbn in H |- *. apply andb_prop in H as [Hc Hs]. rewrite word_not_nl by exact Hc.
  rewrite IH by exact Hs. reflexivity.
Qed.

Lemma pad_newline r : pad false (newline ++ r) = (newline ++ pad true r)%string.
Proof. reflexivity. Qed.

Lemma pad_spaces d : forall r, pad false (indent d ++ r) = (indent d ++ pad false r)%string.
Proof. induction d as [|d IH]; intros r; [reflexivity|]. cbn. rewrite IH. reflexivity. Qed.

Lemma pad_true_nonempty s : s <> EmptyString -> pad true s = ("    " ++ pad false s)%string.
Proof. destruct s; [congruence|reflexivity]. Qed.

(** Text at depth [d] is shifted to depth [d + 1] when every line is padded. *)
Definition shifts (f : nat -> string) : Prop :=
  forall d r, pad false (f d ++ r) = (f (S d) ++ pad false r)%string.

Lemma pad_line d s r : s <> EmptyString ->
  pad true ((indent d ++ s) ++ r) = (indent (S d) ++ pad false (s ++ r))%string.
Proof.
  intros H. rewrite app_assoc_s. rewrite pad_true_nonempty.
  - rewrite pad_spaces. cbn [indent]. rewrite app_assoc_s. reflexivity.
  - destruct d; [|discriminate]. destruct s; [congruence|discriminate].
Qed.

Lemma shifts_app f g : shifts f -> shifts g -> shifts (fun d => (f d ++ g d)%string).
Proof.
  intros F G d r. rewrite app_assoc_s, F, G, app_assoc_s. reflexivity.
Qed.

Lemma shifts_word s : word_chars s = true -> shifts (fun _ => s).
Proof. intros H d r. apply pad_word, H. Qed.

Fixpoint plain (s : string) : bool :=
  match s with EmptyString => true
  | String c r => negb (Ascii.eqb c (ascii_of_N 10)) && plain r end.
Lemma shifts_plain s : plain s = true -> shifts (fun _ => s).
Proof.
  intros H d r. induction s as [|c s IH]; [reflexivity|].
  cbn [plain] in H. apply andb_prop in H as [Hc Hs]. cbn [append pad].
  apply negb_true_iff in Hc. rewrite Hc, IH by exact Hs. reflexivity.
Qed.

(** A line break followed by something. *)
Lemma shifts_break k f : shifts f -> (forall d, f d <> EmptyString) ->
  shifts (fun d => (newline ++ indent (k + d) ++ f d)%string).
Proof.
  intros F Z d r. rewrite app_assoc_s, pad_newline.
  rewrite pad_line by apply Z. rewrite F. replace (S (k + d)) with (k + S d)%nat by lia.
  rewrite !app_assoc_s. reflexivity.
Qed.

(** Strings with their first characters. *)
Lemma app_nonempty_r (a b : string) : b <> EmptyString -> (a ++ b)%string <> EmptyString.
Proof. destruct a; [auto|discriminate]. Qed.
Lemma app_nonempty_l (a b : string) : a <> EmptyString -> (a ++ b)%string <> EmptyString.
Proof. destruct a; [congruence|discriminate]. Qed.

Lemma is_name_nonempty s : is_name s = true -> s <> EmptyString.
Proof. destruct s; discriminate. Qed.

Lemma layout_nonempty multi d t : proper t = true -> layout multi d t <> EmptyString.
Proof.
  destruct t as [s|n|s cs|s fs|cs]; cbn [proper layout]; intros H.
  - apply is_name_nonempty, H.
  - destruct (digits_decimal n) as (_ & B & _). exact B.
  - apply andb_prop in H as [H _]. apply andb_prop in H as [H _].
    apply app_nonempty_l, is_name_nonempty, H.
  - apply andb_prop in H as [H _]. apply andb_prop in H as [H _].
    apply app_nonempty_l, is_name_nonempty, H.
  - destruct cs; discriminate.
Qed.

Lemma join_nonempty sep l : l <> [] -> Forall (fun x => x <> EmptyString) l ->
  join sep l <> EmptyString.
Proof.
  intros N F. destruct F as [|x l Hx F]; [congruence|]. cbn. destruct l; [exact Hx|].
  apply app_nonempty_l, Hx.
Qed.

(** The items between two brackets. *)
Lemma shifts_join {A} (f : nat -> A -> string) l :
  Forall (fun x => shifts (fun d => f d x)) l ->
  (forall x d, In x l -> f d x <> EmptyString) ->
  shifts (fun d => join (between true d) (map (f (S d)) l)).
Proof.
  intros F N. induction F as [|x l Fx F IH]; [intros d r; reflexivity|].
  destruct l as [|y l].
  - intros d r. apply (Fx (S d) r).
  - assert (IH' := IH ltac:(intros z d' Hz; apply N; right; exact Hz)). clear IH.
    intros d r.
    change (join (between true d) (map (f (S d)) (x :: y :: l)))
      with (f (S d) x ++ between true d ++ join (between true d) (map (f (S d)) (y :: l)))%string.
    change (join (between true (S d)) (map (f (S (S d))) (x :: y :: l)))
      with (f (S (S d)) x ++ between true (S d)
            ++ join (between true (S d)) (map (f (S (S d))) (y :: l)))%string.
    rewrite app_assoc_s, (Fx (S d)). unfold between at 1 3. rewrite !app_assoc_s. f_equal.
    set (J := fun d => join (between true d) (map (f (S d)) (y :: l))) in *.
    change (join (between true d) (map (f (S d)) (y :: l))) with (J d).
    change (join (between true (S d)) (map (f (S (S d))) (y :: l))) with (J (S d)).
    assert (JN : forall d, J d <> EmptyString).
    { intros d'. apply join_nonempty; [discriminate|]. apply Forall_forall. intros s Hs.
      apply in_map_iff in Hs as (z & <- & Hz). apply N. right. exact Hz. }
    change ("," ++ newline ++ indent (S d) ++ J d ++ r)%string
      with (String "," (newline ++ indent (S d) ++ J d ++ r)).
    change ("," ++ newline ++ indent (S (S d)) ++ J (S d) ++ pad false r)%string
      with (String "," (newline ++ indent (S (S d)) ++ J (S d) ++ pad false r)).
    cbn [pad Ascii.eqb]. change (Ascii.eqb "," (ascii_of_N 10)) with false. f_equal.
    assert (B := shifts_break 1 J IH' JN d r). cbn [Nat.add] in B.
    rewrite !app_assoc_s in B. exact B.
Qed.

Lemma shifts_bracketed {A} opening gap closing (f : nat -> A -> string) l :
  plain opening = true -> plain closing = true -> closing <> EmptyString ->
  l <> [] -> Forall (fun x => shifts (fun d => f d x)) l ->
  (forall x d, In x l -> f d x <> EmptyString) ->
  shifts (fun d => bracketed true d opening gap closing (map (f (S d)) l)).
Proof.
  intros O C CN L F N. unfold bracketed.
  apply (shifts_app (fun _ => opening)); [apply shifts_plain, O|].
  intros d r. rewrite !app_assoc_s. unfold before, after.
  set (J := fun d => join (between true d) (map (f (S d)) l)).
  assert (JN : forall d, J d <> EmptyString).
  { intros d'. apply join_nonempty; [destruct l; [congruence|discriminate]|].
    apply Forall_forall. intros s Hs. apply in_map_iff in Hs as (z & <- & Hz). apply N, Hz. }
  assert (B := shifts_break 1 J (shifts_join f l F N) JN d). cbn [Nat.add] in B.
  change (join (between true d) (map (f (S d)) l)) with (J d).
  change (join (between true (S d)) (map (f (S (S d))) l)) with (J (S d)).
  assert (E := shifts_break 0 (fun _ => closing) (shifts_plain _ C) (fun _ => CN) d r).
  cbn [Nat.add] in E.
  specialize (B (("," ++ newline ++ indent d) ++ closing ++ r)%string).
  rewrite !app_assoc_s in B. rewrite !app_assoc_s. rewrite B. do 3 f_equal.
  change (pad false ("," ++ newline ++ indent d ++ closing ++ r))%string
    with (String "," (pad false (newline ++ indent d ++ closing ++ r))).
  rewrite !app_assoc_s in E. rewrite E. reflexivity.
Qed.

Lemma layout_shifts t : proper t = true -> shifts (fun d => layout true d t).
Proof.
  induction t as [s|n|s cs IH|s fs IH|cs IH] using tree_ind'; cbn [proper]; intros H.
  - apply shifts_word, is_name_chars, H.
  - apply shifts_word, digits_chars.
  - apply andb_prop in H as [H Hc]. apply andb_prop in H as [Hs Hn].
    apply (shifts_app (fun _ => s)); [apply shifts_word, is_name_chars, Hs|].
    rewrite forallb_forall in Hc.
    apply (shifts_bracketed "(" "" ")" (layout true)); try reflexivity; [discriminate| | |].
    + destruct cs; [discriminate Hn|discriminate].
    + rewrite Forall_forall in IH |- *. intros x Hx. apply IH; [exact Hx|apply Hc, Hx].
    + intros x d Hx. apply layout_nonempty, Hc, Hx.
  - apply andb_prop in H as [H Hc]. apply andb_prop in H as [Hs Hn].
    apply (shifts_app (fun _ => s)); [apply shifts_word, is_name_chars, Hs|].
    rewrite forallb_forall in Hc.
    apply (shifts_bracketed " {" " " "}"
      (fun d (f : string * tree) => (fst f ++ ": " ++ layout true d (snd f))%string));
      try reflexivity; [discriminate| | |].
    + destruct fs; [discriminate Hn|discriminate].
    + rewrite Forall_forall in IH |- *. intros x Hx.
      specialize (Hc x Hx). apply andb_prop in Hc as [Hc Hp].
      apply (shifts_app (fun _ => fst x)); [apply shifts_word, is_name_chars, Hc|].
      apply (shifts_app (fun _ => ": "%string)); [apply shifts_plain; reflexivity|].
      apply IH; [exact Hx|exact Hp].
    + intros x d Hx. specialize (Hc x Hx). apply andb_prop in Hc as [Hc Hp].
      apply app_nonempty_l, is_name_nonempty, Hc.
  - rewrite forallb_forall in H. destruct cs as [|c cs].
    + apply shifts_plain. reflexivity.
    + apply (shifts_bracketed "[" "" "]" (layout true)); try reflexivity; [discriminate|discriminate| |].
      * rewrite Forall_forall in IH |- *. intros x Hx. apply IH; [exact Hx|apply H, Hx].
      * intros x d Hx. apply layout_nonempty, H, Hx.
Qed.

(** On one line the depth does not matter. *)
Lemma layout_depth t : forall d, layout false d t = layout false 0 t.
Proof.
  induction t as [s|n|s cs IH|s fs IH|cs IH] using tree_ind'; intros d; try reflexivity.
  - cbn [layout]. f_equal. unfold bracketed. do 2 f_equal. cbn [before between after].
    f_equal. f_equal. apply map_ext_in. intros x Hx. rewrite Forall_forall in IH.
    rewrite (IH x Hx (S d)), (IH x Hx 1%nat). reflexivity.
  - cbn [layout]. f_equal. unfold bracketed. do 2 f_equal. cbn [before between after].
    f_equal. f_equal. apply map_ext_in. intros x Hx. rewrite Forall_forall in IH.
    rewrite (IH x Hx (S d)), (IH x Hx 1%nat). reflexivity.
  - destruct cs as [|c cs]; [reflexivity|]. cbn [layout]. unfold bracketed. do 2 f_equal.
    cbn [before between after]. f_equal. f_equal. apply map_ext_in. intros x Hx.
    rewrite Forall_forall in IH. rewrite (IH x Hx (S d)), (IH x Hx 1%nat). reflexivity.
Qed.

(** ** The builders *)

(** What [writes] says, in the form the builders need it. *)
Definition shows (f : debugged) (t : tree) : Prop := proper t = true /\ writes f t.

Lemma pad_item s t : word_chars s = true -> proper t = true -> forall sep, plain sep = true ->
  pad true (s ++ sep ++ layout true 0 t ++ "," ++ nl)
  = ("    " ++ s ++ sep ++ layout true 1 t ++ "," ++ nl)%string.
Proof.
  intros Hs Ht sep Hsep. rewrite pad_true_nonempty.
  - rewrite pad_word by exact Hs. rewrite (shifts_plain sep Hsep 0%nat).
    rewrite (layout_shifts t Ht 0%nat). reflexivity.
  - apply app_nonempty_r, app_nonempty_r, app_nonempty_r. discriminate.
Qed.

Fixpoint run (multi : bool) (closing : string) (items : list string) : string :=
  match items with
  | [] => closing
  | x :: r => (if multi then "    " ++ x ++ "," ++ nl ++ run multi closing r
               else ", " ++ x ++ run multi closing r)%string
  end.

Lemma run_multi closing x l : run true closing (x :: l) =
  (indent 1 ++ join (between true 0) (x :: l) ++ "," ++ newline ++ closing)%string.
Proof.
  revert x. induction l as [|y l IH]; intros x.
  - cbn [run join indent]. rewrite nl_newline. reflexivity.
  - change (run true closing (x :: y :: l))
      with ("    " ++ x ++ "," ++ nl ++ run true closing (y :: l))%string.
    rewrite IH. change (join (between true 0) (x :: y :: l))
      with (x ++ between true 0 ++ join (between true 0) (y :: l))%string.
    unfold between at 2. rewrite !app_assoc_s. rewrite nl_newline. reflexivity.
Qed.

Lemma run_single closing x l :
  (x ++ run false closing l)%string = (join ", " (x :: l) ++ closing)%string.
Proof.
  revert x. induction l as [|y l IH]; intros x; [reflexivity|].
  change (run false closing (y :: l)) with (", " ++ y ++ run false closing l)%string.
  rewrite IH. change (join ", " (x :: y :: l)) with (x ++ ", " ++ join ", " (y :: l))%string.
  rewrite !app_assoc_s. reflexivity.
Qed.

Lemma app_empty_r (s : string) : (s ++ "")%string = s.
Proof. induction s as [|c s IH]; [reflexivity|]. cbn. rewrite IH. reflexivity. Qed.

Lemma shows_false f t : shows f t -> forall d, f false = layout false d t.
Proof. intros [_ W] d. rewrite layout_depth. apply W. Qed.

Lemma entries_run fs ts : Forall2 shows fs ts -> forall multi,
  debug_entries true fs multi = run multi "]" (map (layout multi 1) ts).
Proof.
  intros F multi. induction F as [|f t fs ts [P W] F IH]; [destruct multi; reflexivity|].
  cbn [debug_entries map run]. destruct multi.
  - rewrite IH, (W true). change (layout true 0 t ++ "," ++ nl)%string
      with ("" ++ "" ++ layout true 0 t ++ "," ++ nl)%string.
    rewrite pad_item by (reflexivity || exact P). cbn [append]. rewrite !app_assoc_s. reflexivity.
  - rewrite IH, (shows_false f t (conj P W) 1%nat). reflexivity.
Qed.

Lemma positions_run fs ts : Forall2 shows fs ts -> forall multi,
  debug_positions true fs multi = run multi ")" (map (layout multi 1) ts).
Proof.
  intros F multi. induction F as [|f t fs ts [P W] F IH]; [destruct multi; reflexivity|].
  cbn [debug_positions map run]. destruct multi.
  - rewrite IH, (W true). change (layout true 0 t ++ "," ++ nl)%string
      with ("" ++ "" ++ layout true 0 t ++ "," ++ nl)%string.
    rewrite pad_item by (reflexivity || exact P). cbn [append]. rewrite !app_assoc_s. reflexivity.
  - rewrite IH, (shows_false f t (conj P W) 1%nat). reflexivity.
Qed.

Definition shows_field (f : string * debugged) (t : string * tree) : Prop :=
  fst f = fst t /\ is_name (fst t) = true /\ shows (snd f) (snd t).

Lemma fields_run fs ts : Forall2 shows_field fs ts -> forall multi,
  debug_fields true fs multi
  = run multi (if multi then "}" else " }")
      (map (fun t => (fst t ++ ": " ++ layout multi 1 (snd t))%string) ts).
Proof.
  intros F multi. induction F as [|f t fs ts (E & Nm & P & W) F IH]; [destruct multi; reflexivity|].
  destruct f as [name f]. cbn [debug_fields map run fst snd] in *. subst name. destruct multi.
  - rewrite IH, (W true).
    rewrite pad_item by (apply is_name_chars, Nm || reflexivity || exact P).
    rewrite !app_assoc_s. reflexivity.
  - rewrite IH, (shows_false f _ (conj P W) 1%nat). rewrite !app_assoc_s. reflexivity.
Qed.

Lemma shows_proper fs ts : Forall2 shows fs ts -> forallb proper ts = true.
Proof. induction 1 as [|f t fs ts [P _] _ IH]; [reflexivity|]. cbn. rewrite P. exact IH. Qed.

Lemma shows_array fs ts : Forall2 shows fs ts -> shows (debug_array fs) (Seq ts).
Proof.
  intros F. split; [exact (shows_proper _ _ F)|]. intros multi. unfold debug_array.
  destruct F as [|f t fs ts Sh F]; [destruct multi; reflexivity|].
  destruct multi.
  - change (debug_entries false (f :: fs) true) with (nl ++ debug_entries true (f :: fs) true)%string.
    rewrite (entries_run (f :: fs) (t :: ts)) by (constructor; assumption).
    cbn [map]. rewrite run_multi. rewrite nl_newline. reflexivity.
  - change (debug_entries false (f :: fs) false) with (f false ++ debug_entries true fs false)%string.
    rewrite (entries_run fs ts F), (shows_false f t Sh 1%nat), run_single. reflexivity.
Qed.

Lemma shows_tuple name f t fs ts : is_name name = true -> shows f t -> Forall2 shows fs ts ->
  shows (debug_named_tuple name (f :: fs)) (Call name (t :: ts)).
Proof.
  intros Nm Sh F. split.
  { cbn [proper]. rewrite Nm. exact (shows_proper (f :: fs) (t :: ts) ltac:(constructor; assumption)). }
  intros multi. unfold debug_named_tuple. cbn [layout]. f_equal. destruct multi.
  - change (debug_positions false (f :: fs) true)
      with ("(" ++ nl ++ debug_positions true (f :: fs) true)%string.
    rewrite (positions_run (f :: fs) (t :: ts)) by (constructor; assumption).
    cbn [map]. rewrite run_multi. rewrite nl_newline. reflexivity.
  - change (debug_positions false (f :: fs) false)
      with ("(" ++ f false ++ debug_positions true fs false)%string.
    rewrite (positions_run fs ts F), (shows_false f t Sh 1%nat), run_single. reflexivity.
Qed.

Lemma shows_struct name f t fs ts : is_name name = true -> Forall2 shows_field (f :: fs) (t :: ts) ->
  shows (debug_struct name (f :: fs)) (Rec name (t :: ts)).
Proof.
  intros Nm F. split.
  { cbn [proper]. rewrite Nm. cbn [andb negb].
    induction F as [|g u gs us (E & M & P & _) F IH]; [reflexivity|].
    cbn [forallb]. rewrite M, P. exact IH. }
  intros multi. unfold debug_struct. cbn [layout]. f_equal. destruct multi.
  - assert (R := fields_run _ _ F true). destruct f as [n f].
    change (debug_fields false ((n, f) :: fs) true)
      with (" {" ++ nl ++ debug_fields true ((n, f) :: fs) true)%string.
    rewrite R. cbn [map]. rewrite run_multi. rewrite nl_newline. reflexivity.
  - inversion F as [|? ? ? ? Sh F']; subst. assert (R := fields_run _ _ F' false).
    destruct f as [n f], t as [m t], Sh as (E & M & Sh). cbn [fst snd] in *. subst n.
    change (debug_fields false ((m, f) :: fs) false)
      with (" {" ++ " " ++ m ++ ": " ++ f false ++ debug_fields true fs false)%string.
    rewrite R, (shows_false f t Sh 1%nat). unfold bracketed. cbn [before between after map].
    do 2 f_equal.
    change (" " ++ "}")%string with " }"%string. rewrite <- run_single.
    cbn [fst snd]. rewrite !app_assoc_s. reflexivity.
Qed.

Lemma shows_unit s : is_name s = true -> shows (debug_unit s) (Word s).
Proof. intros H. split; [exact H|intros multi; reflexivity]. Qed.
Lemma shows_int n : shows (debug_int n) (Number n).
Proof. split; [reflexivity|]. intros multi. apply digits_fmt. Qed.
Lemma shows_bool b : shows (debug_bool b) (bool_tree b).
Proof. destruct b; split; reflexivity || intros multi; reflexivity. Qed.

(** ** The values *)

Ltac fields := apply shows_struct; [reflexivity|];
  repeat (apply Forall2_cons; [split; [reflexivity|split; [reflexivity|]]; cbn [snd]|]);
  try apply Forall2_nil; try apply shows_int; try apply shows_bool.

Lemma shows_opcode o : shows (Opcode_fmt o) (opcode_tree o).
Proof.
  destruct o as [i|i|i|i|i|i|i|i|i|i|i|i|i|i|i|i]; destruct i;
    (apply shows_tuple; [reflexivity| |constructor]; apply shows_unit; reflexivity).
Qed.
Lemma shows_operand o : shows (Operand_fmt o) (operand_tree o).
Proof.
  destruct o as [|f|f]; [apply shows_unit; reflexivity| |]; destruct f;
    (apply shows_tuple; [reflexivity| |constructor]; apply shows_unit; reflexivity).
Qed.
Lemma shows_variant x : shows (OpcodeVariant_fmt x) (variant_tree x).
Proof.
  fields; [apply shows_opcode|apply shows_operand|apply shows_operand|].
  apply shows_array. repeat constructor; destruct (flags x) as [[] []]; reflexivity.
Qed.
Lemma shows_condition c : shows (debug_unit (Condition_debug c)) (condition_tree c).
Proof. destruct c; apply shows_unit; reflexivity. Qed.
Lemma shows_instruction d : shows (DecodedOpcode_fmt d) (instruction_tree d).
Proof. fields; [apply shows_variant|apply shows_condition]. Qed.
Lemma shows_index x : shows (VariantMonotonicNumber_fmt x) (index_tree x).
Proof. apply shows_tuple; [reflexivity|apply shows_int|constructor]. Qed.
Lemma shows_version x : shows (ISAVersion_fmt x) (version_tree x).
Proof. apply shows_tuple; [reflexivity|apply shows_int|constructor]. Qed.
Lemma shows_variant_data x : shows (OpcodeVariantData_fmt x) (variant_data_tree x).
Proof. fields. Qed.
Lemma shows_pointer x : shows (FatPointer_fmt x) (pointer_tree x).
Proof. fields. Qed.
Lemma shows_far_page x : shows (FarCallForwardPageType_fmt x) (far_page_tree x).
Proof. destruct x; apply shows_unit; reflexivity. Qed.
Lemma shows_ret_page x : shows (RetForwardPageType_fmt x) (ret_page_tree x).
Proof. destruct x; apply shows_unit; reflexivity. Qed.
Lemma shows_far_call x : shows (FarCallABI_fmt x) (far_call_tree x).
Proof. fields; [apply shows_pointer|apply shows_far_page]. Qed.
Lemma shows_ret x : shows (RetABI_fmt x) (ret_tree x).
Proof. fields; [apply shows_pointer|apply shows_ret_page]. Qed.
Lemma shows_near_call x : shows (NearCallABI_fmt x) (near_call_tree x).
Proof. fields. Qed.
Lemma shows_precompile x : shows (PrecompileCallABI_fmt x) (precompile_tree x).
Proof. fields. Qed.
Lemma shows_precompile_inner x : shows (PrecompileCallInnerABI_fmt x) (precompile_inner_tree x).
Proof. fields. Qed.
Lemma shows_meta x : shows (VmMetaParameters_fmt x) (meta_tree x).
Proof. fields. Qed.
Lemma shows_storage x : shows (ContractCodeSha256Storage_fmt x) (storage_tree x).
Proof.
  fields. apply shows_array. induction (partial_hash x); constructor; [apply shows_int|assumption].
Qed.
Lemma shows_hash x : shows (VersionedHash_fmt x) (hash_tree x).
Proof. fields. apply shows_storage. Qed.

(** ** Reading a text back *)

Definition stop (r : string) : bool :=
  match r with EmptyString => true | String c _ => negb (word_char c) end.
(** What may follow an item. *)
Definition follows (r : string) : bool :=
  match r with
  | EmptyString => true
  | String "," _ | String ")" _ | String "]" _ => true
  | String " " (String "}" _) => true
  | _ => false
  end.

Lemma word_split s s' r r' : word_chars s = true -> word_chars s' = true ->
  stop r = true -> stop r' = true -> (s ++ r)%string = (s' ++ r')%string -> s = s' /\ r = r'.
Proof.
  revert s'. induction s as [|c s IH]; intros s' H H' R R' E.
  - destruct s' as [|c' s']; [auto|]. cbn in E. subst r. cbn in R, H'.
    apply andb_prop in H' as [H' _]. rewrite H' in R. discriminate.
  - cbn in H. apply andb_prop in H as [Hc Hs]. destruct s' as [|c' s'].
    + cbn in E. subst r'. cbn in R'. rewrite Hc in R'. discriminate.
    + cbn in E, H'. apply andb_prop in H' as [_ Hs']. injection E as <- E.
      destruct (IH s' Hs Hs' R R' E) as [<- <-]. auto.
Qed.

Lemma follows_stop r : follows r = true -> stop r = true.
Proof.
  destruct r as [|c r]; [reflexivity|].
  destruct c as [[] [] [] [] [] [] [] []]; try reflexivity; cbn; discriminate.
Qed.

(** The leading word of everything but a sequence, and what comes after it. *)
Definition head_of (t : tree) : string :=
  match t with Word s => s | Number n => digits n | Call s _ => s | Rec s _ => s
  | Seq _ => EmptyString end.
Definition tail_of (multi : bool) (d : nat) (t : tree) : string :=
  match t with
  | Word _ | Number _ => EmptyString
  | Call _ cs => bracketed multi d "(" "" ")" (map (layout multi (S d)) cs)
  | Rec _ fs => bracketed multi d " {" " " "}"
              (map (fun f => (fst f ++ ": " ++ layout multi (S d) (snd f))%string) fs)
  | Seq _ => layout multi d t
  end.

Lemma head_tail multi d t : layout multi d t = (head_of t ++ tail_of multi d t)%string.
Proof. destruct t; try reflexivity; cbn [head_of tail_of layout]; rewrite app_empty_r; reflexivity. Qed.

Lemma head_chars t : proper t = true -> word_chars (head_of t) = true.
Proof.
  destruct t as [s|n|s cs|s fs|cs]; cbn [proper head_of]; intros H.
  - apply is_name_chars, H.
  - apply digits_chars.
  - apply andb_prop in H as [H _]. apply andb_prop in H as [H _]. apply is_name_chars, H.
  - apply andb_prop in H as [H _]. apply andb_prop in H as [H _]. apply is_name_chars, H.
  - reflexivity.
Qed.

Lemma tail_stop multi d t r : follows r = true -> stop (tail_of multi d t ++ r) = true.
Proof.
  intros H. destruct t as [s|n|s cs|s fs|cs]; cbn [tail_of].
  - apply follows_stop, H.
  - apply follows_stop, H.
  - reflexivity.
  - reflexivity.
  - destruct cs; reflexivity.
Qed.

Lemma name_not_digits s n : is_name s = true -> s <> digits n.
Proof.
  intros H E. destruct (digits_head n) as (c & r & Ed & D). rewrite Ed in E. subst s.
  cbn [is_name] in H. rewrite D in H. discriminate.
Qed.
Lemma digits_nonempty n : digits n <> EmptyString.
Proof. destruct (digits_decimal n) as (_ & B & _). exact B. Qed.

(** *** Items between brackets *)

Inductive closes : string -> ascii -> Prop :=
| closes_paren : closes "" ")"
| closes_square : closes "" "]"
| closes_brace : closes " " "}".

Lemma between_follows multi d r : follows (between multi d ++ r) = true.
Proof. destruct multi; reflexivity. Qed.
Lemma after_follows multi d gap c r : closes gap c -> follows (after multi d gap ++ String c r) = true.
Proof. intros [| |]; destruct multi; reflexivity. Qed.

Lemma strip_s (p a b : string) : (p ++ a)%string = (p ++ b)%string -> a = b.
Proof. induction p as [|c p IH]; cbn; [auto|]. intros E. injection E as E. apply IH, E. Qed.

Lemma indent_S d : indent (S d) = (indent d ++ "    ")%string.
Proof.
  induction d as [|d IH]; [reflexivity|].
  change (indent (S (S d))) with ("    " ++ indent (S d))%string.
  rewrite IH at 1. rewrite <- app_assoc_s. reflexivity.
Qed.

Lemma between_after multi d gap c r r' : closes gap c ->
  (between multi d ++ r)%string <> (after multi d gap ++ String c r')%string.
Proof.
  intros C E. destruct multi.
  - unfold between, after in E. rewrite indent_S, !app_assoc_s in E.
    apply (strip_s ",") in E. apply strip_s in E. apply strip_s in E.
    destruct C; discriminate E.
  - destruct C; discriminate E.
Qed.

Lemma join_inj {A} (g : A -> string) (ok : A -> Prop) multi d gap c : closes gap c ->
  forall xs, Forall (fun x => ok x /\ forall y, ok y -> forall r r', follows r = true -> follows r' = true ->
      (g x ++ r)%string = (g y ++ r')%string -> x = y /\ r = r') xs ->
  forall ys, Forall ok ys -> xs <> [] -> ys <> [] -> forall r r',
  (join (between multi d) (map g xs) ++ after multi d gap ++ String c r)%string
  = (join (between multi d) (map g ys) ++ after multi d gap ++ String c r')%string ->
  xs = ys /\ r = r'.
Proof.
  intros C xs F. induction F as [|x xs [Ox Ix] F IH]; intros ys G Nx Ny r r' E; [congruence|].
  destruct G as [|y ys Oy G]; [congruence|]. clear Nx Ny.
  destruct xs as [|x2 xs], ys as [|y2 ys].
  - cbn [map join] in E. apply Ix in E as [<- E]; [|exact Oy|apply after_follows, C..].
    apply strip_s in E. injection E as <-. auto.
  - cbn [map] in E. change (join (between multi d) (g y :: g y2 :: map g ys))
      with (g y ++ between multi d ++ join (between multi d) (map g (y2 :: ys)))%string in E.
    cbn [join] in E. rewrite !app_assoc_s in E.
    apply Ix in E as [_ E]; [|exact Oy|apply after_follows, C|apply between_follows].
    exfalso. symmetry in E. exact (between_after _ _ _ _ _ _ C E).
  - cbn [map] in E. change (join (between multi d) (g x :: g x2 :: map g xs))
      with (g x ++ between multi d ++ join (between multi d) (map g (x2 :: xs)))%string in E.
    cbn [join] in E. rewrite !app_assoc_s in E.
    apply Ix in E as [_ E]; [|exact Oy|apply between_follows|apply after_follows, C].
    exfalso. exact (between_after _ _ _ _ _ _ C E).
  - change (join (between multi d) (map g (x :: x2 :: xs)))
      with (g x ++ between multi d ++ join (between multi d) (map g (x2 :: xs)))%string in E.
    change (join (between multi d) (map g (y :: y2 :: ys)))
      with (g y ++ between multi d ++ join (between multi d) (map g (y2 :: ys)))%string in E.
    rewrite !app_assoc_s in E.
    apply Ix in E as [<- E]; [|exact Oy|apply between_follows..].
    apply strip_s in E. apply (IH (y2 :: ys) G) in E as [E <-]; [|discriminate..].
    rewrite E. auto.
Qed.

Lemma bracketed_inj {A} (g : A -> string) (ok : A -> Prop) multi d opening gap c : closes gap c ->
  forall xs, Forall (fun x => ok x /\ forall y, ok y -> forall r r', follows r = true -> follows r' = true ->
      (g x ++ r)%string = (g y ++ r')%string -> x = y /\ r = r') xs ->
  forall ys, Forall ok ys -> xs <> [] -> ys <> [] -> forall r r',
  (bracketed multi d opening gap (String c "") (map g xs) ++ r)%string
  = (bracketed multi d opening gap (String c "") (map g ys) ++ r')%string ->
  xs = ys /\ r = r'.
Proof.
  intros C xs F ys G Nx Ny r r' E. unfold bracketed in E. rewrite !app_assoc_s in E.
  apply strip_s in E. apply strip_s in E. cbn [append] in E.
  exact (join_inj g ok multi d gap c C xs F ys G Nx Ny r r' E).
Qed.

Lemma nonempty_list {A} (l : list A) : negb (match l with [] => true | _ => false end) = true -> l <> [].
Proof. destruct l; discriminate. Qed.

Lemma forallb_Forall {A} (f : A -> bool) l : forallb f l = true -> Forall (fun x => f x = true) l.
Proof. rewrite forallb_forall, Forall_forall. auto. Qed.

(** No item starts with a closing bracket. *)
Lemma layout_head multi d t : proper t = true -> exists c s, layout multi d t = String c s /\ c <> "]"%char.
Proof.
  destruct t as [s|n|s cs|s fs|cs]; cbn [proper layout]; intros H.
  4: apply andb_prop in H as [H _]; apply andb_prop in H as [H _].
  3: apply andb_prop in H as [H _]; apply andb_prop in H as [H _].
  1,3,4: destruct s as [|c s]; [discriminate|]; eexists _, _; split; [reflexivity|];
    intros ->; discriminate H.
  - destruct (digits_head n) as (c & r & -> & D). eexists _, _. split; [reflexivity|].
    intros ->. discriminate D.
  - destruct cs; eexists _, _; (split; [reflexivity|discriminate]).
Qed.
Lemma seq_empty multi d x (xs : list tree) r q : proper x = true ->
  ("]" ++ r)%string <> (before multi d "" ++ join (between multi d) (map (layout multi (S d)) (x :: xs)) ++ q)%string.
Proof.
  intros P E. destruct multi; [discriminate E|]. cbn [before append] in E.
  destruct (layout_head false (S d) x P) as (c & s & L & C). cbn [map] in E.
  destruct xs as [|y xs]; cbn [map join] in E; rewrite L in E; injection E as <- _; congruence.
Qed.

Lemma layout_inj multi t : proper t = true -> forall d t', proper t' = true ->
  forall r r', follows r = true -> follows r' = true ->
  (layout multi d t ++ r)%string = (layout multi d t' ++ r')%string -> t = t' /\ r = r'.
Proof.
  induction t as [s|n|s cs IH|s fs IH|cs IH] using tree_ind'; intros P d t' P' r r' R R' E;
    rewrite (head_tail multi d t') in E.
  all: rewrite head_tail in E.
  all: rewrite !app_assoc_s in E.
  all: apply word_split in E as [Eh E]; [|solve [apply head_chars; assumption|apply tail_stop; assumption]..].
  - cbn [head_of tail_of append proper] in *. destruct t' as [s'|n'|s' cs'|s' fs'|cs'];
      cbn [head_of tail_of append proper] in *.
    + subst. auto.
    + exfalso. exact (name_not_digits _ _ P Eh).
    + subst. discriminate R.
    + subst. discriminate R.
    + subst. discriminate.
  - cbn [head_of tail_of append proper] in *. destruct t' as [s'|n'|s' cs'|s' fs'|cs'];
      cbn [head_of tail_of append proper] in *.
    + exfalso. symmetry in Eh. exact (name_not_digits _ _ P' Eh).
    + apply digits_inj in Eh. subst. auto.
    + subst. discriminate R.
    + subst. discriminate R.
    + exfalso. exact (digits_nonempty _ Eh).
  - destruct t' as [s'|n'|s' cs'|s' fs'|cs'];
      cbn [head_of tail_of proper] in *.
    + cbn [append] in E. subst r'. discriminate R'.
    + cbn [append] in E. subst r'. discriminate R'.
    + subst s'. apply andb_prop in P as [P Pc]. apply andb_prop in P as [_ Pn].
      apply andb_prop in P' as [P' Pc']. apply andb_prop in P' as [_ Pn'].
      apply (bracketed_inj _ (fun t => proper t = true) _ _ _ _ ")" closes_paren) in E as [<- <-];
        [auto| |apply forallb_Forall, Pc'|apply nonempty_list; assumption..].
      rewrite forallb_forall in Pc. rewrite Forall_forall in IH |- *. intros x Hx.
      split; [apply Pc, Hx|]. intros y Hy. apply IH; [exact Hx|apply Pc, Hx|exact Hy].
    + discriminate E.
    + subst s. discriminate P.
  - destruct t' as [s'|n'|s' cs'|s' fs'|cs'];
      cbn [head_of tail_of proper] in *.
    + cbn [append] in E. subst r'. discriminate R'.
    + cbn [append] in E. subst r'. discriminate R'.
    + discriminate E.
    + subst s'. apply andb_prop in P as [P Pc]. apply andb_prop in P as [_ Pn].
      apply andb_prop in P' as [P' Pc']. apply andb_prop in P' as [_ Pn'].
      apply (bracketed_inj _ (fun f => is_name (fst f) && proper (snd f) = true) _ _ _ _ "}" closes_brace)
        in E as [<- <-];
        [auto| |apply forallb_Forall, Pc'|apply nonempty_list; assumption..].
      rewrite forallb_forall in Pc. rewrite Forall_forall in IH |- *. intros x Hx.
      specialize (IH x Hx). specialize (Pc x Hx). split; [exact Pc|].
      intros y Hy q q' Q Q' X. apply andb_prop in Pc as [Nx Px]. apply andb_prop in Hy as [Ny Py].
      rewrite !app_assoc_s in X.
      apply word_split in X as [X1 X]; [|solve [apply is_name_chars; assumption|reflexivity]..].
      apply (strip_s ": ") in X. apply (IH Px) in X as [X2 X3]; [|assumption..].
      destruct x, y; cbn in *; subst; auto.
    + subst s. discriminate P.
  - destruct t' as [s'|n'|s' cs'|s' fs'|cs']; cbn [head_of tail_of proper] in *.
    + subst s'. discriminate P'.
    + exfalso. symmetry in Eh. exact (digits_nonempty _ Eh).
    + subst s'. discriminate P'.
    + subst s'. discriminate P'.
    + destruct cs as [|x cs], cs' as [|x' cs'].
      * cbn in E. injection E as <-. auto.
      * exfalso. cbn [layout] in E. unfold bracketed in E. rewrite !app_assoc_s in E.
        apply (strip_s "[") in E. apply andb_prop in P' as [P' _].
        exact (seq_empty _ _ _ _ _ _ P' E).
      * exfalso. cbn [layout] in E. unfold bracketed in E. rewrite !app_assoc_s in E.
        apply (strip_s "[") in E. apply andb_prop in P as [P _]. symmetry in E.
        exact (seq_empty _ _ _ _ _ _ P E).
      * apply (bracketed_inj _ (fun t => proper t = true) _ _ _ _ "]" closes_square) in E as [<- <-];
          [auto| |apply forallb_Forall, P'|discriminate..].
        rewrite forallb_forall in P. rewrite Forall_forall in IH |- *. intros y Hy.
        split; [apply P, Hy|]. intros z Hz. apply IH; [exact Hy|apply P, Hy|exact Hz].
Qed.

(** ** C79 *)

Lemma pf_C79_digits : forall n, decimal_text n (digits n).
Proof. exact digits_decimal. Qed.

(** Every value is written as its tree, on one line and over several. *)
Lemma pf_C79_instructions :
  (forall o, writes (Opcode_fmt o) (opcode_tree o)) /\
  (forall o, writes (Operand_fmt o) (operand_tree o)) /\
  (forall x, writes (OpcodeVariant_fmt x) (variant_tree x)) /\
  (forall d, writes (DecodedOpcode_fmt d) (instruction_tree d)) /\
  (forall x, writes (VariantMonotonicNumber_fmt x) (index_tree x)) /\
  (forall x, writes (ISAVersion_fmt x) (version_tree x)) /\
  (forall x, writes (OpcodeVariantData_fmt x) (variant_data_tree x)).
Proof.
  repeat split; intros x; [apply shows_opcode|apply shows_operand|apply shows_variant
    |apply shows_instruction|apply shows_index|apply shows_version|apply shows_variant_data].
Qed.

Lemma pf_C79_abis :
  (forall x, writes (FatPointer_fmt x) (pointer_tree x)) /\
  (forall x, writes (FarCallForwardPageType_fmt x) (far_page_tree x)) /\
  (forall x, writes (FarCallABI_fmt x) (far_call_tree x)) /\
  (forall x, writes (RetForwardPageType_fmt x) (ret_page_tree x)) /\
  (forall x, writes (RetABI_fmt x) (ret_tree x)) /\
  (forall x, writes (NearCallABI_fmt x) (near_call_tree x)) /\
  (forall x, writes (PrecompileCallABI_fmt x) (precompile_tree x)) /\
  (forall x, writes (PrecompileCallInnerABI_fmt x) (precompile_inner_tree x)) /\
  (forall x, writes (VmMetaParameters_fmt x) (meta_tree x)) /\
  (forall x, writes (ContractCodeSha256Storage_fmt x) (storage_tree x)) /\
  (forall x, writes (VersionedHash_fmt x) (hash_tree x)).
Proof.
  repeat split; intros x; [apply shows_pointer|apply shows_far_page|apply shows_far_call
    |apply shows_ret_page|apply shows_ret|apply shows_near_call|apply shows_precompile
    |apply shows_precompile_inner|apply shows_meta|apply shows_storage|apply shows_hash].
Qed.

(** Either layout can be read back. *)
Lemma pf_C79_readable : forall multi t t', proper t = true -> proper t' = true ->
  layout multi 0 t = layout multi 0 t' -> t = t'.
Proof.
  intros multi t t' P P' E.
  apply (layout_inj multi t P 0%nat t' P' EmptyString EmptyString eq_refl eq_refl).
  rewrite E. reflexivity.
Qed.

Lemma telling_of {A} (f : A -> debugged) (tr : A -> tree) :
  (forall x, shows (f x) (tr x)) -> (forall x y, tr x = tr y -> x = y) -> telling f.
Proof.
  intros Sh I multi x y E. destruct (Sh x) as [Px Wx], (Sh y) as [Py Wy].
  rewrite (Wx multi), (Wy multi) in E. apply I. exact (pf_C79_readable _ _ _ Px Py E).
Qed.

Lemma opcode_tree_inj x y : opcode_tree x = opcode_tree y -> x = y.
Proof.
  intros E. apply opcode_debug_inj. rewrite !opcode_text_eq. 
  assert (H : forall o, layout false 0 (opcode_tree o) = opcode_text o) by reflexivity.
  rewrite <- !H, E. reflexivity.
Qed.
Lemma operand_tree_inj x y : operand_tree x = operand_tree y -> x = y.
Proof.
  destruct x as [|[]|[]], y as [|[]|[]]; intros E; reflexivity || discriminate E.
Qed.
Lemma bool_text_inj x y : bool_text x = bool_text y -> x = y.
Proof. destruct x, y; intros E; reflexivity || discriminate E. Qed.
Lemma variant_tree_inj x y : variant_tree x = variant_tree y -> x = y.
Proof.
  destruct x as [o a b [f g]], y as [o' a' b' [f' g']]. unfold variant_tree. cbn [opcode
    src0_operand_type dst0_operand_type flags fst snd].
  generalize (opcode_tree_inj o o') (operand_tree_inj a a') (operand_tree_inj b b').
  generalize (opcode_tree o) (opcode_tree o') (operand_tree a) (operand_tree a')
    (operand_tree b) (operand_tree b'). intros t1 t2 t3 t4 t5 t6 I1 I2 I3 E.
  injection E as E1 E2 E3 E4 E5. apply bool_text_inj in E4. apply bool_text_inj in E5.
  rewrite (I1 E1), (I2 E2), (I3 E3), E4, E5. reflexivity.
Qed.
Lemma condition_tree_inj x y : condition_tree x = condition_tree y -> x = y.
Proof. destruct x, y; intros E; reflexivity || discriminate E. Qed.
Lemma instruction_tree_inj x y : instruction_tree x = instruction_tree y -> x = y.
Proof.
  destruct x as [v c a0 a1 a2 a3 i0 i1], y as [v' c' b0 b1 b2 b3 j0 j1]. unfold instruction_tree.
  cbn [variant condition src0_reg_idx src1_reg_idx dst0_reg_idx dst1_reg_idx imm_0 imm_1].
  generalize (variant_tree_inj v v') (condition_tree_inj c c').
  generalize (variant_tree v) (variant_tree v') (condition_tree c) (condition_tree c').
  intros t1 t2 t3 t4 I1 I2 E. injection E as E1 E2. rewrite (I1 E1), (I2 E2). congruence.
Qed.
Lemma pointer_tree_inj x y : pointer_tree x = pointer_tree y -> x = y.
Proof. destruct x, y. unfold pointer_tree. cbn. intros E. congruence. Qed.
Lemma far_page_tree_inj x y : far_page_tree x = far_page_tree y -> x = y.
Proof. destruct x, y; intros E; reflexivity || discriminate E. Qed.
Lemma ret_page_tree_inj x y : ret_page_tree x = ret_page_tree y -> x = y.
Proof. destruct x, y; intros E; reflexivity || discriminate E. Qed.
Lemma far_call_tree_inj x y : far_call_tree x = far_call_tree y -> x = y.
Proof.
  destruct x as [p a b m c d], y as [p' a' b' m' c' d']. unfold far_call_tree.
  cbn [fc_memory_quasi_fat_pointer fc_ergs_passed fc_shard_id fc_forwarding_mode
    fc_constructor_call fc_to_system].
  generalize (pointer_tree_inj p p') (far_page_tree_inj m m').
  generalize (pointer_tree p) (pointer_tree p') (far_page_tree m) (far_page_tree m').
  intros t1 t2 t3 t4 I1 I2 E. injection E as E1 E2 E3 E4 E5 E6.
  apply bool_text_inj in E5. apply bool_text_inj in E6. rewrite (I1 E1), (I2 E4). congruence.
Qed.
Lemma ret_tree_inj x y : ret_tree x = ret_tree y -> x = y.
Proof.
  destruct x as [p m], y as [p' m']. unfold ret_tree.
  cbn [ret_memory_quasi_fat_pointer ret_page_forwarding_mode].
  generalize (pointer_tree_inj p p') (ret_page_tree_inj m m').
  generalize (pointer_tree p) (pointer_tree p') (ret_page_tree m) (ret_page_tree m').
  intros t1 t2 t3 t4 I1 I2 E. injection E as E1 E2. rewrite (I1 E1), (I2 E2). reflexivity.
Qed.
Lemma storage_tree_inj x y : storage_tree x = storage_tree y -> x = y.
Proof.
  destruct x as [a b h], y as [a' b' h']. unfold storage_tree.
  cbn [code_length_in_words extra_marker partial_hash]. intros E. injection E as E1 E2 E3.
  assert (h = h') as <-.
  { clear E1 E2. revert h' E3. induction h as [|x h IH]; intros [|y h'] E; try discriminate; [reflexivity|].
    injection E as <- E. rewrite (IH h' E). reflexivity. }
  rewrite E1, E2. reflexivity.
Qed.

(** Values with the same text, in either form, are the same. *)
Lemma pf_C79_telling :
  telling Opcode_fmt /\ telling Operand_fmt /\ telling OpcodeVariant_fmt /\
  telling DecodedOpcode_fmt /\ telling VariantMonotonicNumber_fmt /\ telling ISAVersion_fmt /\
  telling OpcodeVariantData_fmt /\ telling FatPointer_fmt /\ telling FarCallForwardPageType_fmt /\
  telling FarCallABI_fmt /\ telling RetForwardPageType_fmt /\ telling RetABI_fmt /\
  telling NearCallABI_fmt /\ telling PrecompileCallABI_fmt /\ telling PrecompileCallInnerABI_fmt /\
  telling VmMetaParameters_fmt /\ telling ContractCodeSha256Storage_fmt /\ telling VersionedHash_fmt.
Proof.
  refine (conj (telling_of _ _ shows_opcode opcode_tree_inj) _).
  refine (conj (telling_of _ _ shows_operand operand_tree_inj) _).
  refine (conj (telling_of _ _ shows_variant variant_tree_inj) _).
  refine (conj (telling_of _ _ shows_instruction instruction_tree_inj) _).
  refine (conj (telling_of _ _ shows_index _) _).
  { intros [x] [y] E. unfold index_tree in E. cbn in E. congruence. }
  refine (conj (telling_of _ _ shows_version _) _).
  { intros x y E. unfold version_tree in E. congruence. }
  refine (conj (telling_of _ _ shows_variant_data _) _).
  { intros [x x' x''] [y y' y''] E. unfold variant_data_tree in E. cbn in E. congruence. }
  refine (conj (telling_of _ _ shows_pointer pointer_tree_inj) _).
  refine (conj (telling_of _ _ shows_far_page far_page_tree_inj) _).
  refine (conj (telling_of _ _ shows_far_call far_call_tree_inj) _).
  refine (conj (telling_of _ _ shows_ret_page ret_page_tree_inj) _).
  refine (conj (telling_of _ _ shows_ret ret_tree_inj) _).
  refine (conj (telling_of _ _ shows_near_call _) _).
  { intros [x] [y] E. unfold near_call_tree in E. cbn in E. congruence. }
  refine (conj (telling_of _ _ shows_precompile _) _).
  { intros x y E. destruct x, y. unfold precompile_tree in E. cbn in E. congruence. }
  refine (conj (telling_of _ _ shows_precompile_inner _) _).
  { intros x y E. destruct x, y. unfold precompile_inner_tree in E. cbn in E. congruence. }
  refine (conj (telling_of _ _ shows_meta _) _).
  { intros x y E. destruct x, y. unfold meta_tree in E. cbn in E. congruence. }
  refine (conj (telling_of _ _ shows_storage storage_tree_inj) _).
  apply (telling_of _ _ shows_hash).
  intros [x] [y] E. unfold hash_tree in E. cbn [data] in E. f_equal. apply storage_tree_inj.
  generalize dependent (storage_tree x). generalize dependent (storage_tree y).
  intros t u E. injection E as E. exact E.
Qed.

(** The one-line form is one line. *)
Lemma one_line_app a b : one_line a -> one_line b -> one_line (a ++ b).
Proof. induction a as [|c a IH]; [auto|]. cbn. intros [H Ha] Hb. auto. Qed.
Lemma one_line_word s : word_chars s = true -> one_line s.
Proof.
  induction s as [|c s IH]; cbn; [auto|]. intros H. apply andb_prop in H as [Hc Hs].
  split; [|auto]. intros ->. discriminate Hc.
Qed.
Lemma one_line_join sep l : one_line sep -> Forall one_line l -> one_line (join sep l).
Proof.
  intros Hs F. induction F as [|x l Hx F IH]; [exact I|]. destruct l as [|y l]; [exact Hx|].
  change (join sep (x :: y :: l)) with (x ++ sep ++ join sep (y :: l))%string.
  apply one_line_app; [exact Hx|]. apply one_line_app; [exact Hs|exact IH].
Qed.
Lemma one_line_bracketed d opening gap closing l :
  one_line opening -> one_line gap -> one_line closing -> Forall one_line l ->
  one_line (bracketed false d opening gap closing l).
Proof.
  intros O G C F. unfold bracketed. cbn [before between after].
  repeat apply one_line_app; try assumption. apply one_line_join; [|exact F].
  repeat split; discriminate.
Qed.
Ltac lit := repeat split; discriminate.

Lemma one_line_layout t : proper t = true -> forall d, one_line (layout false d t).
Proof.
  induction t as [s|n|s cs IH|s fs IH|cs IH] using tree_ind'; cbn [proper]; intros H d.
  - apply one_line_word, is_name_chars, H.
  - apply one_line_word, digits_chars.
  - apply andb_prop in H as [H Hc]. apply andb_prop in H as [Hs _]. rewrite forallb_forall in Hc.
    cbn [layout]. apply one_line_app; [apply one_line_word, is_name_chars, Hs|].
    apply one_line_bracketed; try lit. rewrite Forall_forall in IH |- *. intros x Hx.
    apply in_map_iff in Hx as (t & <- & Ht). apply IH; [exact Ht|apply Hc, Ht].
  - apply andb_prop in H as [H Hc]. apply andb_prop in H as [Hs _]. rewrite forallb_forall in Hc.
    cbn [layout]. apply one_line_app; [apply one_line_word, is_name_chars, Hs|].
    apply one_line_bracketed; try lit. rewrite Forall_forall in IH |- *. intros x Hx.
    apply in_map_iff in Hx as (t & <- & Ht). specialize (Hc t Ht). apply andb_prop in Hc as [Hn Hp].
    apply one_line_app; [apply one_line_word, is_name_chars, Hn|].
    apply one_line_app; [lit|]. apply IH; [exact Ht|exact Hp].
  - rewrite forallb_forall in H. destruct cs as [|c cs]; [lit|].
    cbn [layout]. apply one_line_bracketed; try lit. rewrite Forall_forall in IH |- *. intros x Hx.
    apply in_map_iff in Hx as (t & <- & Ht). apply IH; [exact Ht|apply H, Ht].
Qed.

Lemma shows_one_line f t : shows f t -> one_line (f false).
Proof. intros [P W]. rewrite (W false). apply one_line_layout, P. Qed.

Lemma pf_C79_one_line :
  (forall d, one_line (DecodedOpcode_fmt d false)) /\ (forall x, one_line (OpcodeVariant_fmt x false)) /\
  (forall x, one_line (FatPointer_fmt x false)) /\ (forall x, one_line (FarCallABI_fmt x false)) /\
  (forall x, one_line (RetABI_fmt x false)) /\ (forall x, one_line (NearCallABI_fmt x false)) /\
  (forall x, one_line (PrecompileCallABI_fmt x false)) /\
  (forall x, one_line (PrecompileCallInnerABI_fmt x false)) /\
  (forall x, one_line (VmMetaParameters_fmt x false)) /\ (forall x, one_line (VersionedHash_fmt x false)).
Proof.
  repeat match goal with |- _ /\ _ => split end; intros x; eapply shows_one_line; [apply shows_instruction|apply shows_variant
    |apply shows_pointer|apply shows_far_call|apply shows_ret|apply shows_near_call
    |apply shows_precompile|apply shows_precompile_inner|apply shows_meta|apply shows_hash].
Qed.

(** The family-and-member text and the operand text inside a printed instruction (C58) are the
    one-line [Debug] texts. *)
Lemma pf_C79_display :
  (forall o, Opcode_fmt o false = opcode_text o) /\ (forall s, Operand_fmt s false = operand_text s).
Proof.
  split; intros x.
  - rewrite <- opcode_text_eq. destruct x as [i|i|i|i|i|i|i|i|i|i|i|i|i|i|i|i]; destruct i; reflexivity.
  - destruct x as [|[]|[]]; reflexivity.
Qed.

Example pf_C79_example :
  let a := mkRetABI (mkFatPointer 4 1024 0 32) Ret_UseAuxHeap in
  RetABI_fmt a false =
    "RetABI { memory_quasi_fat_pointer: FatPointer { offset: 4, memory_page: 1024, start: 0, length: 32 }, page_forwarding_mode: UseAuxHeap }"%string
  /\ RetABI_fmt a true =
    ("RetABI {" ++ newline ++ "    memory_quasi_fat_pointer: FatPointer {" ++ newline
     ++ "        offset: 4," ++ newline ++ "        memory_page: 1024," ++ newline
     ++ "        start: 0," ++ newline ++ "        length: 32," ++ newline
     ++ "    }," ++ newline ++ "    page_forwarding_mode: UseAuxHeap," ++ newline ++ "}")%string
  /\ proper (ret_tree a) = true.
Proof. cbv zeta. repeat split. Qed.
