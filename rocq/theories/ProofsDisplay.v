(** * Proofs about the printed form of instructions (C58). *)

From Coq Require Import Arith NArith Lia ZArith List Bool String Ascii.
From Coq Require Import ZifyBool ZifyNat ZifyN.
From Verif Require Import Machine Operands Opcodes AllOpcodes Tables Decoding PricingGen Display
  SpecIsa SpecCodec SpecFamilies
  SpecPricing SpecDisplay.
From Verif Require Import BitLemmas TableProofs TableProofs2.
Import ListNotations.
Open Scope N_scope.

(** ** Strings *)

Lemma app_assoc_s (a b c : string) : ((a ++ b) ++ c = a ++ (b ++ c))%string.
Proof. induction a as [|x a IH]; cbn; [|rewrite IH]; reflexivity. Qed.

Fixpoint no_char (c : ascii) (s : string) : bool :=
  match s with EmptyString => true | String x r => negb (Ascii.eqb x c) && no_char c r end.

Lemma split_at c a a' b b' : no_char c a = true -> no_char c a' = true ->
  (a ++ String c b)%string = (a' ++ String c b')%string -> a = a' /\ b = b'.
Proof.
  revert a'. induction a as [|x a IH]; intros a' H H' E.
  - destruct a' as [|y a']; cbn in *; [injection E as <-; auto|].
    injection E as <- _. rewrite Ascii.eqb_refl in H'. discriminate.
  - destruct a' as [|y a']; cbn in *.
    + injection E as -> _. rewrite Ascii.eqb_refl in H. discriminate.
    + injection E as <- E. apply andb_prop in H as [_ H]. apply andb_prop in H' as [_ H'].
      destruct (IH a' H H' E) as [<- <-]. auto.
Qed.

Lemma no_char_numeral base acc s n c : digit_value c = None -> numeral base acc s = Some n ->
  no_char c s = true.
Proof.
  intros D. revert acc. induction s as [|x s IH]; intros acc H; [reflexivity|].
  cbn in H |- *. destruct (digit_value x) as [d|] eqn:E; [|discriminate].
  destruct (d <? base); [|discriminate]. rewrite (IH _ H), andb_true_r.
  destruct (Ascii.eqb_spec x c) as [->|]; [congruence|reflexivity].
Qed.

(** ** Numerals *)

Lemma decimal_eq n : n < 256 -> decimal_text n (fmt_u32 n).
Proof.
  intros H.
  assert (S : forallb (fun k => let s := fmt_u32 (N.of_nat k) in
      match numeral 10 0 s with Some m => m =? N.of_nat k | None => false end &&
      negb (String.eqb s EmptyString) && (negb (starts_with_zero s) || String.eqb s "0"))
      (seq 0 256) = true) by (vm_compute; reflexivity).
  rewrite forallb_forall in S. specialize (S (N.to_nat n)).
  assert (I : In (N.to_nat n) (seq 0 256)) by (apply in_seq; lia).
  apply S in I. clear S. rewrite N2Nat.id in I. cbv zeta in I.
  apply andb_prop in I as [I I3]. apply andb_prop in I as [I1 I2].
  split; [|split].
  - destruct (numeral 10 0 (fmt_u32 n)); [|discriminate]. f_equal. lia.
  - intros E. rewrite E in I2. discriminate.
  - intros E. rewrite E in I3. cbn in I3. apply String.eqb_eq, I3.
Qed.

Lemma hex_digit_value d : d < 16 -> digit_value (hex_digit d) = Some d.
Proof.
  intros H.
  assert (S : forallb (fun k => match digit_value (hex_digit (N.of_nat k)) with
      Some m => m =? N.of_nat k | None => false end) (seq 0 16) = true) by reflexivity.
  rewrite forallb_forall in S. specialize (S (N.to_nat d)).
  assert (I : In (N.to_nat d) (seq 0 16)) by (apply in_seq; lia).
  apply S in I. rewrite N2Nat.id in I.
  destruct (digit_value (hex_digit d)); [|discriminate]. f_equal. lia.
Qed.

Lemma hex_digit_zero d : d < 16 -> hex_digit d = "0"%char -> d = 0.
Proof.
  intros H E. assert (V := hex_digit_value d H). rewrite E in V. injection V as <-. reflexivity.
Qed.

Lemma numeral_hex fuel x s : x < 16 ^ N.of_nat fuel -> (0 < fuel)%nat ->
  numeral 16 0 (hex_digits fuel x s) = numeral 16 x s.
Proof.
  revert x s. induction fuel as [|f IH]; intros x s Hx Hf; [lia|].
  cbn [hex_digits]. rewrite Nat2N.inj_succ, N.pow_succ_r' in Hx.
  assert (M : x mod 16 < 16) by (apply N.mod_lt; discriminate).
  assert (D := N.div_mod x 16 ltac:(discriminate)).
  assert (V : forall a, numeral 16 a (String (hex_digit (x mod 16)) s)
                        = numeral 16 (a * 16 + x mod 16) s).
  { intros a. cbn [numeral]. rewrite hex_digit_value by exact M.
    replace (x mod 16 <? 16) with true by lia. reflexivity. }
  destruct (x / 16 =? 0) eqn:E.
  - rewrite V. f_equal. lia.
  - assert (x / 16 < 16 ^ N.of_nat f) by (apply N.div_lt_upper_bound; lia).
    destruct f as [|f]; [change (16 ^ N.of_nat 0) with 1 in *; lia|].
    rewrite IH by lia. rewrite V. f_equal. lia.
Qed.

(** The digits do not start with zero, unless there is one. *)
Lemma hex_leading fuel x s : x < 16 ^ N.of_nat fuel -> 0 < x ->
  starts_with_zero (hex_digits fuel x s) = false.
Proof.
  revert x s. induction fuel as [|f IH]; intros x s Hx H0; [change (16 ^ N.of_nat 0) with 1 in Hx; lia|].
  cbn [hex_digits]. rewrite Nat2N.inj_succ, N.pow_succ_r' in Hx.
  destruct (x / 16 =? 0) eqn:E.
  - assert (M : x mod 16 < 16) by (apply N.mod_lt; discriminate).
    assert (D := N.div_mod x 16 ltac:(discriminate)).
    cbn [starts_with_zero]. destruct (hex_digit (x mod 16)) as [[] [] [] [] [] [] [] []] eqn:Z;
      try reflexivity.
    apply hex_digit_zero in Z; lia.
  - apply IH; [|lia]. apply N.div_lt_upper_bound; lia.
Qed.

Lemma hex_length fuel x s : (String.length (hex_digits fuel x s) <= fuel + String.length s)%nat /\
  ((0 < fuel)%nat -> (String.length s < String.length (hex_digits fuel x s))%nat).
Proof.
  revert x s. induction fuel as [|f IH]; intros x s; cbn [hex_digits]; [cbn; lia|].
  destruct (x / 16 =? 0); [cbn [String.length]; lia|].
  destruct (IH (x / 16) (String (hex_digit (x mod 16)) s)) as [A B].
  cbn [String.length] in *. destruct f; [cbn [hex_digits String.length] in *; lia|lia].
Qed.

Lemma zeros_length n s : String.length (zeros n s) = (n + String.length s)%nat.
Proof. induction n as [|n IH]; cbn; [|rewrite IH]; reflexivity. Qed.

Lemma numeral_zeros n s : numeral 16 0 (zeros n s) = numeral 16 0 s.
Proof. induction n as [|n IH]; [reflexivity|]. cbn. exact IH. Qed.

Definition hex_part (x : N) : string :=
  zeros (6 - String.length (hex_digits 8 x EmptyString)) (hex_digits 8 x EmptyString).

Lemma hex_eq x : x < 2 ^ 32 ->
  fmt_hex_08 x = ("0x" ++ hex_part x)%string /\ hex_text 6 x (hex_part x).
Proof.
  intros H. split; [reflexivity|]. unfold hex_part.
  destruct (hex_length 8 x EmptyString) as [A B]. cbn [String.length] in *.
  set (n := String.length (hex_digits 8 x EmptyString)) in *.
  split; [|split].
  - rewrite numeral_zeros, numeral_hex; [reflexivity|exact H|lia].
  - rewrite zeros_length. fold n. lia.
  - intros Z. rewrite zeros_length. fold n.
    destruct (6 - n)%nat as [|k] eqn:K; [|lia].
    cbn [zeros] in Z. destruct (N.eq_dec x 0) as [->|N0].
    + assert (n = 1%nat) by reflexivity. lia.
    + rewrite hex_leading in Z; [discriminate|exact H|lia].
Qed.

(** ** Text *)

Lemma opcode_text_eq o : Opcode_debug o = opcode_text o.
Proof. each_opcode o; reflexivity. Qed.
Lemma operand_text_eq s : Operand_debug s = operand_text s.
Proof. destruct s as [|[]|[]]; reflexivity. Qed.
Lemma condition_text_eq c : Condition_debug c =
  nth (N.to_nat (spec_cond_number c)) condition_names EmptyString.
Proof. destruct c; reflexivity. Qed.

(** The printed form of a variant. *)
Lemma pf_C58_variant :
  forall x, OpcodeVariant_display x = variant_text x.
Proof.
  intros x. unfold OpcodeVariant_display, variant_text, line.
  rewrite opcode_text_eq, !operand_text_eq. unfold fmt_bool, bool_text.
  rewrite !app_assoc_s. reflexivity.
Qed.

(** The printed form of an instruction, in both modes. *)
Lemma pf_C58_instruction :
  forall d, printable d -> exists r0 r1 r2 r3 h0 h1,
    DecodedOpcode_display d = instruction_text d r0 r1 r2 r3 h0 h1 /\
    decimal_text (src0_reg_idx d) r0 /\ decimal_text (src1_reg_idx d) r1 /\
    decimal_text (dst0_reg_idx d) r2 /\ decimal_text (dst1_reg_idx d) r3 /\
    hex_text 6 (imm_0 d) h0 /\ hex_text 6 (imm_1 d) h1.
Proof.
  intros d (H0 & H1 & H2 & H3 & H4 & H5).
  exists (fmt_u32 (src0_reg_idx d)), (fmt_u32 (src1_reg_idx d)), (fmt_u32 (dst0_reg_idx d)),
    (fmt_u32 (dst1_reg_idx d)), (hex_part (imm_0 d)), (hex_part (imm_1 d)).
  destruct (hex_eq (imm_0 d) H4) as [E0 X0]. destruct (hex_eq (imm_1 d) H5) as [E1 X1].
  split; [|auto 10 using decimal_eq].
  unfold DecodedOpcode_display, instruction_text, line.
  rewrite E0, E1, pf_C58_variant, condition_text_eq, !app_assoc_s. reflexivity.
Qed.

(** ** Unambiguity *)

Local Open Scope string_scope.

Definition NL : ascii := "010".

Lemma nl_app s : (nl ++ s)%string = String NL s.
Proof. reflexivity. Qed.

Lemma opcode_no_nl o : no_char NL (Opcode_debug o) = true.
Proof. each_opcode o; reflexivity. Qed.
Lemma operand_no_nl s : no_char NL (Operand_debug s) = true.
Proof. destruct s as [|[]|[]]; reflexivity. Qed.
Lemma condition_no_nl c : no_char NL (Condition_debug c) = true.
Proof. destruct c; reflexivity. Qed.
Lemma bool_no_nl b : no_char NL (fmt_bool b) = true.
Proof. destruct b; reflexivity. Qed.
Lemma bool_no_bar b : no_char "|" (fmt_bool b) = true.
Proof. destruct b; reflexivity. Qed.

Lemma opcode_debug_inj o o' : Opcode_debug o = Opcode_debug o' -> o = o'.
Proof.
  destruct o as [i|i|i|i|i|i|i|i|i|i|i|i|i|i|i|i], o' as [j|j|j|j|j|j|j|j|j|j|j|j|j|j|j|j];
    intros E; try discriminate E; destruct i, j; try reflexivity; discriminate E.
Qed.
Lemma operand_debug_inj s s' : Operand_debug s = Operand_debug s' -> s = s'.
Proof. destruct s as [|[]|[]], s' as [|[]|[]]; intros E; try reflexivity; discriminate E. Qed.
Lemma condition_debug_inj s s' : Condition_debug s = Condition_debug s' -> s = s'.
Proof. destruct s, s'; intros E; try reflexivity; discriminate E. Qed.
Lemma bool_inj s s' : fmt_bool s = fmt_bool s' -> s = s'.
Proof. destruct s, s'; intros E; try reflexivity; discriminate E. Qed.

Lemma decimal_sep n s c : decimal_text n s -> digit_value c = None -> no_char c s = true.
Proof. intros (H & _) D. eapply no_char_numeral; eassumption. Qed.

Lemma variant_display_app x t :
  (OpcodeVariant_display x ++ t)%string =
  ("Opcode and variant: " ++ (Opcode_debug (opcode x) ++ String NL
   ("Src0 operand type: " ++ (Operand_debug (src0_operand_type x) ++ String NL
   ("Dst0 operand type: " ++ (Operand_debug (dst0_operand_type x) ++ String NL
   ("Non-exclusive flags: " ++ (fmt_bool (fst (flags x)) ++ String "|"
   (fmt_bool (snd (flags x)) ++ t)))))))))%string.
Proof. unfold OpcodeVariant_display. rewrite !app_assoc_s. reflexivity. Qed.

Lemma strip p a b : (p ++ a)%string = (p ++ b)%string -> a = b.
Proof. induction p as [|c p IH]; intros E; [exact E|]. injection E as E. auto. Qed.

Lemma variant_display_inj x x' t t' :
  (OpcodeVariant_display x ++ String NL t)%string = (OpcodeVariant_display x' ++ String NL t')%string ->
  x = x' /\ t = t'.
Proof.
  rewrite !variant_display_app. intros E. apply strip in E.
  apply split_at in E as [E1 E]; [|apply opcode_no_nl|apply opcode_no_nl]. apply strip in E.
  apply split_at in E as [E2 E]; [|apply operand_no_nl|apply operand_no_nl]. apply strip in E.
  apply split_at in E as [E3 E]; [|apply operand_no_nl|apply operand_no_nl]. apply strip in E.
  apply split_at in E as [E4 E]; [|apply bool_no_bar|apply bool_no_bar].
  apply split_at in E as [E5 E]; [|apply bool_no_nl|apply bool_no_nl].
  split; [|exact E].
  destruct x as [o s d [f0 f1]], x' as [o' s' d' [f0' f1']]; cbn in *.
  apply opcode_debug_inj in E1. apply operand_debug_inj in E2, E3. apply bool_inj in E4, E5.
  subst. reflexivity.
Qed.

(** No two variants print alike, and no two instructions do. *)
Lemma pf_C58_injective :
  (forall x x', OpcodeVariant_display x = OpcodeVariant_display x' -> x = x') /\
  (forall d d', printable d -> printable d' ->
     DecodedOpcode_display d = DecodedOpcode_display d' -> d = d').
Proof.
  split.
  - intros x x' E.
    apply (variant_display_inj x x' EmptyString EmptyString). rewrite E. reflexivity.
  - intros d d' (H0 & H1 & H2 & H3 & H4 & H5) (H0' & H1' & H2' & H3' & H4' & H5') E.
    unfold DecodedOpcode_display in E.
    destruct (hex_eq (imm_0 d) H4) as [F0 X0]. destruct (hex_eq (imm_1 d) H5) as [F1 X1].
    destruct (hex_eq (imm_0 d') H4') as [F0' X0']. destruct (hex_eq (imm_1 d') H5') as [F1' X1'].
    rewrite F0, F1, F0', F1' in E. clear F0 F1 F0' F1'.
    assert (P0 := decimal_eq _ H0). assert (P1 := decimal_eq _ H1). assert (P2 := decimal_eq _ H2).
    assert (P3 := decimal_eq _ H3). assert (P0' := decimal_eq _ H0').
    assert (P1' := decimal_eq _ H1'). assert (P2' := decimal_eq _ H2').
    assert (P3' := decimal_eq _ H3').
    rewrite !nl_app in E. apply variant_display_inj in E as [Ev E]. apply strip in E.
    apply split_at in E as [Ec E]; [|apply condition_no_nl|apply condition_no_nl].
    apply strip in E.
    change (", src1 = r" ++ ?a)%string with (String "," (" src1 = r" ++ a))%string in E.
    apply (split_at ",") in E as [E0 E];
      [|eapply decimal_sep; [exact P0|reflexivity]|eapply decimal_sep; [exact P0'|reflexivity]].
    apply (strip " src1 = r") in E.
    apply (split_at ",") in E as [E1 E];
      [|eapply decimal_sep; [exact P1|reflexivity]|eapply decimal_sep; [exact P1'|reflexivity]].
    apply (strip " dst0 = r") in E.
    apply (split_at ",") in E as [E2 E];
      [|eapply decimal_sep; [exact P2|reflexivity]|eapply decimal_sep; [exact P2'|reflexivity]].
    apply (strip " dst1 = r") in E.
    apply split_at in E as [E3 E];
      [|eapply decimal_sep; [exact P3|reflexivity]|eapply decimal_sep; [exact P3'|reflexivity]].
    apply strip in E.
    apply (strip "0x") in E.
    apply split_at in E as [E4 E];
      [|eapply no_char_numeral; [reflexivity|apply X0]
       |eapply no_char_numeral; [reflexivity|apply X0']].
    apply strip in E. apply (strip "0x") in E.
    apply condition_debug_inj in Ec.
    destruct P0 as (P0 & _), P1 as (P1 & _), P2 as (P2 & _), P3 as (P3 & _), X0 as (X0 & _),
      X1 as (X1 & _), P0' as (P0' & _), P1' as (P1' & _), P2' as (P2' & _), P3' as (P3' & _),
      X0' as (X0' & _), X1' as (X1' & _).
    rewrite E0 in P0. rewrite E1 in P1. rewrite E2 in P2. rewrite E3 in P3. rewrite E4 in X0.
    rewrite E in X1. destruct d, d'; cbn in *. congruence.
Qed.

Example pf_C58_example :
  let d := mkDecodedOpcode
    (mkOpcodeVariant (Op_Ptr PtrOpcode_Add) (Full UseImm16Only) (Full UseRegOnly) (true, false))
    Ge_ 1 22 3 4 0x1f 0x12345678 in
  printable d /\
  DecodedOpcode_display d =
  ("Opcode and variant: Ptr(Add)" ++ nl ++ "Src0 operand type: Full(UseImm16Only)" ++ nl
   ++ "Dst0 operand type: Full(UseRegOnly)" ++ nl ++ "Non-exclusive flags: true|false" ++ nl
   ++ "Condition: Ge" ++ nl
   ++ "Register selections: src0 = r1, src1 = r22, dst0 = r3, dst1 = r4" ++ nl
   ++ "IMM0 constant: 0x00001f" ++ nl ++ "IMM1 constant: 0x12345678")%string.
Proof. cbv zeta. repeat split. Qed.
