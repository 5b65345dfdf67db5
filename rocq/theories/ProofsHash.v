(** * Proofs about the derived [Hash] implementations (C80). *)

From Coq Require Import Arith NArith Lia ZArith List Bool.
From Coq Require Import ZifyBool ZifyNat ZifyN.
From Verif Require Import Machine Operands OpcodeTrait Opcodes AllOpcodes Tables Decoding Abi
  VersionedHash HashFeed SpecIsa SpecCodec SpecFamilies SpecAbi SpecHash.
From Verif Require Import BitLemmas TableProofs CodecProofs2 Ordering.
Import ListNotations.
Open Scope N_scope.

(** ** Bytes *)

Lemma le_bytes_places n : forall x k, map (fun i => le_byte x (N.of_nat i)) (seq k n)
  = to_le_bytes n (x / 256 ^ N.of_nat k).
Proof.
  induction n as [|n IH]; intros x k; [reflexivity|]. cbn [seq map to_le_bytes].
  rewrite IH. f_equal. f_equal. rewrite Nat2N.inj_succ, N.pow_succ_r', N.mul_comm.
  symmetry. apply N.div_div; [apply N.pow_nonzero|]; discriminate.
Qed.

Lemma feed_int_bytes t n x : feed_int t n x = field_bytes (big_endian t) (n, x).
Proof.
  unfold feed_int, field_bytes. cbn [fst snd].
  assert (E : map (fun i => le_byte x (N.of_nat i)) (seq 0 n) = to_le_bytes n x).
  { rewrite le_bytes_places. change (256 ^ N.of_nat 0) with 1. rewrite N.div_1_r. reflexivity. }
  destruct (big_endian t).
  - unfold to_be_bytes. rewrite <- E, map_rev. reflexivity.
  - rewrite E. reflexivity.
Qed.

Lemma to_le_inj n : forall x y, x < 256 ^ N.of_nat n -> y < 256 ^ N.of_nat n ->
  to_le_bytes n x = to_le_bytes n y -> x = y.
Proof.
  induction n as [|n IH]; intros x y Hx Hy E; [change (256 ^ N.of_nat 0) with 1 in *; lia|].
  rewrite Nat2N.inj_succ, N.pow_succ_r' in Hx, Hy.
  change (x mod 256 :: to_le_bytes n (x / 256) = y mod 256 :: to_le_bytes n (y / 256)) in E.
  assert (E1 : x mod 256 = y mod 256) by congruence.
  assert (E2 : to_le_bytes n (x / 256) = to_le_bytes n (y / 256)) by congruence.
  apply IH in E2; [|apply N.div_lt_upper_bound; lia..].
  assert (X := N.div_mod x 256 ltac:(discriminate)). assert (Y := N.div_mod y 256 ltac:(discriminate)).
  lia.
Qed.

Lemma feed_length t n x : List.length (feed_int t n x) = n.
Proof. unfold feed_int. destruct (big_endian t); [apply be_length|apply le_length]. Qed.

Lemma app_split {A} (a b r r' : list A) : List.length a = List.length b ->
  a ++ r = b ++ r' -> a = b /\ r = r'.
Proof.
  revert b. induction a as [|x a IH]; intros [|y b] L E; cbn in *; try discriminate; [auto|].
  injection L as L. injection E as <- E. destruct (IH b L E) as [<- <-]. auto.
Qed.

Lemma feed_int_inj t n x y r r' : x < 256 ^ N.of_nat n -> y < 256 ^ N.of_nat n ->
  feed_int t n x ++ r = feed_int t n y ++ r' -> x = y /\ r = r'.
Proof.
  intros Hx Hy E. apply app_split in E as [E ->]; [|rewrite !feed_length; reflexivity].
  split; [|reflexivity]. unfold feed_int in E. apply (to_le_inj n); [assumption..|].
  destruct (big_endian t); [|exact E]. unfold to_be_bytes in E.
  rewrite <- (rev_involutive (to_le_bytes n x)), E. apply rev_involutive.
Qed.

(** A number below 256 fits wherever there is a byte. *)
Lemma small_fits n x : (1 <= n)%nat -> x < 256 -> x < 256 ^ N.of_nat n.
Proof.
  intros Hn Hx. assert (P := N.pow_le_mono_r 256 1 (N.of_nat n) ltac:(discriminate) ltac:(lia)).
  rewrite N.pow_1_r in P. lia.
Qed.
Lemma u32_fits x : x < 2 ^ 32 -> x < 256 ^ N.of_nat 4.
Proof. intros H. exact H. Qed.
Lemma u64_fits x : x < 2 ^ 64 -> x < 256 ^ N.of_nat 8.
Proof. intros H. exact H. Qed.
Lemma u16_fits x : x < 2 ^ 16 -> x < 256 ^ N.of_nat 2.
Proof. intros H. exact H. Qed.
Lemma u8_fits x : x < 2 ^ 8 -> x < 256 ^ N.of_nat 1.
Proof. intros H. exact H. Qed.

(** ** Feeds *)

Lemma stream_app t a b : stream t (a ++ b) = stream t a ++ stream t b.
Proof. unfold stream. apply flat_map_app. Qed.
Lemma stream_cons t n x fs : stream t ((n, x) :: fs) = feed_int t n x ++ stream t fs.
Proof. rewrite feed_int_bytes. reflexivity. Qed.
Lemma stream_nil t : stream t [] = [].
Proof. reflexivity. Qed.

Ltac streams := unfold usize_field, u8_field, u16_field, u32_field, u64_field, b_field; cbn [map app];
  repeat first [rewrite stream_app|rewrite stream_cons];
  rewrite ?stream_nil, ?app_nil_r, <- ?app_assoc; try reflexivity.

Lemma opcode_feed t o : Opcode_hash t o = stream t (opcode_fields t o).
Proof.
  destruct o as [i|i|i|i|i|i|i|i|i|i|i|i|i|i|i|i]; destruct i;
    unfold opcode_fields, Opcode_hash, feed_tag, feed_small_tag; cbn [has_members spec_family spec_sub
      existsb N.eqb Pos.eqb orb Opcode_discriminant]; streams.
Qed.
Lemma operand_feed t o : Operand_hash t o = stream t (operand_fields t o).
Proof.
  destruct o as [|i|i]; [|destruct i..]; unfold Operand_hash, operand_fields, RegOrImmFlags_hash,
    ImmMemHandlerFlags_hash, feed_tag, feed_small_tag; streams.
Qed.
Lemma bool_feed t b : feed_bool t b = stream t [b_field b].
Proof. unfold feed_bool. streams. Qed.
Lemma variant_feed t x : OpcodeVariant_hash t x = stream t (variant_fields t x).
Proof.
  unfold OpcodeVariant_hash, variant_fields. rewrite !stream_app, <- opcode_feed, <- !operand_feed.
  do 3 f_equal. unfold feed_array, feed_bool. cbn [List.length List.concat]. streams.
Qed.
Lemma condition_feed t x : Condition_hash t x = stream t (condition_fields t x).
Proof. destruct x; unfold Condition_hash, condition_fields, feed_small_tag; streams. Qed.
Lemma pointer_feed t x : FatPointer_hash t x = stream t (pointer_fields t x).
Proof. unfold FatPointer_hash, pointer_fields. streams. Qed.
Lemma far_page_feed t x : FarCallForwardPageType_hash t x = stream t (far_page_fields t x).
Proof. destruct x; unfold FarCallForwardPageType_hash, far_page_fields, feed_small_tag; streams. Qed.
Lemma ret_page_feed t x : RetForwardPageType_hash t x = stream t (ret_page_fields t x).
Proof. destruct x; unfold RetForwardPageType_hash, ret_page_fields, feed_small_tag; streams. Qed.
Lemma far_call_feed t x : FarCallABI_hash t x = stream t (far_call_fields t x).
Proof.
  unfold FarCallABI_hash, far_call_fields. rewrite pointer_feed, far_page_feed. unfold feed_bool. streams.
Qed.
Lemma ret_feed t x : RetABI_hash t x = stream t (ret_fields t x).
Proof. unfold RetABI_hash, ret_fields. rewrite pointer_feed, ret_page_feed. streams. Qed.
Lemma storage_feed t x : byte_array 28 (partial_hash x) ->
  ContractCodeSha256Storage_hash t x = stream t (storage_fields t x).
Proof.
  intros [L B]. unfold ContractCodeSha256Storage_hash, storage_fields, feed_array.
  rewrite map_length, L. streams. do 3 f_equal. clear L.
  induction B as [|b l Hb B IH]; [reflexivity|]. cbn [map List.concat app].
  rewrite stream_cons, <- IH. unfold feed_int.
  cbn [to_le_bytes to_be_bytes]. unfold to_be_bytes. cbn [to_le_bytes rev app].
  rewrite N.mod_small by exact Hb. destruct (big_endian t); reflexivity.
Qed.

(** *** C80 *)

Lemma pf_C80_instructions : forall t,
  (forall o, Opcode_hash t o = stream t (opcode_fields t o)) /\
  (forall o, Operand_hash t o = stream t (operand_fields t o)) /\
  (forall x, OpcodeVariant_hash t x = stream t (variant_fields t x)) /\
  (forall c, Condition_hash t c = stream t (condition_fields t c)) /\
  (forall x, VariantMonotonicNumber_hash t x = stream t (index_fields t x)) /\
  (forall x, ISAVersion_hash t x = stream t (version_fields t x)) /\
  (forall x, OpcodeVariantData_hash t x = stream t (variant_data_fields t x)).
Proof.
  intros t. repeat split; intros x; [apply opcode_feed|apply operand_feed|apply variant_feed
    |apply condition_feed| | |].
  - unfold VariantMonotonicNumber_hash, index_fields. streams.
  - unfold ISAVersion_hash, version_fields. streams.
  - unfold OpcodeVariantData_hash, variant_data_fields. streams.
Qed.

Lemma pf_C80_abis : forall t,
  (forall x, FatPointer_hash t x = stream t (pointer_fields t x)) /\
  (forall x, FarCallForwardPageType_hash t x = stream t (far_page_fields t x)) /\
  (forall x, FarCallABI_hash t x = stream t (far_call_fields t x)) /\
  (forall x, RetForwardPageType_hash t x = stream t (ret_page_fields t x)) /\
  (forall x, RetABI_hash t x = stream t (ret_fields t x)) /\
  (forall x, NearCallABI_hash t x = stream t (near_call_fields t x)) /\
  (forall x, PrecompileCallABI_hash t x = stream t (precompile_fields t x)) /\
  (forall x, PrecompileCallInnerABI_hash t x = stream t (precompile_inner_fields t x)) /\
  (forall x, VmMetaParameters_hash t x = stream t (meta_fields t x)) /\
  (forall x, storage_ok x -> ContractCodeSha256Storage_hash t x = stream t (storage_fields t x)) /\
  (forall x, storage_ok (data x) -> VersionedHash_hash t x = stream t (storage_fields t (data x))).
Proof.
  intros t. split; [apply pointer_feed|]. split; [apply far_page_feed|]. split; [apply far_call_feed|].
  split; [apply ret_page_feed|]. split; [apply ret_feed|].
  split; [intros x; unfold NearCallABI_hash, near_call_fields; streams|].
  split; [intros x; unfold PrecompileCallABI_hash, precompile_fields; streams|].
  split; [intros x; unfold PrecompileCallInnerABI_hash, precompile_inner_fields; streams|].
  split; [intros x; unfold VmMetaParameters_hash, meta_fields; streams|].
  split; intros x (_ & _ & B); apply storage_feed, B.
Qed.

(** ** Reading a feed *)

Lemma feed_bool_inj t x y r r' : feed_bool t x ++ r = feed_bool t y ++ r' -> x = y /\ r = r'.
Proof.
  intros E. unfold feed_bool in E. apply feed_int_inj in E as [E ->].
  - destruct x, y; split; congruence.
  - destruct x; reflexivity.
  - destruct y; reflexivity.
Qed.

Lemma opcode_read t : sensible t -> unmistakable anything (Opcode_hash t).
Proof.
  intros (_ & Ht & Hs) x y r r' _ _ E. unfold Opcode_hash, feed_tag, feed_small_tag in E.
  rewrite <- !app_assoc in E.
  apply feed_int_inj in E as [D E];
    [|apply small_fits; [exact Ht|destruct x; reflexivity]
     |apply small_fits; [exact Ht|destruct y; reflexivity]].
  destruct x as [x|x|x|x|x|x|x|x|x|x|x|x|x|x|x|x], y as [y|y|y|y|y|y|y|y|y|y|y|y|y|y|y|y];
    try discriminate D; clear D.
  all: try (destruct x, y; split; [reflexivity|exact E]).
  all: apply feed_int_inj in E as [D ->];
    [|apply small_fits; [exact Hs|destruct x; reflexivity]
     |apply small_fits; [exact Hs|destruct y; reflexivity]].
  all: destruct x, y; try discriminate D; split; reflexivity.
Qed.

Lemma operand_read t : sensible t -> unmistakable anything (Operand_hash t).
Proof.
  intros (_ & Ht & Hs) x y r r' _ _ E.
  unfold Operand_hash, feed_tag, RegOrImmFlags_hash, ImmMemHandlerFlags_hash, feed_small_tag in E.
  rewrite <- !app_assoc in E.
  apply feed_int_inj in E as [D E];
    [|apply small_fits; [exact Ht|destruct x; reflexivity]
     |apply small_fits; [exact Ht|destruct y; reflexivity]].
  destruct x as [|x|x], y as [|y|y]; try discriminate D; clear D; [auto| |].
  all: apply feed_int_inj in E as [D ->];
    [|apply small_fits; [exact Hs|destruct x; reflexivity]
     |apply small_fits; [exact Hs|destruct y; reflexivity]].
  all: destruct x, y; try discriminate D; split; reflexivity.
Qed.

Lemma variant_read t : sensible t -> unmistakable anything (OpcodeVariant_hash t).
Proof.
  intros S x y r r' _ _ E. unfold OpcodeVariant_hash in E. rewrite <- !app_assoc in E.
  apply opcode_read in E as [E1 E]; [|exact S|exact I..].
  apply operand_read in E as [E2 E]; [|exact S|exact I..].
  apply operand_read in E as [E3 E]; [|exact S|exact I..].
  unfold feed_array in E. cbn [List.length List.concat] in E. rewrite <- !app_assoc in E.
  apply app_inv_head in E.
  apply feed_bool_inj in E as [E4 E]. apply feed_bool_inj in E as [E5 E].
  destruct x as [o a b [f g]], y as [o' a' b' [f' g']]; cbn [opcode src0_operand_type
    dst0_operand_type flags fst snd] in *. subst. auto.
Qed.

Lemma small_tag_read {A} (f : A -> N) t : sensible t -> (forall x, f x < 256) ->
  (forall x y, f x = f y -> x = y) -> unmistakable anything (fun x => feed_small_tag t (f x)).
Proof.
  intros (_ & _ & Hs) B J x y r r' _ _ E. unfold feed_small_tag in E.
  apply feed_int_inj in E as [E ->]; [|apply small_fits; [exact Hs|apply B]..].
  split; [apply J, E|reflexivity].
Qed.

Lemma condition_read t : sensible t -> unmistakable anything (Condition_hash t).
Proof.
  intros S. apply small_tag_read; [exact S|intros []; reflexivity|].
  intros x y; destruct x, y; intros E; reflexivity || discriminate E.
Qed.
Lemma far_page_read t : sensible t -> unmistakable anything (FarCallForwardPageType_hash t).
Proof.
  intros S. apply small_tag_read; [exact S|intros []; reflexivity|].
  intros x y; destruct x, y; intros E; reflexivity || discriminate E.
Qed.
Lemma ret_page_read t : sensible t -> unmistakable anything (RetForwardPageType_hash t).
Proof.
  intros S. apply small_tag_read; [exact S|intros []; reflexivity|].
  intros x y; destruct x, y; intros E; reflexivity || discriminate E.
Qed.

Ltac reads E := rewrite <- ?app_assoc in E;
  repeat (let D := fresh "D" in apply feed_int_inj in E as [D E]; [|assumption..]).

Lemma pointer_read t : unmistakable fat_pointer_ok (FatPointer_hash t).
Proof.
  intros x y r r' (A1 & A2 & A3 & A4) (B1 & B2 & B3 & B4) E. unfold FatPointer_hash in E. reads E.
  destruct x, y; cbn in *; subst; auto.
Qed.
Lemma far_call_read t : sensible t -> unmistakable far_call_ok (FarCallABI_hash t).
Proof.
  intros S x y r r' (A1 & A2 & A3) (B1 & B2 & B3) E. unfold FarCallABI_hash in E.
  rewrite <- !app_assoc in E. apply pointer_read in E as [E1 E]; [|assumption..].
  apply feed_int_inj in E as [E2 E]; [|assumption..].
  apply feed_int_inj in E as [E3 E]; [|assumption..].
  apply far_page_read in E as [E4 E]; [|exact S|exact I..].
  apply feed_bool_inj in E as [E5 E]. apply feed_bool_inj in E as [E6 E].
  destruct x, y; cbn in *; subst; auto.
Qed.
Lemma ret_read t : sensible t -> unmistakable ret_ok (RetABI_hash t).
Proof.
  intros S x y r r' A B E. unfold RetABI_hash in E.
  rewrite <- !app_assoc in E. apply pointer_read in E as [E1 E]; [|assumption..].
  apply ret_page_read in E as [E2 E]; [|exact S|exact I..].
  destruct x, y; cbn in *; subst; auto.
Qed.
Lemma storage_read t : unmistakable storage_ok (ContractCodeSha256Storage_hash t).
Proof.
  intros x y r r' (A1 & A2 & A3 & A4) (B1 & B2 & B3 & B4) E.
  unfold ContractCodeSha256Storage_hash in E. reads E. unfold feed_array in E.
  rewrite !map_length, A3, B3, <- !app_assoc in E. apply app_inv_head in E.
  assert (C : forall l : list N, List.concat (map (fun b => [b]) l) = l).
  { induction l as [|b l IH]; [reflexivity|]. cbn. rewrite IH. reflexivity. }
  rewrite !C in E. apply app_split in E as [E ->]; [|congruence].
  destruct x, y; cbn in *; subst; auto.
Qed.

Lemma pf_C80_unmistakable : forall t, sensible t ->
  unmistakable anything (Opcode_hash t) /\ unmistakable anything (Operand_hash t) /\
  unmistakable anything (OpcodeVariant_hash t) /\ unmistakable anything (Condition_hash t) /\
  unmistakable (index_ok t) (VariantMonotonicNumber_hash t) /\
  unmistakable (fun v => v < 2 ^ 8) (ISAVersion_hash t) /\
  unmistakable (variant_data_ok t) (OpcodeVariantData_hash t) /\
  unmistakable fat_pointer_ok (FatPointer_hash t) /\
  unmistakable anything (FarCallForwardPageType_hash t) /\
  unmistakable far_call_ok (FarCallABI_hash t) /\
  unmistakable anything (RetForwardPageType_hash t) /\ unmistakable ret_ok (RetABI_hash t) /\
  unmistakable near_call_ok (NearCallABI_hash t) /\
  unmistakable precompile_ok (PrecompileCallABI_hash t) /\
  unmistakable inner_ok (PrecompileCallInnerABI_hash t) /\
  unmistakable meta_ok (VmMetaParameters_hash t) /\
  unmistakable storage_ok (ContractCodeSha256Storage_hash t) /\
  unmistakable (fun h => storage_ok (data h)) (VersionedHash_hash t).
Proof.
  intros t S.
  split; [exact (opcode_read t S)|]. split; [exact (operand_read t S)|].
  split; [exact (variant_read t S)|]. split; [exact (condition_read t S)|].
  split. { intros [x] [y] r r' A B E. unfold VariantMonotonicNumber_hash in E. reads E.
           cbn in *. subst. auto. }
  split. { intros x y r r' A B E. unfold ISAVersion_hash in E. reads E. auto. }
  split. { intros x y r r' (A1 & A2 & A3) (B1 & B2 & B3) E. unfold OpcodeVariantData_hash in E. reads E.
           destruct x, y; cbn in *; subst; auto. }
  split; [exact (pointer_read t)|]. split; [exact (far_page_read t S)|].
  split; [exact (far_call_read t S)|]. split; [exact (ret_page_read t S)|].
  split; [exact (ret_read t S)|].
  split. { intros [x] [y] r r' A B E. unfold NearCallABI_hash in E. reads E. cbn in *. subst. auto. }
  split. { intros x y r r' (A1 & A2 & A3 & A4 & A5) (B1 & B2 & B3 & B4 & B5) E.
           unfold PrecompileCallABI_hash in E. reads E. destruct x, y; cbn in *; subst; auto. }
  split. { intros x y r r' (A1 & A2 & A3 & A4 & A5 & A6 & A7) (B1 & B2 & B3 & B4 & B5 & B6 & B7) E.
           unfold PrecompileCallInnerABI_hash in E. reads E. destruct x, y; cbn in *; subst; auto. }
  split. { intros x y r r' (A1 & A2 & A3 & A4 & A5 & A6) (B1 & B2 & B3 & B4 & B5 & B6) E.
           unfold VmMetaParameters_hash in E. reads E. destruct x, y; cbn in *; subst; auto. }
  split; [exact (storage_read t)|].
  intros [x] [y] r r' A B E. unfold VersionedHash_hash in E. cbn [data] in *.
  apply storage_read in E as [-> ->]; auto.
Qed.

(** A list of values fed one after the other, its length known, is determined by the feed. *)
Lemma pf_C80_sequence : forall A (ok : A -> Prop) (feed : A -> list N), unmistakable ok feed ->
  forall xs ys, Forall ok xs -> Forall ok ys -> List.length xs = List.length ys ->
  flat_map feed xs = flat_map feed ys -> xs = ys.
Proof.
  intros A ok feed U xs ys F. revert ys. induction F as [|x xs Hx F IH]; intros [|y ys] G L E;
    try discriminate; [reflexivity|].
  inversion G as [|? ? Hy G']; subst. cbn [flat_map] in E. injection L as L.
  destruct (U _ _ _ _ Hx Hy E) as [<- E']. rewrite (IH ys G' L E'). reflexivity.
Qed.

Example pf_C80_example :
  let t := mkHashTarget 8 8 1 false in
  sensible t /\
  OpcodeVariant_hash t
    (mkOpcodeVariant (Op_Ret RetOpcode_Panic) RegOnly (Full UseCodePage) (false, true))
  = [14; 0; 0; 0; 0; 0; 0; 0;  2;  0; 0; 0; 0; 0; 0; 0; 0;  2; 0; 0; 0; 0; 0; 0; 0;  5;
     2; 0; 0; 0; 0; 0; 0; 0;  0; 1] /\
  fat_pointer_ok (mkFatPointer 1 2 3 0x01020304) /\
  FatPointer_hash t (mkFatPointer 1 2 3 0x01020304)
  = [1; 0; 0; 0; 2; 0; 0; 0; 3; 0; 0; 0; 4; 3; 2; 1].
Proof.
  cbv zeta. split; [repeat split; repeat constructor|]. split; [reflexivity|].
  split; [repeat split|reflexivity].
Qed.
