(** * Proofs of the layout, reachability and budget properties (C62-C67).
    [pf_X] proves the theorem [X] of PropsLayout.v. *)

From Coq Require Import Arith NArith Lia ZArith List Bool String.
From Coq Require Import ZifyBool ZifyNat ZifyN.
From Verif Require Import Machine Constants Operands OpcodeTrait Opcodes AllOpcodes Tables
  Decoding VersionedHash SpecIsa SpecFamilies SpecCodec SpecAbi SpecLayout.
From Verif Require Import BitLemmas TableProofs TableProofs2 TableProofs3 CodecProofs CodecProofs2
  ProofsAbi.
Import ListNotations.
Open Scope N_scope.

(** ** C62 *)

Lemma work_sweep :
  forallb (fun x => negb (spec_well_formed 1 x) || spec_is_invalid (opcode x)
             || (if both_in_memory x
                 then (OpcodeVariant_ergs_price x =? 6) && (worst_work x =? 7)
                 else worst_work x <=? OpcodeVariant_ergs_price x)) spec_all_variants = true.
Proof. vm_compute. reflexivity. Qed.

Lemma work_case x : in_table x -> spec_is_invalid (opcode x) = false ->
  if both_in_memory x then OpcodeVariant_ergs_price x = 6 /\ worst_work x = 7
  else worst_work x <= OpcodeVariant_ergs_price x.
Proof.
  intros H Hi. apply in_table_wf in H.
  assert (S := forall_variants _ work_sweep x). cbv beta in S. rewrite H, Hi in S. cbn in S.
  destruct (both_in_memory x); lia.
Qed.

(** The price of an instruction covers its worst-case work unless both operands are in
    memory, when it is one memory query short. *)
Lemma pf_C62_instruction :
  forall x, in_table x -> spec_is_invalid (opcode x) = false ->
    (both_in_memory x = false -> worst_work x <= OpcodeVariant_ergs_price x) /\
    (both_in_memory x = true ->
       worst_work x = OpcodeVariant_ergs_price x + RAM_PERMUTATION_COST_IN_ERGS).
Proof.
  intros x H Hi. assert (C := work_case x H Hi).
  destruct (both_in_memory x); split; intros E; try discriminate; [|exact C].
  destruct C as [-> ->]. reflexivity.
Qed.

(** The work of any sequence of instructions is at most 1.2 times what was paid for it, and
    no factor below 7/6 would do. *)
Lemma pf_C62_trace :
  (forall l, Forall (fun x => in_table x /\ spec_is_invalid (opcode x) = false) l ->
     5 * total worst_work l <= 6 * total OpcodeVariant_ergs_price l) /\
  (forall p q,
     (forall l, Forall (fun x => in_table x /\ spec_is_invalid (opcode x) = false) l ->
        q * total worst_work l <= p * total OpcodeVariant_ergs_price l) <-> 7 * q <= 6 * p).
Proof.
  assert (B : forall l, Forall (fun x => in_table x /\ spec_is_invalid (opcode x) = false) l ->
     6 * total worst_work l <= 7 * total OpcodeVariant_ergs_price l).
  { induction 1 as [|x l [H Hi] _ IH]; [reflexivity|]. cbn [total fold_right].
    fold (total worst_work l). fold (total OpcodeVariant_ergs_price l).
    assert (C := work_case x H Hi). destruct (both_in_memory x); lia. }
  split; [intros l H; specialize (B l H); lia|].
  intros p q. split.
  - intros H.
    specialize (H [mkOpcodeVariant (Op_Add AddOpcode_Add) (Full UseCodePage)
                     (Full UseStackWithOffset) (false, false)]).
    assert (E : q * 7 <= p * 6); [|lia].
    apply H. constructor; [|constructor]. split; [apply in_table_wf; reflexivity|reflexivity].
  - intros H l Hl. specialize (B l Hl). nia.
Qed.

(** No instruction is charged for more cycles than one plus the pending ones allowed. *)
Lemma pf_C62_cycles :
  (forall o, cycles_of o <= 1 + MAX_PENDING_CYCLES) /\
  (exists x, in_table x /\ cycles_of (opcode x) = 1 + MAX_PENDING_CYCLES).
Proof.
  split.
  - intros o. apply N.leb_le. revert o. apply forall_opcodes. reflexivity.
  - exists (mkOpcodeVariant (Op_UMA UMAOpcode_HeapWrite) (RegOrImm RI_UseRegOnly) RegOnly
              (false, false)).
    split; [apply in_table_wf|]; reflexivity.
Qed.

(** A memory-to-memory addition and a heap write. *)
Example pf_C62_example :
  let add := mkOpcodeVariant (Op_Add AddOpcode_Add) (Full UseCodePage)
               (Full UseStackWithOffset) (true, false) in
  let write := mkOpcodeVariant (Op_UMA UMAOpcode_HeapWrite) (RegOrImm RI_UseRegOnly) RegOnly
                 (true, false) in
  in_table add /\ in_table write /\
  worst_work add = 7 /\ OpcodeVariant_ergs_price add = 6 /\
  worst_work write = 13 /\ OpcodeVariant_ergs_price write = 13.
Proof.
  split; [apply in_table_wf; reflexivity|]. split; [apply in_table_wf; reflexivity|].
  repeat split.
Qed.

(** ** C63 *)

(** The number returned with a decoded instruction indexes every per-opcode table at the
    decoded variant. *)
Lemma pf_C63_tables :
  forall m w, exists d n t p b mm,
    parse_preliminary_variant_and_absolute_number (mode_impl m) w
    = Ok (d, mkVariantMonotonicNumber n) /\
    OPCODES_TABLE = Ok t /\ OPCODES_PRICES = Ok p /\ OPCODES_PROPS_INTEGER_BITMASKS = Ok b /\
    OPCODE_TO_MONOTONIC_INDEX_NUMBER_MAP = Ok mm /\
    n = w mod 2048 /\
    nth_error t (N.to_nat n) = Some (variant d) /\
    nth_error p (N.to_nat n) = Some (OpcodeVariant_ergs_price (variant d)) /\
    (exists mask, nth_error b (N.to_nat n) = Some mask /\
       forall i, N.testbit mask i = spec_mask_bit (variant d) i) /\
    map_get mm (variant d)
    = Some (mkVariantMonotonicNumber
              (if spec_is_invalid (opcode (variant d)) then 0 else n)).
Proof.
  intros m w. destruct (mode_parse_fields m w) as (d & Hp & Hf).
  destruct canonical_map_defined as (cm & Hm & Hg).
  assert (Hb := bits_lt w 0 11). change (2 ^ 11) with 2048 in Hb.
  assert (Hv : variant d = spec_variant_at (bits w 0 11)) by apply Hf.
  set (n := bits w 0 11) in *.
  assert (Ht : nth_error padded_table (N.to_nat n) = Some (variant d)).
  { rewrite Hv. unfold spec_variant_at. rewrite padded_nth.
    destruct (Nat.ltb_spec (N.to_nat n) 1093) as [L|L].
    - destruct (nth_error spec_table_v1 (N.to_nat n)) eqn:E; [reflexivity|].
      apply nth_error_None in E. rewrite spec_table_v1_length in E. lia.
    - destruct (Nat.ltb_spec (N.to_nat n) 2048) as [L2|L2]; [|lia].
      destruct (nth_error spec_table_v1 (N.to_nat n)) eqn:E; [|reflexivity].
      assert (nth_error spec_table_v1 (N.to_nat n) <> None) as E2 by congruence.
      apply nth_error_Some in E2. rewrite spec_table_v1_length in E2. lia. }
  exists d, n, padded_table, (map (fun x => spec_price (opcode x)) padded_table),
    (map mask_value padded_table), (wrap_map cm).
  split; [exact Hp|]. split; [exact OPCODES_TABLE_eq|]. split; [exact prices_eq|].
  split; [exact bitmasks_eq|].
  split; [rewrite monotonic_static_eq, Hm; reflexivity|].
  split. { unfold n, bits. change (2 ^ 0) with 1. rewrite N.div_1_r. reflexivity. }
  split; [exact Ht|].
  split; [rewrite nth_error_map', Ht; cbn [option_map]; f_equal; symmetry; apply price_eq|].
  split.
  - exists (mask_value (variant d)). split; [rewrite nth_error_map', Ht; reflexivity|].
    intros i. apply mask_bits.
  - rewrite map_get_wrap, Hg. rewrite Hv at 1. rewrite number_at by exact Hb.
    cbn [option_map]. do 2 f_equal.
    destruct (N.ltb_spec n spec_assigned) as [L|L].
    + destruct (spec_is_invalid (opcode (variant d))) eqn:E; [|reflexivity].
      assert (Hn : spec_number (variant d) = Some n).
      { rewrite Hv, number_at by exact Hb. apply N.ltb_lt in L. rewrite L. reflexivity. }
      assert (spec_well_formed 1 (variant d) = true) as Hw
        by (apply spec_number_wf; eauto).
      destruct (variant d) as [o s dd [f0 f1]].
      destruct o; try discriminate E. cbn in Hw.
      destruct s as [|r|f], dd as [|r'|f'], f0, f1; try discriminate Hw.
      change (Some 0 = Some n) in Hn. congruence.
    + assert (variant d = spec_invalid) as ->; [|reflexivity].
      rewrite Hv. unfold spec_variant_at.
      destruct (nth_error spec_table_v1 (N.to_nat n)) eqn:E; [|reflexivity].
      assert (nth_error spec_table_v1 (N.to_nat n) <> None) as E2 by congruence.
      apply nth_error_Some in E2. rewrite spec_table_v1_length in E2.
      unfold spec_assigned in L. lia.
Qed.

Example pf_C63_example : 0x0001FFFF07F3A06C mod 2048 = 108 /\ 0xFFFF mod 2048 = 2047.
Proof. split; reflexivity. Qed.

(** ** C64 *)

Lemma pc_max_eq m : pc_max (PcOrImm (mode_impl m)) = 2 ^ mode_imm_bits m - 1.
Proof. destruct m; reflexivity. Qed.

(** A program counter reaches exactly the first 2^14 words of a code page in production and
    the first 2^31 in testing, and every instruction there at exactly one value. *)
Lemma pf_C64_reach :
  forall m,
    let bound := match m with ProductionMode => 2 ^ 14 | TestingMode => 2 ^ 31 end in
    let max := pc_max (PcOrImm (mode_impl m)) in
    (forall pc, pc <= max ->
       fst (split_pc (mode_impl m) pc) < bound /\
       snd (split_pc (mode_impl m) pc) < mode_per_word m) /\
    (forall word sub, word < bound -> sub < mode_per_word m ->
       exists pc, pc <= max /\ split_pc (mode_impl m) pc = (word, sub) /\
         forall pc', split_pc (mode_impl m) pc' = (word, sub) -> pc' = pc).
Proof.
  intros m. cbv zeta. split.
  - intros pc H. assert (S := split_pc_spec m pc).
    destruct (split_pc (mode_impl m) pc) as [word sub]. destruct S as [S1 S2].
    cbn [fst snd]. rewrite pc_max_eq in H. destruct m; cbn [mode_per_word mode_imm_bits] in *; lia.
  - intros word sub Hw Hs. exists (mode_per_word m * word + sub).
    split; [rewrite pc_max_eq; destruct m; cbn [mode_per_word mode_imm_bits] in *; lia|]. split.
    + assert (S := split_pc_spec m (mode_per_word m * word + sub)).
      destruct (split_pc (mode_impl m) (mode_per_word m * word + sub)) as [word' sub'].
      destruct S as [S1 S2]. destruct m; cbn [mode_per_word] in *; f_equal; lia.
    + intros pc' E. assert (S := split_pc_spec m pc'). rewrite E in S. apply S.
Qed.

(** Expected: every instruction of a bytecode that can be deployed can be reached.  False:
    hashing accepts bytecodes of 16385 to 65535 words. *)
Lemma pf_C64_refuted :
  ~ (forall sha256 ws b, digest_function sha256 -> Forall (byte_array 32) ws ->
       bytecode_to_code_hash sha256 ws = Ok (Some b) ->
       forall k, k < len ws ->
         exists pc, pc < 2 ^ 16 /\ fst (split_pc EncodingModeProduction pc) = k).
Proof.
  intros H.
  set (f := fun _ : list N => repeat 7 32).
  set (ws := repeat (repeat 0 32) (N.to_nat 16385)).
  assert (L : len ws = 16385) by (unfold ws, len; rewrite repeat_length; lia).
  assert (Hf : digest_function f).
  { intros x. split; [reflexivity|]. apply Forall_forall. intros y Hy.
    apply repeat_spec in Hy. lia. }
  destruct (pf_C47_hash f ws Hf) as [_ G]; [lia|].
  rewrite L in G. destruct G as [G _]; [reflexivity|lia|].
  assert (Hws : Forall (byte_array 32) ws).
  { apply Forall_forall. intros x Hx. apply repeat_spec in Hx. subst x.
    split; [reflexivity|]. apply Forall_forall. intros y Hy. apply repeat_spec in Hy. lia. }
  destruct (H f ws _ Hf Hws G 16384) as (pc & Hpc & E); [lia|].
  assert (S := split_pc_spec ProductionMode pc). cbn [mode_impl] in S.
  destruct (split_pc EncodingModeProduction pc) as [word sub]. cbn [fst mode_per_word] in E, S. lia.
Qed.

(** What holds instead: the instructions of a bytecode are all reachable exactly when it has
    at most 16384 words; its constants always are, by a 16-bit word index.  The exit address
    of the first frame is an instruction of every hashable bytecode, its error handler one of
    exactly those with at least 16384 words. *)
Lemma pf_C64_actual :
  forall sha256 ws b, digest_function sha256 -> len ws < 2 ^ 64 ->
    bytecode_to_code_hash sha256 ws = Ok (Some b) ->
    ((forall k, k < len ws ->
        exists pc, pc < 2 ^ 16 /\ fst (split_pc EncodingModeProduction pc) = k)
     <-> len ws <= 16384) /\
    len ws < 2 ^ 16 /\
    fst (split_pc EncodingModeProduction INITIAL_FRAME_SUCCESSFUL_EXIT_PC) = 0 /\ 0 < len ws /\
    (fst (split_pc EncodingModeProduction INITIAL_FRAME_FORMAL_EH_LOCATION) < len ws
     <-> 16384 <= len ws) /\
    INITIAL_FRAME_FORMAL_EH_LOCATION = pc_max (PcOrImm EncodingModeProduction).
Proof.
  intros f ws b Hf Hl Hb.
  destruct (pf_C47_hash f ws Hf Hl) as [G _].
  assert (O : N.even (len ws) = false).
  { destruct (N.even (len ws)); [|reflexivity]. rewrite G in Hb by auto. discriminate. }
  assert (M : len ws <= 65535).
  { destruct (N.le_gt_cases (len ws) 65535) as [A|A]; [exact A|].
    rewrite G in Hb by auto. discriminate. }
  split; [split|split; [lia|split; [reflexivity|split]]].
  - intros H. destruct (N.le_gt_cases (len ws) 16384) as [A|A]; [exact A|].
    destruct (H 16384 A) as (pc & Hpc & E).
    assert (S := split_pc_spec ProductionMode pc). cbn [mode_impl] in S.
    destruct (split_pc EncodingModeProduction pc) as [word sub]. cbn [fst mode_per_word] in E, S. lia.
  - intros A k Hk.
    destruct (pf_C64_reach ProductionMode) as [_ R]. cbv zeta in R. rewrite pc_max_eq in R.
    cbn [mode_impl mode_per_word mode_imm_bits] in R.
    destruct (R k 0) as (pc & Hpc & E & _); [lia|lia|].
    exists pc. split; [lia|]. rewrite E. reflexivity.
  - destruct (len ws); [discriminate O|lia].
  - split; [|reflexivity]. change (fst (split_pc EncodingModeProduction
      INITIAL_FRAME_FORMAL_EH_LOCATION)) with 16383. lia.
Qed.

Example pf_C64_example :
  split_pc EncodingModeProduction 65535 = (16383, 3) /\
  split_pc EncodingModeTesting (2 ^ 32 - 1) = (2 ^ 31 - 1, 1) /\
  bytecode_to_code_hash (fun _ => repeat 7 32) [repeat 0 32]
  = Ok (Some ([1; 0; 0; 1] ++ repeat 7 28)).
Proof. repeat split. Qed.

(** ** C65 *)

(** Charges proportional to sizes stay within [u32], and can always be paid from the first
    frame's ergs. *)
Lemma pf_C65_charges :
  (forall bytes, bytes < 2 ^ 32 ->
     bytes * MEMORY_GROWTH_ERGS_PER_BYTE < 2 ^ 32 /\
     bytes * MEMORY_GROWTH_ERGS_PER_BYTE <= VM_INITIAL_FRAME_ERGS /\
     (bytes * MEMORY_GROWTH_ERGS_PER_BYTE = 0 <-> bytes = 0)) /\
  (forall sha256 ws b h, digest_function sha256 -> len ws < 2 ^ 64 ->
     bytecode_to_code_hash sha256 ws = Ok (Some b) ->
     VersionedHash_try_create_from_raw ContractCodeSha256 b = Ok (Some h) ->
     code_length_in_words (VersionedHash_layout_ref h) * ERGS_PER_CODE_WORD_DECOMMITTMENT
     <= 262140 <= MAX_TX_ERGS_LIMIT) /\
  0 < CODE_DECOMMITTER_SORTER_COST_IN_ERGS < 2 ^ 16.
Proof.
  split; [|split].
  - intros n H. unfold MEMORY_GROWTH_ERGS_PER_BYTE, VM_INITIAL_FRAME_ERGS. lia.
  - intros f ws b h Hf Hl Hb Hh.
    destruct (pf_C47_hash f ws Hf Hl) as [G1 G2].
    assert (O : N.even (len ws) = false).
    { destruct (N.even (len ws)); [|reflexivity]. rewrite G1 in Hb by auto. discriminate. }
    assert (M : len ws <= 65535).
    { destruct (N.le_gt_cases (len ws) 65535) as [A|A]; [exact A|].
      rewrite G1 in Hb by auto. discriminate. }
    destruct G2 as (Hb' & _ & h' & Hh' & Hn & _); [rewrite <- N.negb_even, O; reflexivity|exact M|].
    set (b' := hash_bytes _ _ _) in *. assert (b' = b) as E by congruence. subst b.
    assert (h = h') as -> by congruence. rewrite Hn. unfold ERGS_PER_CODE_WORD_DECOMMITTMENT,
      CODE_DECOMMITMENT_COST_PER_WORD_IN_ERGS, MAX_TX_ERGS_LIMIT. lia.
  - split; reflexivity.
Qed.

(** The fixed decommitment overhead of value transfers covers exactly the codes of at most
    16000 words, so not every code that can be deployed. *)
Lemma pf_C65_overhead :
  (forall n, n * ERGS_PER_CODE_WORD_DECOMMITTMENT <= DECOMMITMENT_MSG_VALUE_SIMULATOR_OVERHEAD
             <-> n <= 16000) /\
  ~ (forall sha256 ws b, digest_function sha256 -> len ws < 2 ^ 64 ->
       bytecode_to_code_hash sha256 ws = Ok (Some b) ->
       len ws * ERGS_PER_CODE_WORD_DECOMMITTMENT <= DECOMMITMENT_MSG_VALUE_SIMULATOR_OVERHEAD).
Proof.
  split.
  - intros n. unfold ERGS_PER_CODE_WORD_DECOMMITTMENT,
      CODE_DECOMMITMENT_COST_PER_WORD_IN_ERGS, DECOMMITMENT_MSG_VALUE_SIMULATOR_OVERHEAD. lia.
  - intros H.
    set (f := fun _ : list N => repeat 7 32).
    set (ws := repeat (repeat 0 32) (N.to_nat 16001)).
    assert (L : len ws = 16001) by (unfold ws, len; rewrite repeat_length; lia).
    assert (Hf : digest_function f).
    { intros x. split; [reflexivity|]. apply Forall_forall. intros y Hy.
      apply repeat_spec in Hy. lia. }
    destruct (pf_C47_hash f ws Hf) as [_ G]; [lia|].
    rewrite L in G. destruct G as [G _]; [reflexivity|lia|].
    assert (Hl : len ws < 2 ^ 64) by lia.
    specialize (H f ws _ Hf Hl G). rewrite L in H. vm_compute in H. apply H. reflexivity.
Qed.

(** Memory of the first frame never runs out, and the free memory of a new one is a whole
    number of words. *)
Lemma pf_C65_memory :
  (forall x, x <= MAX_OFFSET_TO_DEREF_LOW_U32 -> x + 32 <= BOOTLOADER_MAX_MEMORY) /\
  (forall x, x + 32 <= BOOTLOADER_MAX_MEMORY -> x <= MAX_OFFSET_TO_DEREF_LOW_U32) /\
  NEW_FRAME_MEMORY_STIPEND mod 32 = 0 /\ NEW_FRAME_MEMORY_STIPEND = 1024.
Proof.
  change MAX_OFFSET_TO_DEREF_LOW_U32 with 4294967263.
  change BOOTLOADER_MAX_MEMORY with 4294967295.
  split; [intros x H; lia|]. split; [intros x H; lia|]. split; reflexivity.
Qed.

(** Expected from its name: heap offsets a transaction can pay for stay below
    [2^LOG2_NUM_ADDRESSABLE_HEAP_BYTES].  False: larger ones pass the dereference check and
    can be paid for. *)
Lemma pf_C65_heap_refuted :
  ~ (forall x, x <= MAX_OFFSET_TO_DEREF_LOW_U32 ->
       (x + 32) * MEMORY_GROWTH_ERGS_PER_BYTE <= MAX_TX_ERGS_LIMIT ->
       x < 2 ^ LOG2_NUM_ADDRESSABLE_HEAP_BYTES) /\
  (forall x, x < 2 ^ LOG2_NUM_ADDRESSABLE_HEAP_BYTES ->
     x <= MAX_OFFSET_TO_DEREF_LOW_U32 /\
     (x + 32) * MEMORY_GROWTH_ERGS_PER_BYTE <= MAX_TX_ERGS_LIMIT).
Proof.
  split.
  - intros H. specialize (H (2 ^ 24)). vm_compute in H.
    assert (H' : Lt = Lt -> False); [|apply H'; reflexivity].
    intros _. discriminate H; discriminate.
  - change MAX_OFFSET_TO_DEREF_LOW_U32 with 4294967263.
    change (2 ^ LOG2_NUM_ADDRESSABLE_HEAP_BYTES) with 16777216.
    unfold MEMORY_GROWTH_ERGS_PER_BYTE, MAX_TX_ERGS_LIMIT. intros x H. lia.
Qed.

(** Pubdata: how many L1 messages, new slots and updates of slots a block holds, and the
    amount a value transfer prepays is that of two storage writes. *)
Lemma pf_C65_pubdata :
  (forall n, n * L1_MESSAGE_PUBDATA_BYTES <= MAX_PUBDATA_PER_BLOCK <-> n <= 1250) /\
  (forall n, n * L1_MESSAGE_PUBDATA_BYTES = MAX_PUBDATA_PER_BLOCK <-> n = 1250) /\
  (forall n, n * INITIAL_STORAGE_WRITE_PUBDATA_BYTES <= MAX_PUBDATA_PER_BLOCK <-> n <= 1718) /\
  (forall n, n * REPEATED_STORAGE_WRITE_PUBDATA_BYTES <= MAX_PUBDATA_PER_BLOCK <-> n <= 2750) /\
  (forall n, n * REPEATED_STORAGE_WRITE_PUBDATA_BYTES = MAX_PUBDATA_PER_BLOCK <-> n = 2750) /\
  (forall i r, i + r <= 2 ->
     i * INITIAL_STORAGE_WRITE_PUBDATA_BYTES + r * REPEATED_STORAGE_WRITE_PUBDATA_BYTES
     <= MSG_VALUE_SIMULATOR_PUBDATA_BYTES_TO_PREPAY) /\
  (forall p, (forall i r, i + r <= 2 ->
     i * INITIAL_STORAGE_WRITE_PUBDATA_BYTES + r * REPEATED_STORAGE_WRITE_PUBDATA_BYTES <= p) ->
     MSG_VALUE_SIMULATOR_PUBDATA_BYTES_TO_PREPAY <= p).
Proof.
  unfold L1_MESSAGE_PUBDATA_BYTES, MAX_PUBDATA_PER_BLOCK, INITIAL_STORAGE_WRITE_PUBDATA_BYTES,
    REPEATED_STORAGE_WRITE_PUBDATA_BYTES, MSG_VALUE_SIMULATOR_PUBDATA_BYTES_TO_PREPAY.
  do 5 (split; [intros n; lia|]). split; [intros i r H; lia|].
  intros p H. specialize (H 2 0). lia.
Qed.

Example pf_C65_example :
  bytecode_to_code_hash (fun _ => repeat 7 32) [repeat 0 32; repeat 1 32; repeat 2 32]
  = Ok (Some ([1; 0; 0; 3] ++ repeat 7 28)) /\
  3 * ERGS_PER_CODE_WORD_DECOMMITTMENT = 12.
Proof. split; reflexivity. Qed.

(** ** C66 *)

(** The exported shifts and widths locate the fields of every encoded instruction. *)
Lemma pf_C66_fields :
  forall m bld d w,
    typed (mode_imm_bits m) d -> regs_in_range d ->
    encode_as_integer (mode_impl m) bld d = Ok w ->
    let R := REGISTER_INDEX_ENCODING_BITS in
    (exists n, spec_number (variant d) = Some n /\ w mod 2 ^ OPCODES_TABLE_WIDTH = n /\
       w mod 2 ^ VARIANT_AND_CONDITION_ENCODING_BITS
       = n + 2 ^ CONDITIONAL_BITS_SHIFT * spec_cond_number (condition d)) /\
    bits w CONDITIONAL_BITS_SHIFT CONDITIONAL_BITS_WIDTH = spec_cond_number (condition d) /\
    bits w SRC_REGS_SHIFT R = src0_reg_idx d /\
    bits w (SRC_REGS_SHIFT + R) R = src1_reg_idx d /\
    bits w DST_REGS_SHIFT R = dst0_reg_idx d /\
    bits w (DST_REGS_SHIFT + R) R = dst1_reg_idx d /\
    CONDITIONAL_BITS_SHIFT + CONDITIONAL_BITS_WIDTH = VARIANT_AND_CONDITION_ENCODING_BITS /\
    OPCODES_TABLE_WIDTH <= CONDITIONAL_BITS_SHIFT /\
    VARIANT_AND_CONDITION_ENCODING_BITS = SRC_REGS_SHIFT /\
    SRC_REGS_SHIFT + 2 * R = DST_REGS_SHIFT /\
    bits w (DST_REGS_SHIFT + 2 * R) (mode_imm_bits m) = imm_0 d /\
    bits w (DST_REGS_SHIFT + 2 * R + mode_imm_bits m) (mode_imm_bits m) = imm_1 d.
Proof.
  intros m bld d w Ht Hr He R. subst R.
  unfold REGISTER_INDEX_ENCODING_BITS, OPCODES_TABLE_WIDTH, VARIANT_AND_CONDITION_ENCODING_BITS,
    CONDITIONAL_BITS_SHIFT, CONDITIONAL_BITS_WIDTH, SRC_REGS_SHIFT, DST_REGS_SHIFT.
  destruct (encode_then_parse m bld d w Ht He) as (n & Hn & Hw & _).
  rewrite wrap_id in Hw by exact Hr.
  destruct (word_fields _ n d Hn Ht Hr) as (F & Hk & Hg). rewrite <- Hw in F, Hk, Hg.
  destruct F as (_ & F1 & F2 & F3 & F4 & F5 & F6 & F7).
  assert (C : bits w 13 3 = spec_cond_number (condition d))
    by (symmetry; apply cond_number_of; exact F1).
  assert (W : forall k, w mod 2 ^ k = bits w 0 k)
    by (intros k; unfold bits; change (2 ^ 0) with 1; rewrite N.div_1_r; reflexivity).
  split.
  { exists n. split; [exact Hn|]. rewrite !W. split; [exact Hk|].
    change 16 with (13 + 3). rewrite bits_split. change (0 + 13) with 13. rewrite C.
    f_equal. change 13 with (11 + 2). rewrite bits_split. change (0 + 11) with 11.
    rewrite Hk, Hg. lia. }
  split; [exact C|].
  repeat split; try (symmetry; assumption); try reflexivity; try lia.
Qed.

(** The register numbers an instruction can name are the registers and the constant zero;
    the conditions fill their field. *)
Lemma pf_C66_ranges :
  REGISTERS_COUNT + 1 = 2 ^ REGISTER_INDEX_ENCODING_BITS /\
  (forall k, k < 2 ^ CONDITIONAL_BITS_WIDTH <-> exists c, spec_cond_number c = k).
Proof.
  split; [reflexivity|]. intros k. split.
  - intros H. destruct (cond_defined k H) as [c Hc]. exists c. apply cond_number_of, Hc.
  - intros [c <-]. apply cond_lt.
Qed.

Example pf_C66_example :
  let d := mkDecodedOpcode
    (mkOpcodeVariant (Op_Sub SubOpcode_Sub) (Full UseStackWithOffset) (Full UseRegOnly)
       (true, true)) Le_ 3 15 7 0 65535 1 in
  typed 16 d /\ regs_in_range d /\ in_table (variant d) /\
  bits 0x0001FFFF07F3A06C (SRC_REGS_SHIFT + REGISTER_INDEX_ENCODING_BITS) 4 = 15.
Proof.
  cbv zeta. split; [repeat split|]. split; [repeat split|].
  split; [apply in_table_wf; reflexivity|reflexivity].
Qed.

(** ** C67 *)

Lemma roles_sweep :
  forallb (fun x => negb (spec_well_formed 1 x)
             || forallb (fun i => implb (flag_at x i) (existsb (N.eqb i) (flag_roles (opcode x))))
                  [0; 1]) spec_all_variants = true.
Proof. vm_compute. reflexivity. Qed.

Lemma roles_used :
  forallb (fun o => forallb (fun i => existsb (fun x => flag_at x i) (spec_variants_of 1 o))
                      (flag_roles o)) spec_all_opcodes = true.
Proof. vm_compute. reflexivity. Qed.

Lemma variants_of_In v o x :
  In x (spec_variants_of v o) -> opcode x = o /\ spec_well_formed v x = true.
Proof.
  unfold spec_variants_of. intros H. apply in_flat_map in H as (s & _ & H).
  apply in_flat_map in H as (d & _ & H). apply filter_In in H as [H W].
  apply in_map_iff in H as (f & <- & _). split; [reflexivity|exact W].
Qed.

(** The exported flag indices name the flags of each opcode: different roles of one opcode
    have different indices, and the flags that occur set in the table are exactly those with
    a role. *)
Lemma pf_C67_flags :
  forall o,
    NoDup (flag_roles o) /\
    (forall i, In i (flag_roles o) -> i < NUM_NON_EXCLUSIVE_FLAGS) /\
    (forall i, In i (flag_roles o) <->
       exists x, in_table x /\ opcode x = o /\ flag_at x i = true).
Proof.
  intros o. split; [|split].
  - each_opcode o; cbn; repeat constructor; cbn; intuition discriminate.
  - intros i. each_opcode o; cbn; intros H; repeat destruct H as [<-|H]; try reflexivity;
      contradiction.
  - intros i. split.
    + intros H. assert (S := forall_opcodes _ roles_used o). cbv beta in S.
      rewrite forallb_forall in S. apply S in H. apply existsb_exists in H as (x & Hx & Hf).
      apply variants_of_In in Hx as [Ho Hw]. exists x.
      split; [apply in_table_wf, Hw|]. split; assumption.
    + intros (x & Ht & <- & Hf). apply in_table_wf in Ht.
      assert (S := forall_variants _ roles_sweep x). cbv beta in S. rewrite Ht in S.
      cbn [negb orb] in S. rewrite forallb_forall in S.
      assert (Hi : In i [0; 1]).
      { unfold flag_at in Hf. destruct (N.eqb_spec i 0) as [->|]; [left; reflexivity|].
        destruct (N.eqb_spec i 1) as [->|]; [right; left; reflexivity|discriminate]. }
      apply S in Hi. rewrite Hf in Hi. cbn [implb] in Hi.
      apply existsb_exists in Hi as (j & Hj & E). apply N.eqb_eq in E. subst j. exact Hj.
Qed.

(** Where the circuits find the flags and the exception bits in the bitmask of a variant. *)
Lemma pf_C67_bitmask :
  forall bld x v mask r variants,
    opcode_as_integer_bitmask bld x v = Ok mask ->
    total_description_bits_rounded_for_version v = Ok r ->
    max_num_variants_for_version v = Ok variants ->
    (forall i, i < NUM_NON_EXCLUSIVE_FLAGS ->
       N.testbit mask (OPCODE_TYPE_BITS + variants + i) = flag_at x i) /\
    N.testbit mask (r + KERNER_MODE_FLAG_IDX) = spec_kernel (opcode x) /\
    N.testbit mask (r + CAN_BE_USED_IN_STATIC_CONTEXT_FLAG_IDX)
      = negb (spec_not_static (opcode x)) /\
    N.testbit mask (r + EXPLICIT_PANIC_FLAG_IDX) = spec_is_invalid (opcode x) /\
    mask < 2 ^ (r + TOTAL_AUX_BITS).
Proof.
  intros bld x v mask r vs H Hr Hv. rewrite bitmask_eq in H. rewrite rounded_bits_eq in Hr.
  rewrite max_num_variants_eq in Hv. destruct (v <=? 1); try discriminate.
  injection H as <-. injection Hr as <-. injection Hv as <-.
  split; [|split; [|split; [|split]]].
  - intros i Hi. rewrite mask_bits. unfold NUM_NON_EXCLUSIVE_FLAGS in Hi.
    assert (Hc : i = 0 \/ i = 1) by lia. destruct Hc as [-> | ->]; reflexivity.
  - apply mask_bits.
  - apply mask_bits.
  - apply mask_bits.
  - apply mask_lt.
Qed.

Example pf_C67_example :
  flag_roles (Op_Sub SubOpcode_Sub) = [0; 1] /\ flag_roles (Op_Jump jumpOpcode) = [] /\
  exists mask, opcode_as_integer_bitmask Debug spec_invalid 1 = Ok mask /\
    total_description_bits_rounded_for_version 1 = Ok 48 /\ max_num_variants_for_version 1 = Ok 10.
Proof. split; [reflexivity|]. split; [reflexivity|]. eexists. repeat split. Qed.
