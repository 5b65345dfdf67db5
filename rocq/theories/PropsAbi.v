(** * Register ABIs and versioned hashes (C38-C48)

    Statements only: each proof is the lemma of the same name in [ProofsAbi]. *)

From Coq Require Import Arith NArith List Bool String Ascii.
From Verif Require Import Machine Decoding Abi VersionedHash SpecAbi ProofsAbi.
Import ListNotations.
Open Scope N_scope.

(** Packing then unpacking, and the packed value. *)
Theorem C38_pack :
  forall p, fat_pointer_ok p ->
    FatPointer_from_u256 (FatPointer_to_u256 p) = p /\
    u256_ok (FatPointer_to_u256 p) /\
    u256_value (FatPointer_to_u256 p) =
      fp_offset p + 2 ^ 32 * fp_memory_page p + 2 ^ 64 * fp_start p + 2 ^ 96 * fp_length p /\
    u256_value (FatPointer_to_u256 p) < 2 ^ FAT_POINTER_PACKED_WIDTH.
Proof. exact pf_C38_pack. Qed.
Print Assumptions C38_pack.

(** Unpacking reads four 32-bit fields of the lower half; packing again gives that half. *)
Theorem C38_unpack :
  forall v, u256_ok v ->
    let p := FatPointer_from_u256 v in
    fat_pointer_ok p /\
    fp_offset p = bit_field (u256_value v) 0 32 /\
    fp_memory_page p = bit_field (u256_value v) 32 32 /\
    fp_start p = bit_field (u256_value v) 64 32 /\
    fp_length p = bit_field (u256_value v) 96 32 /\
    u256_value (FatPointer_to_u256 p) = u256_value v mod 2 ^ 128.
Proof. exact pf_C38_unpack. Qed.
Print Assumptions C38_unpack.

(** Exactly the lower half matters, and packing is injective. *)
Theorem C38_injective :
  (forall v v', u256_ok v -> u256_ok v' ->
     (FatPointer_from_u256 v = FatPointer_from_u256 v' <->
      u256_value v mod 2 ^ 128 = u256_value v' mod 2 ^ 128)) /\
  (forall p p', fat_pointer_ok p -> fat_pointer_ok p' ->
     FatPointer_to_u256 p = FatPointer_to_u256 p' -> p = p').
Proof. exact pf_C38_injective. Qed.
Print Assumptions C38_injective.

(** The empty pointer is the reading of zero, and trivial. *)
Theorem C38_empty :
  FatPointer_empty = FatPointer_from_u256 U256_zero /\
  FatPointer_to_u256 FatPointer_empty = U256_zero /\
  FatPointer_is_trivial FatPointer_empty = true /\ FAT_POINTER_PACKED_WIDTH = 128.
Proof. exact pf_C38_empty. Qed.
Print Assumptions C38_empty.

Example C38_example :
  fat_pointer_ok (mkFatPointer 7 11 (2 ^ 32 - 1) 5) /\
  u256_ok (mkU256 (7 + 2 ^ 32 * 11) (2 ^ 32 - 1 + 2 ^ 32 * 5) 1 2) /\
  FatPointer_to_u256 (mkFatPointer 7 11 (2 ^ 32 - 1) 5)
  = mkU256 (7 + 2 ^ 32 * 11) (2 ^ 32 - 1 + 2 ^ 32 * 5) 0 0 /\
  FatPointer_from_u256 (mkU256 (7 + 2 ^ 32 * 11) (2 ^ 32 - 1 + 2 ^ 32 * 5) 1 2)
  = mkFatPointer 7 11 (2 ^ 32 - 1) 5.
Proof. exact pf_C38_example. Qed.

(** Exactly which exceptions are reported. *)
Theorem C39_validate :
  forall p fresh, fat_pointer_ok p ->
    FatPointer_validate p fresh =
      (if fresh && (0 <? fp_offset p) then OFFSET_IS_NOT_ZERO_WHEN_EXPECTED else 0) +
      (if 2 ^ 32 <=? fp_start p + fp_length p then DEREF_BEYOND_HEAP_RANGE else 0) /\
    OFFSET_IS_NOT_ZERO_WHEN_EXPECTED = 1 /\ DEREF_BEYOND_HEAP_RANGE = 2.
Proof. exact pf_C39_validate. Qed.
Print Assumptions C39_validate.

(** A pointer without exceptions and with an offset in bounds addresses a byte inside its
    range, without overflow; a pointer that is a slice addresses at most the end. *)
Theorem C39_safety :
  forall p fresh, fat_pointer_ok p -> FatPointer_validate p fresh = 0 ->
    fp_start p + fp_length p < 2 ^ 32 /\ (fresh = true -> fp_offset p = 0) /\
    (FatPointer_validate_in_bounds p = true ->
       fp_start p + fp_offset p < fp_start p + fp_length p) /\
    (FatPointer_validate_as_slice p = true ->
       fp_start p + fp_offset p <= fp_start p + fp_length p).
Proof. exact pf_C39_safety. Qed.
Print Assumptions C39_safety.

(** The three simple tests and how they relate. *)
Theorem C39_tests :
  forall p,
    (FatPointer_validate_in_bounds p = true <-> fp_offset p < fp_length p) /\
    (FatPointer_validate_as_slice p = true <-> fp_offset p <= fp_length p) /\
    (FatPointer_is_trivial p = true <-> fp_offset p = 0 /\ fp_length p = 0) /\
    (FatPointer_validate_in_bounds p = true -> FatPointer_validate_as_slice p = true) /\
    (FatPointer_is_trivial p = true -> FatPointer_validate_as_slice p = true /\
       FatPointer_validate_in_bounds p = false).
Proof. exact pf_C39_tests. Qed.
Print Assumptions C39_tests.

Example C39_example :
  fat_pointer_ok (mkFatPointer 1 0 (2 ^ 32 - 5) 5) /\
  fat_pointer_ok (mkFatPointer 4 0 (2 ^ 32 - 5) 4) /\
  FatPointer_validate (mkFatPointer 1 0 (2 ^ 32 - 5) 5) true = 3 /\
  FatPointer_validate (mkFatPointer 1 0 (2 ^ 32 - 5) 4) false = 0 /\
  FatPointer_validate_in_bounds (mkFatPointer 4 0 (2 ^ 32 - 5) 4) = false /\
  FatPointer_validate_as_slice (mkFatPointer 4 0 (2 ^ 32 - 5) 4) = true.
Proof. exact pf_C39_example. Qed.

(** The fields of the far-call ABI. *)
Theorem C40_layout :
  forall v, u256_ok v ->
    let x := u256_value v in
    let a := FarCallABI_from_u256 v in
    fc_memory_quasi_fat_pointer a =
      mkFatPointer (bit_field x 0 32) (bit_field x 32 32) (bit_field x 64 32) (bit_field x 96 32) /\
    fc_ergs_passed a = bit_field x 192 32 /\
    fc_forwarding_mode a =
      (if le_byte x FAR_CALL_FORWARDING_MODE_BYTE_IDX =? 1 then FarCall_ForwardFatPointer
       else if le_byte x FAR_CALL_FORWARDING_MODE_BYTE_IDX =? 2 then FarCall_UseAuxHeap
       else FarCall_UseHeap) /\
    fc_shard_id a = le_byte x FAR_CALL_SHARD_ID_BYTE_IDX /\
    (fc_constructor_call a = true <-> le_byte x FAR_CALL_CONSTRUCTOR_CALL_BYTE_IDX <> 0) /\
    (fc_to_system a = true <-> le_byte x FAR_CALL_SYSTEM_CALL_BYTE_IDX <> 0).
Proof. exact pf_C40_layout. Qed.
Print Assumptions C40_layout.

(** The exported byte indices, and the bits that are ignored. *)
Theorem C40_ignored :
  FAR_CALL_FORWARDING_MODE_BYTE_IDX = 28 /\ FAR_CALL_SHARD_ID_BYTE_IDX = 29 /\
  FAR_CALL_CONSTRUCTOR_CALL_BYTE_IDX = 30 /\ FAR_CALL_SYSTEM_CALL_BYTE_IDX = 31 /\
  forall v v', u256_ok v -> u256_ok v' ->
    bit_field (u256_value v) 0 128 = bit_field (u256_value v') 0 128 ->
    bit_field (u256_value v) 192 64 = bit_field (u256_value v') 192 64 ->
    FarCallABI_from_u256 v = FarCallABI_from_u256 v'.
Proof. exact pf_C40_ignored. Qed.
Print Assumptions C40_ignored.

Example C40_example :
  let v := mkU256 3 0 99 (1000 + 2 ^ 32 * (2 + 256 * 7 + 65536 * 0 + 16777216 * 9)) in
  let v' := mkU256 3 0 5 (1000 + 2 ^ 32 * (2 + 256 * 7 + 65536 * 0 + 16777216 * 9)) in
  u256_ok v /\ u256_ok v' /\ v <> v' /\
  bit_field (u256_value v) 0 128 = bit_field (u256_value v') 0 128 /\
  bit_field (u256_value v) 192 64 = bit_field (u256_value v') 192 64 /\
  FarCallABI_from_u256 v
  = mkFarCallABI (mkFatPointer 3 0 0 0) 1000 7 FarCall_UseAuxHeap false true.
Proof. exact pf_C40_example. Qed.

(** The fields of the ret ABI. *)
Theorem C41_layout :
  forall v, u256_ok v ->
    let x := u256_value v in
    let a := RetABI_from_u256 v in
    ret_memory_quasi_fat_pointer a =
      mkFatPointer (bit_field x 0 32) (bit_field x 32 32) (bit_field x 64 32) (bit_field x 96 32) /\
    ret_page_forwarding_mode a =
      (if le_byte x RET_FORWARDING_MODE_BYTE_IDX =? 1 then Ret_ForwardFatPointer
       else if le_byte x RET_FORWARDING_MODE_BYTE_IDX =? 2 then Ret_UseAuxHeap
       else Ret_UseHeap) /\
    RET_FORWARDING_MODE_BYTE_IDX = 28.
Proof. exact pf_C41_layout. Qed.
Print Assumptions C41_layout.

(** Far call and ret read the same pointer and the same mode, and nothing else matters to
    ret. *)
Theorem C41_agreement :
  (forall v, u256_ok v ->
     ret_memory_quasi_fat_pointer (RetABI_from_u256 v)
       = fc_memory_quasi_fat_pointer (FarCallABI_from_u256 v) /\
     (ret_page_forwarding_mode (RetABI_from_u256 v) = Ret_UseHeap <->
        fc_forwarding_mode (FarCallABI_from_u256 v) = FarCall_UseHeap) /\
     (ret_page_forwarding_mode (RetABI_from_u256 v) = Ret_ForwardFatPointer <->
        fc_forwarding_mode (FarCallABI_from_u256 v) = FarCall_ForwardFatPointer) /\
     (ret_page_forwarding_mode (RetABI_from_u256 v) = Ret_UseAuxHeap <->
        fc_forwarding_mode (FarCallABI_from_u256 v) = FarCall_UseAuxHeap)) /\
  (forall v v', u256_ok v -> u256_ok v' ->
     bit_field (u256_value v) 0 128 = bit_field (u256_value v') 0 128 ->
     bit_field (u256_value v) 224 8 = bit_field (u256_value v') 224 8 ->
     RetABI_from_u256 v = RetABI_from_u256 v').
Proof. exact pf_C41_agreement. Qed.
Print Assumptions C41_agreement.

Example C41_example :
  let v := mkU256 0 (2 ^ 32) 99 (2 ^ 32 * (1 + 256 * 7)) in
  let v' := mkU256 0 (2 ^ 32) 5 (6 + 2 ^ 32 * 1) in
  u256_ok v /\ u256_ok v' /\ v <> v' /\
  bit_field (u256_value v) 0 128 = bit_field (u256_value v') 0 128 /\
  bit_field (u256_value v) 224 8 = bit_field (u256_value v') 224 8 /\
  RetABI_from_u256 v = mkRetABI (mkFatPointer 0 0 0 1) Ret_ForwardFatPointer.
Proof. exact pf_C41_example. Qed.

(** Near call: the low 32 bits. *)
Theorem C42_layout :
  forall v, u256_ok v -> nc_ergs_passed (NearCallABI_from_u256 v) = u256_value v mod 2 ^ 32.
Proof. exact pf_C42_layout. Qed.
Print Assumptions C42_layout.

Example C42_example :
  u256_ok (mkU256 (2 ^ 32 + 5) 1 1 1) /\
  nc_ergs_passed (NearCallABI_from_u256 (mkU256 (2 ^ 32 + 5) 1 1 1)) = 5.
Proof. exact pf_C42_example. Qed.

(** The inner ABI packs and unpacks exactly. *)
Theorem C43_inner :
  (forall p, inner_ok p ->
     PrecompileCallInnerABI_from_u256 (PrecompileCallInnerABI_to_u256 p) = p /\
     u256_ok (PrecompileCallInnerABI_to_u256 p) /\
     u256_value (PrecompileCallInnerABI_to_u256 p) =
       pi_input_memory_offset p + 2 ^ 32 * pi_input_memory_length p +
       2 ^ 64 * pi_output_memory_offset p + 2 ^ 96 * pi_output_memory_length p +
       2 ^ 128 * pi_memory_page_to_read p + 2 ^ 160 * pi_memory_page_to_write p +
       2 ^ 192 * pi_precompile_interpreted_data p) /\
  (forall v, u256_ok v ->
     inner_ok (PrecompileCallInnerABI_from_u256 v) /\
     PrecompileCallInnerABI_to_u256 (PrecompileCallInnerABI_from_u256 v) = v).
Proof. exact pf_C43_inner. Qed.
Print Assumptions C43_inner.

(** The outer ABI is the inner one without the pages. *)
Theorem C43_outer :
  (forall v, let a := PrecompileCallABI_from_u256 v in
     let i := PrecompileCallInnerABI_from_u256 v in
     pc_input_memory_offset a = pi_input_memory_offset i /\
     pc_input_memory_length a = pi_input_memory_length i /\
     pc_output_memory_offset a = pi_output_memory_offset i /\
     pc_output_memory_length a = pi_output_memory_length i /\
     pc_per_precompile_interpreted a = pi_precompile_interpreted_data i) /\
  (forall v, u256_ok v ->
     let x := u256_value v in
     PrecompileCallABI_from_u256 v =
       mkPrecompileCallABI (bit_field x 0 32) (bit_field x 32 32) (bit_field x 64 32)
         (bit_field x 96 32) (bit_field x 192 64)) /\
  (forall p r w,
     PrecompileCallABI_from_u256 (PrecompileCallInnerABI_to_u256
       (mkPrecompileCallInnerABI (pi_input_memory_offset p) (pi_input_memory_length p)
          (pi_output_memory_offset p) (pi_output_memory_length p) r w
          (pi_precompile_interpreted_data p))) =
     PrecompileCallABI_from_u256 (PrecompileCallInnerABI_to_u256 p)).
Proof. exact pf_C43_outer. Qed.
Print Assumptions C43_outer.

Example C43_example :
  inner_ok (mkPrecompileCallInnerABI 1 2 3 4 5 6 7) /\
  u256_ok (mkU256 (1 + 2 ^ 32 * 2) (3 + 2 ^ 32 * 4) (5 + 2 ^ 32 * 6) 7) /\
  PrecompileCallInnerABI_from_u256 (mkU256 (1 + 2 ^ 32 * 2) (3 + 2 ^ 32 * 4) (5 + 2 ^ 32 * 6) 7)
  = mkPrecompileCallInnerABI 1 2 3 4 5 6 7.
Proof. exact pf_C43_example. Qed.

(** The packed value; nothing is lost. *)
Theorem C44_layout :
  forall p, meta_ok p ->
    u256_ok (VmMetaParameters_to_u256 p) /\
    u256_value (VmMetaParameters_to_u256 p) =
      ergs_per_pubdata_byte p + 2 ^ 64 * heap_size p + 2 ^ 96 * aux_heap_size p +
      2 ^ 224 * this_shard_id p + 2 ^ 232 * caller_shard_id p + 2 ^ 240 * code_shard_id p.
Proof. exact pf_C44_layout. Qed.
Print Assumptions C44_layout.

(** Packing is injective. *)
Theorem C44_injective :
  forall p p', meta_ok p -> meta_ok p' ->
    VmMetaParameters_to_u256 p = VmMetaParameters_to_u256 p' -> p = p'.
Proof. exact pf_C44_injective. Qed.
Print Assumptions C44_injective.

Example C44_example :
  meta_ok (mkVmMetaParameters 1 2 3 4 5 6) /\
  VmMetaParameters_to_u256 (mkVmMetaParameters 1 2 3 4 5 6)
  = mkU256 1 (2 + 2 ^ 32 * 3) 0 (2 ^ 32 * (4 + 256 * 5 + 65536 * 6)).
Proof. exact pf_C44_example. Qed.

(** The bytes a contract-code hash serializes to. *)
Theorem C45_serialize :
  forall h, storage_ok (data h) ->
    VersionedHash_serialize ContractCodeSha256 h =
      Ok (Some (hash_bytes (extra_marker (data h)) (code_length_in_words (data h))
                  (partial_hash (data h)))) /\
    byte_array 32 (hash_bytes (extra_marker (data h)) (code_length_in_words (data h))
                     (partial_hash (data h))).
Proof. exact pf_C45_serialize. Qed.
Print Assumptions C45_serialize.

(** Parsing: total on 32 bytes, succeeds exactly when the first byte is 1. *)
Theorem C45_parse :
  forall b, byte_array 32 b ->
    (hd 0 b <> 1 -> VersionedHash_try_create_from_raw ContractCodeSha256 b = Ok None) /\
    (hd 0 b = 1 -> exists h, VersionedHash_try_create_from_raw ContractCodeSha256 b = Ok (Some h) /\
       storage_ok (VersionedHash_layout_ref h) /\
       VersionedHash_serialize ContractCodeSha256 h = Ok (Some b)).
Proof. exact pf_C45_parse. Qed.
Print Assumptions C45_parse.

(** Parsing what was serialized. *)
Theorem C45_roundtrip :
  forall h b, storage_ok (data h) -> VersionedHash_serialize ContractCodeSha256 h = Ok (Some b) ->
    VersionedHash_try_create_from_raw ContractCodeSha256 b = Ok (Some h).
Proof. exact pf_C45_roundtrip. Qed.
Print Assumptions C45_roundtrip.

Example C45_example :
  storage_ok (mkContractCodeSha256Storage 515 1 (repeat 255 28)) /\
  VersionedHash_serialize ContractCodeSha256
    (mkVersionedHashGeneric (mkContractCodeSha256Storage 515 1 (repeat 255 28)))
  = Ok (Some ([1; 1; 2; 3] ++ repeat 255 28)).
Proof. exact pf_C45_example. Qed.

(** The stored form: the same bytes with marker zero, which parses back to the same hash at
    rest. *)
Theorem C46_stored :
  forall h, storage_ok (data h) ->
    let s := hash_bytes CODE_AT_REST_MARKER (code_length_in_words (data h))
               (partial_hash (data h)) in
    let rest := mkVersionedHashGeneric (mkContractCodeSha256Storage
      (code_length_in_words (data h)) CODE_AT_REST_MARKER (partial_hash (data h))) in
    VersionedHash_serialize_to_stored ContractCodeSha256 h = Ok (Some s) /\
    VersionedHash_try_create_from_raw ContractCodeSha256 s = Ok (Some rest) /\
    VersionedHash_serialize ContractCodeSha256 rest = Ok (Some s) /\
    VersionedHash_serialize_to_stored ContractCodeSha256 rest = Ok (Some s) /\
    (extra_marker (data h) = CODE_AT_REST_MARKER <->
     VersionedHash_serialize ContractCodeSha256 h
       = VersionedHash_serialize_to_stored ContractCodeSha256 h).
Proof. exact pf_C46_stored. Qed.
Print Assumptions C46_stored.

(** Two hashes have the same stored form exactly when they differ at most in the marker. *)
Theorem C46_same_stored :
  forall h h', storage_ok (data h) -> storage_ok (data h') ->
    (VersionedHash_serialize_to_stored ContractCodeSha256 h
       = VersionedHash_serialize_to_stored ContractCodeSha256 h' <->
     code_length_in_words (data h) = code_length_in_words (data h') /\
     partial_hash (data h) = partial_hash (data h')).
Proof. exact pf_C46_same_stored. Qed.
Print Assumptions C46_same_stored.

(** The two markers. *)
Theorem C46_markers :
  CODE_AT_REST_MARKER = 0 /\ YET_CONSTRUCTED_MARKER = 1 /\ VERSION_BYTE ContractCodeSha256 = 1.
Proof. exact pf_C46_markers. Qed.
Print Assumptions C46_markers.

Example C46_example :
  let h := mkVersionedHashGeneric (mkContractCodeSha256Storage 515 1 (repeat 255 28)) in
  let h' := mkVersionedHashGeneric (mkContractCodeSha256Storage 515 0 (repeat 255 28)) in
  storage_ok (data h) /\ storage_ok (data h') /\ h <> h' /\
  VersionedHash_serialize_to_stored ContractCodeSha256 h
  = Ok (Some ([1; 0; 2; 3] ++ repeat 255 28)) /\
  VersionedHash_serialize_to_stored ContractCodeSha256 h'
  = VersionedHash_serialize_to_stored ContractCodeSha256 h.
Proof. exact pf_C46_example. Qed.

(** The production code hash of every bytecode. *)
Theorem C47_hash :
  forall sha256 ws, digest_function sha256 -> len ws < 2 ^ 64 ->
    ((N.even (len ws) = true \/ 65535 < len ws) -> bytecode_to_code_hash sha256 ws = Ok None) /\
    (N.odd (len ws) = true -> len ws <= 65535 ->
       let b := hash_bytes 0 (len ws) (skipn 4 (sha256 (List.concat ws))) in
       bytecode_to_code_hash sha256 ws = Ok (Some b) /\
       byte_array 32 b /\
       exists h, VersionedHash_try_create_from_raw ContractCodeSha256 b = Ok (Some h) /\
         code_length_in_words (VersionedHash_layout_ref h) = len ws /\
         extra_marker (VersionedHash_layout_ref h) = CODE_AT_REST_MARKER /\
         partial_hash (VersionedHash_layout_ref h) = skipn 4 (sha256 (List.concat ws))).
Proof. exact pf_C47_hash. Qed.
Print Assumptions C47_hash.

(** Equal code hashes mean equal lengths and equal truncated digests. *)
Theorem C47_collisions :
  forall sha256 ws ws' b, digest_function sha256 -> len ws < 2 ^ 64 -> len ws' < 2 ^ 64 ->
    bytecode_to_code_hash sha256 ws = Ok (Some b) ->
    bytecode_to_code_hash sha256 ws' = Ok (Some b) ->
    len ws = len ws' /\
    skipn 4 (sha256 (List.concat ws)) = skipn 4 (sha256 (List.concat ws')).
Proof. exact pf_C47_collisions. Qed.
Print Assumptions C47_collisions.

(** Two different bytecodes share a code hash only if two different messages of the same
    length share the last 28 bytes of their digest. *)
Theorem C47_distinct :
  forall sha256 ws ws' b, digest_function sha256 -> len ws < 2 ^ 64 -> len ws' < 2 ^ 64 ->
    Forall (byte_array 32) ws -> Forall (byte_array 32) ws' -> ws <> ws' ->
    bytecode_to_code_hash sha256 ws = Ok (Some b) ->
    bytecode_to_code_hash sha256 ws' = Ok (Some b) ->
    List.concat ws <> List.concat ws' /\
    List.length (List.concat ws) = List.length (List.concat ws') /\
    skipn 4 (sha256 (List.concat ws)) = skipn 4 (sha256 (List.concat ws')).
Proof. exact pf_C47_distinct. Qed.
Print Assumptions C47_distinct.

Example C47_example :
  digest_function (fun _ => repeat 7 32) /\
  bytecode_to_code_hash (fun _ => repeat 7 32) [repeat 0 32; repeat 1 32; repeat 2 32]
  = Ok (Some ([1; 0; 0; 3] ++ repeat 7 28)) /\
  bytecode_to_code_hash (fun _ => repeat 7 32) [repeat 0 32; repeat 1 32] = Ok None /\
  Forall (byte_array 32) [repeat 0 32] /\ Forall (byte_array 32) [repeat 1 32] /\
  [repeat 0 32] <> [repeat 1 32] /\
  bytecode_to_code_hash (fun _ => repeat 7 32) [repeat 0 32]
  = bytecode_to_code_hash (fun _ => repeat 7 32) [repeat 1 32].
Proof. exact pf_C47_example. Qed.

(** Testing mode: the stored length is the length modulo 65536, right exactly for lengths
    below 65536. *)
Theorem C48_actual :
  forall sha256 ws, digest_function sha256 -> len ws < 2 ^ 64 ->
    ((N.even (len ws) = true \/ 2 ^ 32 - 1 < len ws) ->
       bytecode_to_code_hash_for_mode sha256 EncodingModeTesting ws = Ok None) /\
    (N.odd (len ws) = true -> len ws <= 2 ^ 32 - 1 ->
       exists b h,
       bytecode_to_code_hash_for_mode sha256 EncodingModeTesting ws = Ok (Some b) /\
       b = hash_bytes 0 (len ws mod 65536) (skipn 4 (sha256 (List.concat ws))) /\
       VersionedHash_try_create_from_raw ContractCodeSha256 b = Ok (Some h) /\
       (code_length_in_words (VersionedHash_layout_ref h) = len ws <-> len ws <= 65535)).
Proof. exact pf_C48_actual. Qed.
Print Assumptions C48_actual.

(** Any encoding mode, also one defined outside the crate: only its largest program counter
    matters, as the limit on the length. *)
Theorem C48_any_mode :
  forall sha256 E ws, digest_function sha256 -> len ws < 2 ^ 64 ->
    let limit := pc_as_u64 (PcOrImm E) (pc_max (PcOrImm E)) in
    (bytecode_to_code_hash_for_mode sha256 E ws = Ok None <->
       N.even (len ws) = true \/ limit < len ws) /\
    (N.odd (len ws) = true -> len ws <= limit ->
       bytecode_to_code_hash_for_mode sha256 E ws
       = Ok (Some (hash_bytes 0 (len ws mod 65536) (skipn 4 (sha256 (List.concat ws)))))).
Proof. exact pf_C48_any_mode. Qed.
Print Assumptions C48_any_mode.

(** Expected: the recorded length is the bytecode's.  False for 65537 words. *)
Theorem C48_refuted :
  ~ (forall sha256 ws b h, digest_function sha256 -> Forall (byte_array 32) ws ->
       len ws < 2 ^ 64 ->
       bytecode_to_code_hash_for_mode sha256 EncodingModeTesting ws = Ok (Some b) ->
       VersionedHash_try_create_from_raw ContractCodeSha256 b = Ok (Some h) ->
       code_length_in_words (VersionedHash_layout_ref h) = len ws).
Proof. exact pf_C48_refuted. Qed.
Print Assumptions C48_refuted.

(** A 3-word program in the testing mode: accepted, with the right recorded length;
    and a mode with two-bit program counters. *)
Example C48_example :
  digest_function (fun _ => repeat 7 32) /\
  bytecode_to_code_hash_for_mode (fun _ => repeat 7 32) EncodingModeTesting
    [repeat 0 32; repeat 1 32; repeat 2 32]
  = Ok (Some ([1; 0; 0; 3] ++ repeat 7 28)) /\
  bytecode_to_code_hash_for_mode (fun _ => repeat 7 32) EncodingModeTesting
    [repeat 0 32; repeat 1 32] = Ok None /\
  (let E := mkVmEncodingMode 8 (mkAllowedPcOrImm (fun x => x mod 4) (fun x => x) N.add N.sub 3)
              (fun _ => Panic) (fun _ => Panic) (fun _ => Panic) (fun _ _ => Panic)
              (fun _ _ => Panic) (fun x => (x, 0)) (fun _ _ => Panic) (fun _ => true) in
   bytecode_to_code_hash_for_mode (fun _ => repeat 7 32) E (repeat (repeat 0 32) 3)
   = Ok (Some ([1; 0; 0; 3] ++ repeat 7 28)) /\
   bytecode_to_code_hash_for_mode (fun _ => repeat 7 32) E (repeat (repeat 0 32) 5) = Ok None).
Proof. exact pf_C48_example. Qed.
