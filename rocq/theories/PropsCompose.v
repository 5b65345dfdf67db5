(** * Building register words, patching words, laying out programs (C70-C72)

    Statements only: each proof is the lemma of the same name in [ProofsCompose]. *)

From Coq Require Import Arith NArith List Bool String Ascii.
From Verif Require Import Machine Operands OpcodeTrait Opcodes AllOpcodes Tables Decoding Abi
  VersionedHash Constants SpecIsa SpecCodec SpecAbi SpecCompose ProofsCompose.
Import ListNotations.
Open Scope N_scope.

(** Every far-call request has a register word, which reads back as that request. *)
Theorem C70_far_call :
  (forall a, far_call_ok a ->
     exists v, u256_ok v /\ u256_value v = far_call_word a /\ FarCallABI_from_u256 v = a) /\
  (forall v, u256_ok v -> far_call_ok (FarCallABI_from_u256 v)).
Proof. exact pf_C70_far_call. Qed.
Print Assumptions C70_far_call.

(** The same for returns. *)
Theorem C70_ret :
  (forall a, ret_ok a ->
     exists v, u256_ok v /\ u256_value v = ret_word a /\ RetABI_from_u256 v = a) /\
  (forall v, u256_ok v -> ret_ok (RetABI_from_u256 v)).
Proof. exact pf_C70_ret. Qed.
Print Assumptions C70_ret.

(** The same for near calls and precompile calls. *)
Theorem C70_calls :
  (forall e, e < 2 ^ 32 -> forall v, u256_ok v -> u256_value v = e ->
     NearCallABI_from_u256 v = mkNearCallABI e) /\
  (forall v, u256_ok v -> nc_ergs_passed (NearCallABI_from_u256 v) < 2 ^ 32) /\
  (forall a, precompile_ok a ->
     exists v, u256_ok v /\ u256_value v = precompile_word a /\
       PrecompileCallABI_from_u256 v = a) /\
  (forall v, u256_ok v -> precompile_ok (PrecompileCallABI_from_u256 v)).
Proof. exact pf_C70_calls. Qed.
Print Assumptions C70_calls.

(** Exactly which words read alike. *)
Theorem C70_alike :
  forall v v', u256_ok v -> u256_ok v' ->
  let x := u256_value v in let x' := u256_value v' in
  (FarCallABI_from_u256 v = FarCallABI_from_u256 v' <->
     bit_field x 0 128 = bit_field x' 0 128 /\ bit_field x 192 32 = bit_field x' 192 32 /\
     same_forwarding (le_byte x 28) (le_byte x' 28) /\ le_byte x 29 = le_byte x' 29 /\
     (le_byte x 30 = 0 <-> le_byte x' 30 = 0) /\ (le_byte x 31 = 0 <-> le_byte x' 31 = 0)) /\
  (RetABI_from_u256 v = RetABI_from_u256 v' <->
     bit_field x 0 128 = bit_field x' 0 128 /\ same_forwarding (le_byte x 28) (le_byte x' 28)) /\
  (NearCallABI_from_u256 v = NearCallABI_from_u256 v' <->
     bit_field x 0 32 = bit_field x' 0 32) /\
  (PrecompileCallABI_from_u256 v = PrecompileCallABI_from_u256 v' <->
     bit_field x 0 128 = bit_field x' 0 128 /\ bit_field x 192 64 = bit_field x' 192 64).
Proof. exact pf_C70_alike. Qed.
Print Assumptions C70_alike.

(** A far call of the empty page with 1000 ergs, shard 7, to the system; and two words that
    differ in ignored bits, in an unknown forwarding byte and in a flag byte. *)
Example C70_example :
  let a := mkFarCallABI (mkFatPointer 3 0 64 32) 1000 7 FarCall_UseAuxHeap false true in
  let v := mkU256 3 0 99 (1000 + 2 ^ 32 * (3 + 256 * 7 + 65536 * 1 + 16777216 * 9)) in
  let v' := mkU256 3 0 5 (1000 + 2 ^ 32 * (255 + 256 * 7 + 65536 * 2 + 16777216 * 1)) in
  far_call_ok a /\ ret_ok (mkRetABI (mkFatPointer 3 0 64 32) Ret_UseAuxHeap) /\
  precompile_ok (mkPrecompileCallABI 1 2 3 4 5) /\
  u256_ok v /\ u256_ok v' /\ v <> v' /\ FarCallABI_from_u256 v = FarCallABI_from_u256 v'.
Proof. exact pf_C70_example. Qed.

(** Patching one field of an encoded instruction gives the encoding of the edited one. *)
Theorem C71_patch :
  forall m bld d w e,
  typed (mode_imm_bits m) d -> regs_in_range d ->
  encode_as_integer (mode_impl m) bld d = Ok w ->
  edit_fits (mode_imm_bits m) e ->
  encode_as_integer (mode_impl m) bld (apply_edit e d) = Ok (patch (mode_imm_bits m) e w).
Proof. exact pf_C71_patch. Qed.
Print Assumptions C71_patch.

(** Patching one field of any word changes that field of the decoded instruction only. *)
Theorem C71_decode :
  forall m w d n e,
  parse_preliminary_variant_and_absolute_number (mode_impl m) w = Ok (d, n) ->
  edit_fits (mode_imm_bits m) e ->
  parse_preliminary_variant_and_absolute_number (mode_impl m) (patch (mode_imm_bits m) e w)
  = Ok (apply_edit e d,
        match e with
        | SetVariant x =>
            mkVariantMonotonicNumber (match spec_number x with Some k => k | None => 0 end)
        | _ => n
        end).
Proof. exact pf_C71_decode. Qed.
Print Assumptions C71_decode.

(** Any sequence of edits. *)
Theorem C71_sequence :
  forall m bld es d w,
  typed (mode_imm_bits m) d -> regs_in_range d ->
  encode_as_integer (mode_impl m) bld d = Ok w ->
  Forall (edit_fits (mode_imm_bits m)) es ->
  encode_as_integer (mode_impl m) bld (fold_left (fun x e => apply_edit e x) es d)
  = Ok (fold_left (fun x e => patch (mode_imm_bits m) e x) es w).
Proof. exact pf_C71_sequence. Qed.
Print Assumptions C71_sequence.

(** Relocating the first immediate of a subtraction and redirecting its second source. *)
Example C71_example :
  typed 16 example_sub /\ regs_in_range example_sub /\
  encode_as_integer EncodingModeProduction Debug example_sub = Ok 0x0001FFFF07F3A06C /\
  Forall (edit_fits 16) [SetImm0 0x1234; SetSrc1 9; SetCondition Ne_; SetVariant example_nop] /\
  patch 16 (SetImm0 0x1234) 0x0001FFFF07F3A06C = 0x0001123407F3A06C /\
  apply_edit (SetImm0 0x1234) example_sub <> example_sub.
Proof. exact pf_C71_example. Qed.

(** Running a program from a code page: the instruction at every program counter is the one
    written there, and past the end of the program it is the invalid one. *)
Theorem C72_run :
  forall m bld prog chunks pad ws page,
  Forall (fun d => typed (mode_imm_bits m) d /\ regs_in_range d) prog ->
  Forall2 (fun d b => serialize_as_bytes (mode_impl m) bld d = Ok b) prog chunks ->
  Forall (fun w => List.length w = 32%nat) ws ->
  List.concat ws = List.concat chunks ++ repeat 0 pad ->
  code_page page ws ->
  forall pc, exists w n, fetch m page pc = Ok w /\
    parse_preliminary_variant_and_absolute_number (mode_impl m) w
    = Ok (match nth_error prog (N.to_nat pc) with
          | Some d => d
          | None => spec_zero_instruction
          end, n).
Proof. exact pf_C72_run. Qed.
Print Assumptions C72_run.

(** Every program that fits has a bytecode with a code hash, which commits to its words. *)
Theorem C72_deploy :
  forall m bld sha256 prog chunks,
  digest_function sha256 ->
  Forall (fun d => typed (mode_imm_bits m) d /\ regs_in_range d) prog ->
  Forall2 (fun d b => serialize_as_bytes (mode_impl m) bld d = Ok b) prog chunks ->
  (mode_bytes m * List.length prog <= 32 * N.to_nat 65535)%nat ->
  exists pad ws,
    Forall (fun w => List.length w = 32%nat) ws /\
    List.concat ws = List.concat chunks ++ repeat 0 pad /\ (pad <= 63)%nat /\
    bytecode_to_code_hash sha256 ws
    = Ok (Some (hash_bytes 0 (len ws)
        (skipn 4 (sha256 (List.concat chunks ++ repeat 0 pad))))).
Proof. exact pf_C72_deploy. Qed.
Print Assumptions C72_deploy.

(** Two instructions in one memory word, then zeros. *)
Example C72_example :
  let prog := [mkDecodedOpcode example_nop Always 0 0 0 0 0 0; example_sub] in
  let chunks := [[0; 0; 0; 0; 0; 0; 0; 1]; [0; 1; 0xFF; 0xFF; 7; 0xF3; 0xA0; 0x6C]] in
  let ws := [List.concat chunks ++ repeat 0 16] in
  let page := fun k => if k =? 0 then mkU256 0 0 0x0001FFFF07F3A06C 1 else mkU256 0 0 0 0 in
  Forall (fun d => typed 16 d /\ regs_in_range d) prog /\
  Forall2 (fun d b => serialize_as_bytes EncodingModeProduction Debug d = Ok b) prog chunks /\
  Forall (fun w => List.length w = 32%nat) ws /\
  List.concat ws = List.concat chunks ++ repeat 0 16 /\ code_page page ws /\
  digest_function (fun _ => repeat 7 32) /\
  (mode_bytes ProductionMode * List.length prog <= 32 * N.to_nat 65535)%nat.
Proof. exact pf_C72_example. Qed.
