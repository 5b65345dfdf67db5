(** * SHA-256 in the code hash

    Statements only: each proof is the lemma of the same name in [ProofsSha]. *)

From Coq Require Import Arith NArith List Bool String Ascii.
From Verif Require Import Machine Operands OpcodeTrait Opcodes AllOpcodes Tables Decoding Abi
  VersionedHash Constants SpecIsa SpecCodec SpecAbi Sha256 SpecSha ProofsSha.
Import ListNotations.
Open Scope N_scope.

(** Compressing a block. *)
Theorem C87_compress :
  forall s b, state_ok s -> byte_array 64 b ->
    state_ok (compress s b) /\ forall s', spec_compress s b s' <-> compress s b = s'.
Proof. exact pf_C87_compress. Qed.
Print Assumptions C87_compress.

(** The hasher gives the SHA-256 of what it has absorbed, in whatever pieces. *)
Theorem C87_digest :
  forall pieces d, Forall is_bytes pieces ->
    (sha_finalize (fold_left sha_update pieces sha_new) = d
     <-> spec_sha256 (List.concat pieces) d).
Proof. exact pf_C87_digest. Qed.
Print Assumptions C87_digest.

(** The code hash with this hasher is the code hash with a digest function, so C47, C48, C72 and
    C86 apply to it. *)
Theorem C87_code_hash :
  digest_function sha256 /\
  (forall m, is_bytes m -> spec_sha256 m (sha256 m)) /\
  forall E ws, code_hash_for_mode E ws = bytecode_to_code_hash_for_mode sha256 E ws.
Proof. exact pf_C87_code_hash. Qed.
Print Assumptions C87_code_hash.

(** The production code hash of every accepted bytecode, without reference to the hasher. *)
Theorem C87_production :
  forall ws, Forall (byte_array 32) ws -> N.odd (len ws) = true -> len ws <= 65535 ->
    exists d, spec_sha256 (List.concat ws) d /\
      code_hash_for_mode EncodingModeProduction ws = Ok (Some (hash_bytes 0 (len ws) (skipn 4 d))).
Proof. exact pf_C87_production. Qed.
Print Assumptions C87_production.

Example C87_example :
  spec_sha256 [97; 98; 99]
    [0xba; 0x78; 0x16; 0xbf; 0x8f; 0x01; 0xcf; 0xea; 0x41; 0x41; 0x40; 0xde; 0x5d; 0xae; 0x22; 0x23;
     0xb0; 0x03; 0x61; 0xa3; 0x96; 0x17; 0x7a; 0x9c; 0xb4; 0x10; 0xff; 0x61; 0xf2; 0x00; 0x15; 0xad]
  /\ code_hash_for_mode EncodingModeProduction [repeat 7 32] =
     Ok (Some [1; 0; 0; 1; 78; 58; 119; 21; 210; 1; 213; 115; 208; 170; 66; 55; 98; 229; 93; 171;
               214; 26; 44; 2; 39; 143; 165; 108; 198; 210; 148; 224]).
Proof. exact pf_C87_example. Qed.
