(** * Reassembling a bytecode

    Statements only: each proof is the lemma of the same name in [ProofsReassemble]. *)

From Coq Require Import Arith NArith List Bool String Ascii.
From Verif Require Import Machine Operands OpcodeTrait Opcodes AllOpcodes Tables Decoding Abi
  VersionedHash Constants SpecIsa SpecCodec SpecAbi SpecCompose SpecReassemble ProofsReassemble.
Import ListNotations.
Open Scope N_scope.

(** Every bytecode is in some page, and can be reassembled in exactly one way; nothing fails. *)
Theorem C86_total :
  forall ws, Forall (byte_array 32) ws ->
    (exists page, code_page page ws) /\
    forall m bld page, code_page page ws ->
      exists ws', reassembled m bld page (List.length ws) ws' /\
        List.length ws' = List.length ws /\
        forall bld' page' ws'', code_page page' ws ->
          reassembled m bld' page' (List.length ws) ws'' -> ws'' = ws'.
Proof. exact pf_C86_total. Qed.
Print Assumptions C86_total.

(** The new bytecode means the same at every place, also after the end, and all its words are
    canonical. *)
Theorem C86_meaning :
  forall m bld ws page ws' page',
    Forall (byte_array 32) ws -> code_page page ws ->
    reassembled m bld page (List.length ws) ws' -> code_page page' ws' ->
    forall i, exists d w',
      nth_instruction m page i d /\ nth_instruction m page' i d /\
      nth_word m page' i = Ok w' /\ is_canonical_encoding (mode_impl m) w' = true /\
      lossless m w' /\ fetch m page' i = Ok w'.
Proof. exact pf_C86_meaning. Qed.
Print Assumptions C86_meaning.

(** A bytecode is unchanged exactly if all its instruction words are read without loss. *)
Theorem C86_fixed :
  forall m bld ws page, Forall (byte_array 32) ws -> code_page page ws ->
    (reassembled m bld page (List.length ws) ws <->
     forall i w, nth_word m page i = Ok w -> lossless m w).
Proof. exact pf_C86_fixed. Qed.
Print Assumptions C86_fixed.

(** Reassembling once more changes nothing. *)
Theorem C86_idempotent :
  forall m bld bld' ws page ws' page',
    Forall (byte_array 32) ws -> code_page page ws ->
    reassembled m bld page (List.length ws) ws' -> code_page page' ws' ->
    reassembled m bld' page' (List.length ws') ws'.
Proof. exact pf_C86_idempotent. Qed.
Print Assumptions C86_idempotent.

(** Two bytecodes of the same length become the same exactly if they mean the same. *)
Theorem C86_normal_form :
  forall m bld bld' ws1 ws2 page1 page2 ws1' ws2',
    Forall (byte_array 32) ws1 -> Forall (byte_array 32) ws2 ->
    List.length ws1 = List.length ws2 -> code_page page1 ws1 -> code_page page2 ws2 ->
    reassembled m bld page1 (List.length ws1) ws1' ->
    reassembled m bld' page2 (List.length ws2) ws2' ->
    (ws1' = ws2' <->
     forall i, exists d, nth_instruction m page1 i d /\ nth_instruction m page2 i d).
Proof. exact pf_C86_normal_form. Qed.
Print Assumptions C86_normal_form.

(** The code hash is defined for both or for neither, and it changes with the bytecode, unless
    two messages of the same length share the last 28 bytes of their digest. *)
Theorem C86_hash :
  forall m bld sha256 ws page ws', digest_function sha256 -> len ws < 2 ^ 64 ->
    Forall (byte_array 32) ws -> code_page page ws ->
    reassembled m bld page (List.length ws) ws' ->
    ((exists b, bytecode_to_code_hash sha256 ws = Ok (Some b)) <->
     (exists b, bytecode_to_code_hash sha256 ws' = Ok (Some b))) /\
    (forall b, bytecode_to_code_hash sha256 ws = Ok (Some b) ->
       bytecode_to_code_hash sha256 ws' = Ok (Some b) ->
       (forall i w, nth_word m page i = Ok w -> lossless m w) \/
       List.concat ws <> List.concat ws' /\
       List.length (List.concat ws) = List.length (List.concat ws') /\
       skipn 4 (sha256 (List.concat ws)) = skipn 4 (sha256 (List.concat ws'))).
Proof. exact pf_C86_hash. Qed.
Print Assumptions C86_hash.

(** A bytecode of one word whose second instruction has a gap bit set and whose third has an
    unassigned number. *)
Example C86_example :
  let ws := [to_be_bytes 8 1 ++ to_be_bytes 8 (0x0001FFFF07F3A06C + 2 ^ 11)
             ++ to_be_bytes 8 (1093 + 2 ^ 32) ++ to_be_bytes 8 0] in
  let ws' := [to_be_bytes 8 1 ++ to_be_bytes 8 0x0001FFFF07F3A06C
              ++ to_be_bytes 8 (2 ^ 32) ++ to_be_bytes 8 0] in
  let page := fun k => if k =? 0 then mkU256 0 (1093 + 2 ^ 32) (0x0001FFFF07F3A06C + 2 ^ 11) 1
                       else mkU256 0 0 0 0 in
  Forall (byte_array 32) ws /\ code_page page ws /\
  reassembled ProductionMode Debug page 1 ws' /\ ws <> ws' /\
  nth_word ProductionMode page 1 = Ok (0x0001FFFF07F3A06C + 2 ^ 11) /\
  ~ lossless ProductionMode (0x0001FFFF07F3A06C + 2 ^ 11) /\
  nth_word ProductionMode page 2 = Ok (1093 + 2 ^ 32) /\
  ~ lossless ProductionMode (1093 + 2 ^ 32) /\ lossless ProductionMode 0x0001FFFF07F3A06C.
Proof. exact pf_C86_example. Qed.
