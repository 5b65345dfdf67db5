(** * SHA-256 as the code hash uses it: utils.rs:34-44.  Definitions only.

    The [sha2] crate is an external dependency; its hasher is modelled after the standard it
    implements, FIPS 180-4 (sections 4.1.2, 4.2.2, 5.1.1, 5.3.3, 6.2.2), with the streaming
    interface of [Digest]: a buffer of less than one block, the chaining value, and the number
    of bytes absorbed. *)

From Verif Require Import Machine Decoding VersionedHash.

(** [Sha256] in utils.rs:36; 32-bit words, FIPS 180-4 section 3.2. *)
Definition rotr (n x : N) : N := N.lor (N.shiftr x n) (as_u32 (N.shiftl x (32 - n))).
(** [Sha256] in utils.rs:36; addition modulo 2^32, FIPS 180-4 section 3.2. *)
Definition add32 (a b : N) : N := as_u32 (a + b).
(** [Sha256] in utils.rs:36; FIPS 180-4 (4.2) *)
Definition Ch (x y z : N) : N := N.lxor (N.land x y) (N.land (N.lxor x (2 ^ 32 - 1)) z).
(** [Sha256] in utils.rs:36; FIPS 180-4 (4.3) *)
Definition Maj (x y z : N) : N := N.lxor (N.lxor (N.land x y) (N.land x z)) (N.land y z).
(** [Sha256] in utils.rs:36; FIPS 180-4 (4.4) *)
Definition big_sigma0 (x : N) : N := N.lxor (N.lxor (rotr 2 x) (rotr 13 x)) (rotr 22 x).
(** [Sha256] in utils.rs:36; FIPS 180-4 (4.5) *)
Definition big_sigma1 (x : N) : N := N.lxor (N.lxor (rotr 6 x) (rotr 11 x)) (rotr 25 x).
(** [Sha256] in utils.rs:36; FIPS 180-4 (4.6) *)
Definition small_sigma0 (x : N) : N := N.lxor (N.lxor (rotr 7 x) (rotr 18 x)) (N.shiftr x 3).
(** [Sha256] in utils.rs:36; FIPS 180-4 (4.7) *)
Definition small_sigma1 (x : N) : N := N.lxor (N.lxor (rotr 17 x) (rotr 19 x)) (N.shiftr x 10).

(** [Sha256] in utils.rs:36; FIPS 180-4 section 4.2.2 *)
Definition round_constants : list N :=
  [ 0x428a2f98; 0x71374491; 0xb5c0fbcf; 0xe9b5dba5; 0x3956c25b; 0x59f111f1;
    0x923f82a4; 0xab1c5ed5; 0xd807aa98; 0x12835b01; 0x243185be; 0x550c7dc3;
    0x72be5d74; 0x80deb1fe; 0x9bdc06a7; 0xc19bf174; 0xe49b69c1; 0xefbe4786;
    0x0fc19dc6; 0x240ca1cc; 0x2de92c6f; 0x4a7484aa; 0x5cb0a9dc; 0x76f988da;
    0x983e5152; 0xa831c66d; 0xb00327c8; 0xbf597fc7; 0xc6e00bf3; 0xd5a79147;
    0x06ca6351; 0x14292967; 0x27b70a85; 0x2e1b2138; 0x4d2c6dfc; 0x53380d13;
    0x650a7354; 0x766a0abb; 0x81c2c92e; 0x92722c85; 0xa2bfe8a1; 0xa81a664b;
    0xc24b8b70; 0xc76c51a3; 0xd192e819; 0xd6990624; 0xf40e3585; 0x106aa070;
    0x19a4c116; 0x1e376c08; 0x2748774c; 0x34b0bcb5; 0x391c0cb3; 0x4ed8aa4a;
    0x5b9cca4f; 0x682e6ff3; 0x748f82ee; 0x78a5636f; 0x84c87814; 0x8cc70208;
    0x90befffa; 0xa4506ceb; 0xbef9a3f7; 0xc67178f2 ].

(** The chaining value; [Sha256] in utils.rs:36. *)
Record ShaState := mkShaState {
  sha_a : N; sha_b : N; sha_c : N; sha_d : N; sha_e : N; sha_f : N; sha_g : N; sha_h : N
}.

(** [Sha256::new] in utils.rs:36; FIPS 180-4 section 5.3.3 *)
Definition sha_initial : ShaState :=
  mkShaState 0x6a09e667 0xbb67ae85 0x3c6ef372 0xa54ff53a 0x510e527f 0x9b05688c 0x1f83d9ab
    0x5be0cd19.

(** [update] in utils.rs:38: the list [l] in [n] pieces of [k] bytes. *)
Fixpoint cut (k n : nat) (l : list N) : list (list N) :=
  match n with
  | O => []
  | S n' => firstn k l :: cut k n' (skipn k l)
  end.

(** [update] in utils.rs:38; FIPS 180-4 section 6.2.2, step 1, the [n] words after the words
    [ws], given and returned with the newest word first. *)
Fixpoint extend_words (n : nat) (ws : list N) : list N :=
  match n with
  | O => ws
  | S n' =>
      extend_words n'
        (add32 (add32 (small_sigma1 (nth 1 ws 0)) (nth 6 ws 0))
               (add32 (small_sigma0 (nth 14 ws 0)) (nth 15 ws 0)) :: ws)
  end.

(** [update] in utils.rs:38; FIPS 180-4 section 6.2.2, step 1, for a block of 64 bytes. *)
Definition message_schedule (block : list N) : list N :=
  rev (extend_words 48 (rev (map from_be_bytes (cut 4 16 block)))).

(** [update] in utils.rs:38; FIPS 180-4 section 6.2.2, step 3, with the round constant and the
    word of the schedule. *)
Definition sha_round (s : ShaState) (kw : N * N) : ShaState :=
  let T1 := add32 (add32 (add32 (sha_h s) (big_sigma1 (sha_e s)))
                         (add32 (Ch (sha_e s) (sha_f s) (sha_g s)) (fst kw))) (snd kw) in
  let T2 := add32 (big_sigma0 (sha_a s)) (Maj (sha_a s) (sha_b s) (sha_c s)) in
  mkShaState (add32 T1 T2) (sha_a s) (sha_b s) (sha_c s)
             (add32 (sha_d s) T1) (sha_e s) (sha_f s) (sha_g s).

(** [update] in utils.rs:38; FIPS 180-4 section 6.2.2 *)
Definition compress (s : ShaState) (block : list N) : ShaState :=
  let r := fold_left sha_round (combine round_constants (message_schedule block)) s in
  mkShaState (add32 (sha_a s) (sha_a r)) (add32 (sha_b s) (sha_b r))
             (add32 (sha_c s) (sha_c r)) (add32 (sha_d s) (sha_d r))
             (add32 (sha_e s) (sha_e r)) (add32 (sha_f s) (sha_f r))
             (add32 (sha_g s) (sha_g r)) (add32 (sha_h s) (sha_h r)).

(** The hasher; [Sha256] in utils.rs:36. *)
Record Hasher := mkHasher {
  hasher_state : ShaState;
  hasher_buffer : list N;
  hasher_total : N
}.

(** [Sha256::new], utils.rs:36 *)
Definition sha_new : Hasher := mkHasher sha_initial [] 0.

(** All whole blocks of [bytes], and the rest.  [hasher.update], utils.rs:38 *)
Definition absorb (s : ShaState) (bytes : list N) : ShaState * list N :=
  let n := Nat.div (List.length bytes) 64 in
  (fold_left compress (cut 64 n bytes) s, skipn (64 * n) bytes).

(** [hasher.update], utils.rs:38 *)
Definition sha_update (h : Hasher) (bytes : list N) : Hasher :=
  let (s, rest) := absorb (hasher_state h) (hasher_buffer h ++ bytes) in
  mkHasher s rest (hasher_total h + len bytes).

(** [hasher.finalize], utils.rs:41; FIPS 180-4 section 5.1.1 *)
Definition sha_finalize (h : Hasher) : list N :=
  let zeros := N.to_nat ((119 - len (hasher_buffer h)) mod 64) in
  let tail := hasher_buffer h ++ [0x80] ++ repeat 0 zeros
              ++ to_be_bytes 8 (as_u64 (8 * hasher_total h)) in
  let (s, _) := absorb (hasher_state h) tail in
  List.concat (map (to_be_bytes 4)
    [sha_a s; sha_b s; sha_c s; sha_d s; sha_e s; sha_f s; sha_g s; sha_h s]).

(** The digest of a message absorbed at once; utils.rs:36-41. *)
Definition sha256 (message : list N) : list N := sha_finalize (sha_update sha_new message).

(** utils.rs:19-61, with the hasher above instead of a parameter. *)
Definition code_hash_for_mode (E : VmEncodingMode) (bytecode_words : list (list N))
  : res (option (list N)) :=
  let n := len bytecode_words in
  if negb (n mod 2 =? 1) then Ok None
  else if pc_as_u64 (PcOrImm E) (pc_max (PcOrImm E)) <? as_u64 n then Ok None
  else
    let hasher := fold_left sha_update bytecode_words sha_new in
    let result := sha_finalize hasher in
    let output := repeat 0 32 in
    let* _ := assert_ (len result =? 32) in   (* copy_from_slice: lengths must agree *)
    let* output := copy_into output 0 result in
    let* versioned_hash := from_digest_and_preimage_num_words output (as_u16 n) in
    let* versioned_hash_bytes := VersionedHash_serialize ContractCodeSha256 versioned_hash in
    match versioned_hash_bytes with
    | Some b => Ok (Some b)
    | None => Ok None                          (* .ok_or(())? *)
    end.
