(** * Versioned hashes: src/definitions/versioned_hash/mod.rs and utils.rs:13-61.
    Definitions only.

    A byte array [[u8; n]] is a list of length [n]; indexing and [copy_from_slice] panic
    when out of bounds, as in Rust.  Lists of another length, which the Rust types exclude,
    have no meaning here: the theorems assume the lengths of the types. *)

From Verif Require Import Machine Decoding.

(** [result[i] = x] on an array. Source: definitions/versioned_hash/mod.rs:71-83. *)
Definition set_byte (l : list N) (i : nat) (x : N) : res (list N) := copy_into l i [x].

(** definitions/versioned_hash/mod.rs:1-9, trait [VersionedHashDef] with its [StorageLayout] *)
Record VersionedHashDef (StorageLayout : Type) := mkVersionedHashDef {
  VERSION_BYTE : N;
  def_serialize : StorageLayout -> res (option (list N));
  def_serialize_to_stored : StorageLayout -> res (option (list N));
  def_try_deserialize : list N -> res (option StorageLayout)
}.
Arguments VERSION_BYTE {StorageLayout} _.
Arguments def_serialize {StorageLayout} _ _.
Arguments def_serialize_to_stored {StorageLayout} _ _.
Arguments def_try_deserialize {StorageLayout} _ _.

(** definitions/versioned_hash/mod.rs:12-14 *)
Record VersionedHashGeneric (StorageLayout : Type) := mkVersionedHashGeneric {
  data : StorageLayout
}.
Arguments mkVersionedHashGeneric {StorageLayout} _.
Arguments data {StorageLayout} _.

(** definitions/versioned_hash/mod.rs:17-19 *)
Definition VersionedHash_serialize {L} (V : VersionedHashDef L) (self : VersionedHashGeneric L)
  : res (option (list N)) := def_serialize V (data self).

(** definitions/versioned_hash/mod.rs:21-23 *)
Definition VersionedHash_serialize_to_stored {L} (V : VersionedHashDef L)
    (self : VersionedHashGeneric L) : res (option (list N)) :=
  def_serialize_to_stored V (data self).

(** definitions/versioned_hash/mod.rs:25-29 *)
Definition VersionedHash_try_create_from_raw {L} (V : VersionedHashDef L) (input : list N)
  : res (option (VersionedHashGeneric L)) :=
  let* layout := def_try_deserialize V input in
  match layout with
  | Some l => Ok (Some (mkVersionedHashGeneric l))
  | None => Ok None
  end.

(** definitions/versioned_hash/mod.rs:31-33 *)
Definition VersionedHash_layout_ref {L} (self : VersionedHashGeneric L) : L := data self.

(** definitions/versioned_hash/mod.rs:55-59 *)
Record ContractCodeSha256Storage := mkContractCodeSha256Storage {
  code_length_in_words : N;
  extra_marker : N;
  partial_hash : list N
}.

(** definitions/versioned_hash/mod.rs:62-63 *)
Definition CODE_AT_REST_MARKER : N := 0.
(** definitions/versioned_hash/mod.rs:63 *)
Definition YET_CONSTRUCTED_MARKER : N := 1.

(** definitions/versioned_hash/mod.rs:67 *)
Definition ContractCodeSha256_VERSION_BYTE : N := 0x01.

(** definitions/versioned_hash/mod.rs:69-77 *)
Definition ContractCodeSha256_serialize (storage : ContractCodeSha256Storage)
  : res (option (list N)) :=
  let result := repeat 0 32 in
  let* result := set_byte result 0 ContractCodeSha256_VERSION_BYTE in
  let* result := set_byte result 1 (extra_marker storage) in
  let* result := copy_into result 2 (to_be_bytes 2 (code_length_in_words storage)) in
  let* result := copy_into result 4 (partial_hash storage) in
  Ok (Some result).

(** definitions/versioned_hash/mod.rs:78-86 *)
Definition ContractCodeSha256_serialize_to_stored (storage : ContractCodeSha256Storage)
  : res (option (list N)) :=
  let result := repeat 0 32 in
  let* result := set_byte result 0 ContractCodeSha256_VERSION_BYTE in
  let* result := set_byte result 1 0 in
  let* result := copy_into result 2 (to_be_bytes 2 (code_length_in_words storage)) in
  let* result := copy_into result 4 (partial_hash storage) in
  Ok (Some result).

(** definitions/versioned_hash/mod.rs:87-102.  [input[4..32].try_into::<[u8; 28]>()] is the slice
    itself when [input] has at least 32 bytes. *)
Definition ContractCodeSha256_try_deserialize (input : list N)
  : res (option ContractCodeSha256Storage) :=
  let* b0 := index input 0 in
  if negb (b0 =? ContractCodeSha256_VERSION_BYTE) then Ok None
  else
    let* extra_marker := index input 1 in
    let* b2 := index input 2 in
    let* b3 := index input 3 in
    let code_length_in_words := from_be_bytes [b2; b3] in
    let* _ := assert_ (32 <=? len input) in
    let partial_hash := firstn 28 (skipn 4 input) in
    Ok (Some (mkContractCodeSha256Storage code_length_in_words extra_marker partial_hash)).

(** definitions/versioned_hash/mod.rs:66-103 *)
Definition ContractCodeSha256 : VersionedHashDef ContractCodeSha256Storage := {|
  VERSION_BYTE := ContractCodeSha256_VERSION_BYTE;
  def_serialize := ContractCodeSha256_serialize;
  def_serialize_to_stored := ContractCodeSha256_serialize_to_stored;
  def_try_deserialize := ContractCodeSha256_try_deserialize
|}.

(** definitions/versioned_hash/mod.rs:37-48 *)
Definition from_digest_and_preimage_num_words (digest : list N) (num_words : N)
  : res (VersionedHashGeneric ContractCodeSha256Storage) :=
  let src := skipn 4 digest in
  let* _ := assert_ (len src =? 28) in    (* copy_from_slice: lengths must agree *)
  let* truncated_digest := copy_into (repeat 0 28) 0 src in
  Ok (mkVersionedHashGeneric (mkContractCodeSha256Storage num_words 0 truncated_digest)).

(** utils.rs:19-61.  [Sha256] is the parameter [sha256 : bytes -> bytes]: the hasher state is
    the bytes absorbed so far, [update] appends, [finalize] applies [sha256].
    [Result<[u8; 32], ()>] is an [option] ([None] is [Err(())]). *)
Definition bytecode_to_code_hash_for_mode (sha256 : list N -> list N) (E : VmEncodingMode)
    (bytecode_words : list (list N)) : res (option (list N)) :=
  let n := len bytecode_words in
  if negb (n mod 2 =? 1) then Ok None
  else if pc_as_u64 (PcOrImm E) (pc_max (PcOrImm E)) <? as_u64 n then Ok None
  else
    let hasher := fold_left (fun state w => state ++ w) bytecode_words [] in
    let result := sha256 hasher in
    let output := repeat 0 32 in
    let* _ := assert_ (len result =? 32) in   (* copy_from_slice: lengths must agree *)
    let* output := copy_into output 0 result in
    let* versioned_hash := from_digest_and_preimage_num_words output (as_u16 n) in
    let* versioned_hash_bytes := VersionedHash_serialize ContractCodeSha256 versioned_hash in
    match versioned_hash_bytes with
    | Some b => Ok (Some b)
    | None => Ok None                          (* .ok_or(())? *)
    end.

(** utils.rs:14-16 *)
Definition bytecode_to_code_hash (sha256 : list N -> list N) (bytecode_words : list (list N))
  : res (option (list N)) :=
  bytecode_to_code_hash_for_mode sha256 EncodingModeProduction bytecode_words.
