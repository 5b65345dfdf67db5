(** * Properties of the hash maps (C90)

    Statements only: each proof is the lemma of the same name in [ProofsHashTable]. *)

From Coq Require Import Arith NArith List Bool String Ascii Permutation.
From Verif Require Import Machine Constants Operands OpcodeTrait Opcodes AllOpcodes Tables Decoding
  HashFeed HashTable SpecIsa SpecFamilies SpecCodec SpecSets SpecAnyTable SpecHashTable
  TableProofs ProofsTables ProofsSets ProofsAnyTable ProofsHashTable.
Import ListNotations.
Local Open Scope nat_scope.

(** Whatever is inserted, the map answers with the last value of a key, lists every key once and
    returns the value it replaces; no search fails to end. *)
Theorem C90_map :
  forall K V S (O : key_ops K), sound_scheme S ->
    (forall a b, key_eqb O a b = true <-> a = b) ->
    forall l : list (K * V), exists m,
      insert_all S O l = Ok m /\ holds S O m (last_value l) /\
      forall k v, exists m' o, hm_insert S O m k v = Ok (m', o) /\
        (forall w, o = Some w <-> last_value l k w) /\
        holds S O m' (last_value (l ++ [(k, v)])).
Proof. exact pf_C90_map. Qed.
Print Assumptions C90_map.

(** The scheme of the standard library is sound, for every hasher and every width of a group. *)
Theorem C90_std : forall digest g, sound_scheme (std_scheme digest g).
Proof. exact pf_C90_std. Qed.
Print Assumptions C90_std.

(** The lookup map of any table: it panics exactly when a variant other than the invalid one
    repeats, and otherwise holds the first positions. *)
Theorem C90_canonical :
  forall S t table, sound_scheme S ->
    match canonical_map_hashed S t table with
    | Ok m => ~ spec_repeats table /\ holds S (variant_key t) m (first_at table)
    | Panic => spec_repeats table
    end.
Proof. exact pf_C90_canonical. Qed.
Print Assumptions C90_canonical.

Theorem C90_monotonic :
  forall S t table, sound_scheme S ->
    match monotonic_map_hashed S t table with
    | Ok m => ~ spec_repeats table /\
        holds S (variant_key t) m (fun x n => first_at table x (monotonic_number n))
    | Panic => spec_repeats table
    end.
Proof. exact pf_C90_monotonic. Qed.
Print Assumptions C90_monotonic.

Theorem C90_names :
  forall S ops, sound_scheme S ->
    match check_unique_names_hashed S ops with
    | Ok m => NoDup (map name ops) /\
        holds S name_key m (fun x (_ : unit) => In x (map name ops)) /\
        exists l, check_unique_names ops = Ok l
    | Panic => ~ NoDup (map name ops) /\ check_unique_names ops = Panic
    end.
Proof. exact pf_C90_names. Qed.
Print Assumptions C90_names.

(** Encoding does not depend on the scheme, the hasher or the target. *)
Theorem C90_encode :
  forall S t m table bld d, sound_scheme S ->
    encode_hashed S t m table bld d = encode_in m table bld d.
Proof. exact pf_C90_encode. Qed.
Print Assumptions C90_encode.

(** The four statics that are looked up. *)
Theorem C90_statics :
  forall S t, sound_scheme S ->
    NOP_OPCODE_VARIANT_hashed S t = NOP_OPCODE_VARIANT /\
    NOP_BITSPREAD_U64_hashed S t = NOP_BITSPREAD_U64 /\
    PANIC_OPCODE_VARIANT_hashed S t = PANIC_OPCODE_VARIANT /\
    PANIC_BITSPREAD_U64_hashed S t = PANIC_BITSPREAD_U64.
Proof. exact pf_C90_statics. Qed.
Print Assumptions C90_statics.

(** The shipped encoders, and the number every variant of the shipped table has. *)
Theorem C90_shipped :
  forall S t, sound_scheme S ->
    (exists h, OPCODE_TO_CANONICAL_INDEX_LOOKUP_MAP_hashed S t = Ok h /\
       holds S (variant_key t) h (fun x n => spec_number x = Some n)) /\
    (forall bld d,
       prod_encode_as_integer_hashed S t (OPCODE_TO_CANONICAL_INDEX_LOOKUP_MAP_hashed S t) bld d
       = serialize_as_integer EncodingModeProduction bld d) /\
    (forall bld d,
       test_encode_as_integer_hashed S t (OPCODE_TO_CANONICAL_INDEX_LOOKUP_MAP_hashed S t) bld d
       = serialize_as_integer EncodingModeTesting bld d).
Proof. exact pf_C90_shipped. Qed.
Print Assumptions C90_shipped.

(** Two maps of the same table list the same entries. *)
Theorem C90_entries :
  forall S S' t t' table m m', sound_scheme S -> sound_scheme S' ->
    canonical_map_hashed S t table = Ok m -> canonical_map_hashed S' t' table = Ok m' ->
    Permutation (hm_iter m) (hm_iter m') /\ items m = items m'.
Proof. exact pf_C90_entries. Qed.
Print Assumptions C90_entries.

(** The sizes of a table with the rule of the standard library: a slot in eight stays empty. *)
Theorem C90_sizes :
  std_room 1 = 0 /\ std_enlarge 1 = 4 /\ std_room 4 = 3 /\
  forall k, std_room (8 * 2 ^ k) = 7 * 2 ^ k /\ std_enlarge (4 * 2 ^ k) = 8 * 2 ^ k.
Proof. exact pf_C90_sizes. Qed.
Print Assumptions C90_sizes.

(** False: a map of the same table lists its entries in the same order in every process. *)
Theorem C90_order_refuted :
  ~ (forall S S' t table m m', sound_scheme S -> sound_scheme S' ->
       canonical_map_hashed S t table = Ok m -> canonical_map_hashed S' t table = Ok m' ->
       hm_iter m = hm_iter m').
Proof. exact pf_C90_order_refuted. Qed.
Print Assumptions C90_order_refuted.

(** False: trying every slot is enough.  Without an empty slot the search for an absent key has
    no end. *)
Theorem C90_load_refuted :
  ~ (forall S t table, (forall h c, explores (probe S h c) c) ->
       (forall c, c < enlarge S c \/ c = 0) -> ~ spec_repeats table ->
       exists m, canonical_map_hashed S t table = Ok m).
Proof. exact pf_C90_load_refuted. Qed.
Print Assumptions C90_load_refuted.

(** Two hashers, one of them with every key in the same place. *)
Example C90_example :
  let S := std_scheme constant_digest 4 in
  let S' := std_scheme weighted_digest 4 in
  let t := mkHashTarget 8 8 1 false in
  let nop :=
    mkOpcodeVariant (Op_Nop nopOpcode) (Full UseRegOnly) (Full UseRegOnly) (false, false) in
  let panic := mkOpcodeVariant (Op_Ret RetOpcode_Panic) RegOnly RegOnly (false, false) in
  let table := [INVALID_OPCODE_VARIANT; nop; panic; INVALID_OPCODE_VARIANT] in
  sound_scheme S /\ sound_scheme S' /\
  (exists m m', canonical_map_hashed S t table = Ok m /\ canonical_map_hashed S' t table = Ok m' /\
     map snd (hm_iter m) = [0; 1; 2]%N /\ map snd (hm_iter m') = [1; 0; 2]%N /\
     List.length (slots m) = 4 /\ items m = 3 /\
     hm_get S (variant_key t) m panic = Ok (Some 2%N) /\
     hm_get S' (variant_key t) m' panic = Ok (Some 2%N)) /\
  canonical_map_hashed S t [nop; panic; nop] = Panic /\
  canonical_map_hashed S' t [nop; panic; nop] = Panic /\
  (exists m, insert_all S' name_key (map (fun s => (s, s)) ["a"; "b"; "c"; "d"; "b"]%string) = Ok m /\
     List.length (slots m) = 8 /\ items m = 4 /\ hm_get S' name_key m "d"%string = Ok (Some "d"%string)).
Proof. exact pf_C90_example. Qed.
