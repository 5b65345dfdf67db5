(** * The hash maps and sets of the source, with their slots: lib.rs:136-200,
    definitions/mod.rs:199-209.  Definitions only.

    [std::collections::HashMap] is a dependency ([hashbrown]); it is modelled as a table with open
    addressing: a key is hashed, the slots are tried in an order given by the hash, a stored tag is
    compared before the key, the search ends at the first empty slot, and a table that is full up
    to its limit is rebuilt with more slots.  The source never removes a key, so there are no
    deleted slots.  [Tables.v] has the same maps as lists. *)

From Coq Require Import Arith.
From Verif Require Import Machine Operands OpcodeTrait Opcodes AllOpcodes Constants Tables Decoding
  HashFeed.
Local Open Scope N_scope.

(** What a table depends on besides the keys: the hash of the bytes fed ([RandomState], other in
    every process), the order in which slots are tried, the tag of a hash, how many entries a
    table of a size may have, and the next size. Source: lib.rs:137, 151 *)
Record hash_scheme := mkHashScheme {
  digest_of : list N -> N;
  probe : N -> nat -> list nat;
  tag_of : N -> N;
  room : nat -> nat;
  enlarge : nat -> nat
}.

(** [K: Eq + Hash]. Source: lib.rs:136; definitions/mod.rs:199 *)
Record key_ops (K : Type) := mkKeyOps {
  key_eqb : K -> K -> bool;
  key_feed : K -> list N
}.
Arguments mkKeyOps {K} key_eqb key_feed.
Arguments key_eqb {K} k.
Arguments key_feed {K} k.

(** [HashMap<K, V>]: a slot is empty or has a tag, a key and a value. Source: lib.rs:136, 150 *)
Record HashMap (K V : Type) := mkHashMap {
  slots : list (option (N * (K * V)));
  items : nat
}.
Arguments mkHashMap {K V} slots items.
Arguments slots {K V} h.
Arguments items {K V} h.

(** [HashMap::new()]: one empty slot that is never filled. Source: lib.rs:137, 151 *)
Definition hm_new {K V : Type} : HashMap K V := mkHashMap [None] 0.

(** [for (k, v) in &map], slot by slot. Source: lib.rs:136, 150 (the maps are public) *)
Definition hm_iter {K V : Type} (m : HashMap K V) : list (K * V) :=
  flat_map (fun s => match s with Some e => [snd e] | None => [] end) (slots m).

(** The slot of a key, part of [get], lib.rs:139, 153.  The end of the order without an empty slot
    is an endless loop in the source and a panic here. *)
Fixpoint hm_find {K V : Type} (eqb : K -> K -> bool) (l : list (option (N * (K * V)))) (tag : N)
    (k : K) (order : list nat) : res (option nat) :=
  match order with
  | [] => Panic
  | p :: order' =>
      let* s := unwrap (nth_error l p) in
      match s with
      | None => Ok None
      | Some (tag', (k', _)) =>
          if (tag' =? tag) && eqb k' k then Ok (Some p) else hm_find eqb l tag k order'
      end
  end.

(** [map.get(k)], lib.rs:139, 153; decoding/encoding_mode_production.rs:120-122 *)
Definition hm_get {K V : Type} (S : hash_scheme) (O : key_ops K) (m : HashMap K V) (k : K)
  : res (option V) :=
  let h := digest_of S (key_feed O k) in
  let* found := hm_find (key_eqb O) (slots m) (tag_of S h) k
                  (probe S h (List.length (slots m))) in
  match found with
  | Some p =>
      let* s := unwrap (nth_error (slots m) p) in
      let* e := unwrap s in
      Ok (Some (snd (snd e)))
  | None => Ok None
  end.

(** [map.contains_key(k)], lib.rs:170, 190 *)
Definition hm_contains_key {K V : Type} (S : hash_scheme) (O : key_ops K) (m : HashMap K V) (k : K)
  : res bool :=
  let* found := hm_get S O m k in
  Ok (match found with Some _ => true | None => false end).

(** One slot replaced; part of [insert], lib.rs:143, 156. *)
Fixpoint set_slot {A : Type} (l : list A) (p : nat) (x : A) : list A :=
  match l, p with
  | [], _ => []
  | _ :: r, O => x :: r
  | y :: r, S p' => y :: set_slot r p' x
  end.

(** The first empty slot in the order; part of [insert], lib.rs:143, 156. *)
Fixpoint hm_free {A : Type} (l : list (option A)) (order : list nat) : res nat :=
  match order with
  | [] => Panic
  | p :: order' =>
      let* s := unwrap (nth_error l p) in
      match s with
      | None => Ok p
      | Some _ => hm_free l order'
      end
  end.

(** A key known to be absent, in a table with room; part of [insert], lib.rs:143, 156. *)
Definition hm_put {K V : Type} (S : hash_scheme) (O : key_ops K) (m : HashMap K V) (k : K) (v : V)
  : res (HashMap K V) :=
  let h := digest_of S (key_feed O k) in
  let* p := hm_free (slots m) (probe S h (List.length (slots m))) in
  Ok (mkHashMap (set_slot (slots m) p (Some (tag_of S h, (k, v)))) (items m + 1)).

(** The rebuilt table if there is no room for another key; part of [insert], lib.rs:143, 156. *)
Definition hm_reserve {K V : Type} (S : hash_scheme) (O : key_ops K) (m : HashMap K V)
  : res (HashMap K V) :=
  if Nat.ltb (items m) (room S (List.length (slots m))) then Ok m
  else for_each (fun m' '(k, v) => hm_put S O m' k v) (hm_iter m)
         (mkHashMap (repeat None (enlarge S (List.length (slots m)))) 0).

(** [map.insert(k, v)] with the value it returns, lib.rs:143, 156; definitions/mod.rs:201 *)
Definition hm_insert {K V : Type} (S : hash_scheme) (O : key_ops K) (m : HashMap K V) (k : K) (v : V)
  : res (HashMap K V * option V) :=
  let* m := hm_reserve S O m in
  let h := digest_of S (key_feed O k) in
  let* found := hm_find (key_eqb O) (slots m) (tag_of S h) k
                  (probe S h (List.length (slots m))) in
  match found with
  | Some p =>
      let* s := unwrap (nth_error (slots m) p) in
      let* e := unwrap s in
      Ok (mkHashMap (set_slot (slots m) p (Some (fst e, (fst (snd e), v)))) (items m),
          Some (snd (snd e)))
  | None =>
      let* m' := hm_put S O m k v in
      Ok (m', None)
  end.

(** [OpcodeVariant: Eq + Hash], definitions/mod.rs:119-125 *)
Definition variant_key (t : hash_target) : key_ops OpcodeVariant :=
  mkKeyOps OpcodeVariant_eqb (OpcodeVariant_hash t).
(** [&str: Eq + Hash]: the bytes and the byte 255; definitions/mod.rs:201 *)
Definition name_key : key_ops string :=
  mkKeyOps String.eqb (fun s => map N_of_ascii (list_ascii_of_string s) ++ [255]).

(** The duplicate-name check with a [HashSet], definitions/mod.rs:199-209, 247-257, 442-452,
    727-737; a set is a map to [()]. *)
Definition check_unique_names_hashed (S : hash_scheme) (ops : list OpcodeProps)
  : res (HashMap string unit) :=
  for_each (fun checker op =>
              let* (checker, previous) := hm_insert S name_key checker (name op) tt in
              let is_new := match previous with None => true | Some _ => false end in
              let* _ := assert_ is_new in
              Ok checker)
           ops hm_new.

(** lib.rs:137-147, the initializer of [OPCODE_TO_MONOTONIC_INDEX_NUMBER_MAP] for a table *)
Definition monotonic_map_hashed (S : hash_scheme) (t : hash_target) (table : list OpcodeVariant)
  : res (HashMap OpcodeVariant VariantMonotonicNumber) :=
  for_each (fun result '(idx, el) =>
    let* found := hm_get S (variant_key t) result el in
    match found with
    | Some existing =>
        let usize_index := VariantMonotonicNumber_into_usize existing in
        let* e := index table usize_index in
        let* _ := assert_ (OpcodeVariant_eqb e INVALID_OPCODE_VARIANT) in
        Ok result
    | None =>
        let* (result, _) :=
          hm_insert S (variant_key t) result el (VariantMonotonicNumber_from_usize idx) in
        Ok result
    end)
    (enumerate table) hm_new.

(** lib.rs:151-160, the initializer of [OPCODE_TO_CANONICAL_INDEX_LOOKUP_MAP] for a table *)
Definition canonical_map_hashed (S : hash_scheme) (t : hash_target) (table : list OpcodeVariant)
  : res (HashMap OpcodeVariant N) :=
  for_each (fun result '(idx, el) =>
    let* found := hm_get S (variant_key t) result el in
    match found with
    | Some existing =>
        let* e := index table existing in
        let* _ := assert_ (OpcodeVariant_eqb e INVALID_OPCODE_VARIANT) in
        Ok result
    | None =>
        let* (result, _) := hm_insert S (variant_key t) result el idx in
        Ok result
    end)
    (enumerate table) hm_new.

(** lib.rs:150-161 *)
Definition OPCODE_TO_CANONICAL_INDEX_LOOKUP_MAP_hashed (S : hash_scheme) (t : hash_target)
  : res (HashMap OpcodeVariant N) :=
  let* table := OPCODES_TABLE in canonical_map_hashed S t table.

(** lib.rs:163-173 and 182-193, for the variant they name *)
Definition static_variant_hashed (S : hash_scheme) (t : hash_target) (variant : OpcodeVariant)
  : res OpcodeVariant :=
  let* m := OPCODE_TO_CANONICAL_INDEX_LOOKUP_MAP_hashed S t in
  let* known := hm_contains_key S (variant_key t) m variant in
  let* _ := assert_ known in
  Ok variant.
(** lib.rs:163-173 *)
Definition NOP_OPCODE_VARIANT_hashed (S : hash_scheme) (t : hash_target) : res OpcodeVariant :=
  static_variant_hashed S t
    (mkOpcodeVariant (Op_Nop nopOpcode) (Full UseRegOnly) (Full UseRegOnly) (false, false)).
(** lib.rs:182-193 *)
Definition PANIC_OPCODE_VARIANT_hashed (S : hash_scheme) (t : hash_target) : res OpcodeVariant :=
  static_variant_hashed S t
    (mkOpcodeVariant (Op_Ret RetOpcode_Panic) RegOnly RegOnly (false, false)).

(** lib.rs:175-180 and 195-200, for the variant they name *)
Definition bitspread_hashed (S : hash_scheme) (t : hash_target) (variant : res OpcodeVariant)
  : res N :=
  let* m := OPCODE_TO_CANONICAL_INDEX_LOOKUP_MAP_hashed S t in
  let* v := variant in
  let* found := hm_get S (variant_key t) m v in
  let* idx := unwrap found in
  let* masks := OPCODES_PROPS_INTEGER_BITMASKS in
  index masks idx.
(** lib.rs:175-180 *)
Definition NOP_BITSPREAD_U64_hashed (S : hash_scheme) (t : hash_target) : res N :=
  bitspread_hashed S t (NOP_OPCODE_VARIANT_hashed S t).
(** lib.rs:195-200 *)
Definition PANIC_BITSPREAD_U64_hashed (S : hash_scheme) (t : hash_target) : res N :=
  bitspread_hashed S t (PANIC_OPCODE_VARIANT_hashed S t).

(** decoding/encoding_mode_production.rs:109-147, for an arbitrary table *)
Definition prod_encode_as_integer_hashed (S : hash_scheme) (t : hash_target)
    (M : res (HashMap OpcodeVariant N)) (bld : build) (opcode : DecodedOpcode) : res N :=
  let encoding := 0 in
  let* m := M in
  let* found := hm_get S (variant_key t) m (variant opcode) in
  let* variant_bits := unwrap found in
  let* _ := assert_ (trailing_zeros 64 (next_power_of_two variant_bits)
                     <=? OPCODES_TABLE_WIDTH) in
  let encoding := N.lor encoding (as_u64 variant_bits) in
  let condition := Condition_variant_index (condition opcode) in
  let* _ := assert_ (trailing_zeros 64 (next_power_of_two condition)
                     <=? CONDITIONAL_BITS_WIDTH) in
  let encoding := N.lor encoding (shl 64 condition CONDITIONAL_BITS_SHIFT) in
  let* src_registers_byte := merge_u4 bld (src0_reg_idx opcode) (src1_reg_idx opcode) in
  let encoding := N.lor encoding (shl 64 src_registers_byte SRC_REGS_SHIFT) in
  let* dst_registers_byte := merge_u4 bld (dst0_reg_idx opcode) (dst1_reg_idx opcode) in
  let encoding := N.lor encoding (shl 64 dst_registers_byte DST_REGS_SHIFT) in
  let encoding := N.lor encoding (shl 64 (imm_0 opcode) prod_IMM0_SHIFT) in
  let encoding := N.lor encoding (shl 64 (imm_1 opcode) prod_IMM1_SHIFT) in
  Ok encoding.

(** decoding/encoding_mode_testing.rs:110-148, for an arbitrary table *)
Definition test_encode_as_integer_hashed (S : hash_scheme) (t : hash_target)
    (M : res (HashMap OpcodeVariant N)) (bld : build) (opcode : DecodedOpcode) : res N :=
  let encoding := 0 in
  let* m := M in
  let* found := hm_get S (variant_key t) m (variant opcode) in
  let* variant_bits := unwrap found in
  let* _ := assert_ (trailing_zeros 64 (next_power_of_two variant_bits)
                     <=? OPCODES_TABLE_WIDTH) in
  let encoding := N.lor encoding (as_u128 variant_bits) in
  let condition := Condition_variant_index (condition opcode) in
  let* _ := assert_ (trailing_zeros 64 (next_power_of_two condition)
                     <=? CONDITIONAL_BITS_WIDTH) in
  let encoding := N.lor encoding (shl 128 condition CONDITIONAL_BITS_SHIFT) in
  let* src_registers_byte := merge_u4 bld (src0_reg_idx opcode) (src1_reg_idx opcode) in
  let encoding := N.lor encoding (shl 128 src_registers_byte SRC_REGS_SHIFT) in
  let* dst_registers_byte := merge_u4 bld (dst0_reg_idx opcode) (dst1_reg_idx opcode) in
  let encoding := N.lor encoding (shl 128 dst_registers_byte DST_REGS_SHIFT) in
  let encoding := N.lor encoding (shl 128 (imm_0 opcode) test_IMM0_SHIFT) in
  let encoding := N.lor encoding (shl 128 (imm_1 opcode) test_IMM1_SHIFT) in
  Ok encoding.

(** The scheme of the standard library for a hasher and groups of [2 ^ g] slots: how many entries
    a table may have, the next size, and the groups tried one after the other, each a step
    further away than the one before.  The source tries groups until one has an empty slot; here
    there are as many as slots.  Source: lib.rs:137, 151 *)
Definition std_room (c : nat) : nat :=
  if Nat.leb c 8 then c - 1 else Nat.div c 8 * 7.
(** Source: lib.rs:143, 156 *)
Definition std_enlarge (c : nat) : nat :=
  let capacity := (std_room c + 1)%nat in
  if Nat.ltb capacity 4 then 4%nat
  else if Nat.ltb capacity 8 then 8%nat
  else (2 ^ Nat.log2_up (Nat.div (capacity * 8) 7))%nat.
(** Source: lib.rs:139, 153 *)
Definition std_probe (g : N) (h : N) (c : nat) : list nat :=
  flat_map (fun j =>
    let stride := 2 ^ g * (N.of_nat j * (N.of_nat j + 1) / 2) in
    map (fun i => N.to_nat ((h + stride + N.of_nat i) mod N.of_nat c))
        (seq 0 (N.to_nat (2 ^ g))))
    (seq 0 c).
(** Source: lib.rs:139, 153 *)
Definition std_tag (h : N) : N := N.land (N.shiftr h 57) 127.
(** Source: lib.rs:137, 151 *)
Definition std_scheme (digest : list N -> N) (g : N) : hash_scheme :=
  mkHashScheme digest (std_probe g) std_tag std_room std_enlarge.
