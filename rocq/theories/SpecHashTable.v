(** * Specification of the hash maps: what a scheme must give, and what the maps then hold.
    Definitions only. *)

From Coq Require Import Arith NArith List Bool String.
From Verif Require Import Machine OpcodeTrait Opcodes AllOpcodes Tables Decoding HashFeed HashTable
  SpecIsa SpecFamilies SpecCodec SpecSets SpecAnyTable.
Import ListNotations.

(** The slots tried are all slots of the table. *)
Definition explores (order : list nat) (c : nat) : Prop := forall i, In i order <-> (i < c)%nat.

(** For the sizes a table can have: a slot always stays empty, every slot is tried, and a larger
    table has more room.  Nothing is required of the hasher or the tags. *)
Definition sound_scheme (S : hash_scheme) : Prop :=
  exists size : nat -> Prop,
    size 1%nat /\
    forall c, size c ->
      (room S c < c)%nat /\
      (forall h, explores (probe S h c) c) /\
      size (enlarge S c) /\ (room S c < room S (enlarge S c))%nat.

(** The encoders of both modes with the lookup map of a table. *)
Definition encode_hashed (S : hash_scheme) (t : hash_target) (m : mode) (table : list OpcodeVariant)
    (bld : build) (d : DecodedOpcode) : res N :=
  match m with
  | ProductionMode => prod_encode_as_integer_hashed S t (canonical_map_hashed S t table) bld d
  | TestingMode => test_encode_as_integer_hashed S t (canonical_map_hashed S t table) bld d
  end.

(** A map that answers as a partial function does and lists its graph, each key once. *)
Definition holds {K V : Type} (S : hash_scheme) (O : key_ops K) (m : HashMap K V)
    (graph : K -> V -> Prop) : Prop :=
  (forall k, exists o, hm_get S O m k = Ok o /\ forall v, o = Some v <-> graph k v) /\
  (forall k v, In (k, v) (hm_iter m) <-> graph k v) /\
  NoDup (map fst (hm_iter m)) /\
  items m = List.length (hm_iter m).

(** Any keys and values inserted one after the other into a new map; the last value given to a
    key. *)
Definition insert_all {K V : Type} (S : hash_scheme) (O : key_ops K) (l : list (K * V))
  : res (HashMap K V) :=
  for_each (fun m '(k, v) => let* (m, _) := hm_insert S O m k v in Ok m) l hm_new.
Definition last_value {K V : Type} (l : list (K * V)) (k : K) (v : V) : Prop :=
  exists a b, l = a ++ (k, v) :: b /\ ~ In k (map fst b).

(** A hasher and a scheme that fills its tables to the last slot. *)
Definition brimful : hash_scheme :=
  mkHashScheme (fun _ => 0%N) (fun _ c => seq 0 c) (fun _ => 0%N) (fun c => c) (fun c => 2 * c)%nat.

(** Hashers for the examples: one that maps everything to the same number, and one that depends
    on the bytes. *)
Definition constant_digest : list N -> N := fun _ => 0%N.
Definition weighted_digest : list N -> N := fun l => fold_left (fun a b => (31 * a + b + 3) mod 2 ^ 64)%N l 0%N.
