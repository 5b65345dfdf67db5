(** * Specification of decommitment rounds and of collisions.  Definitions only. *)

From Coq Require Import NArith List Bool.
From Verif Require Import Machine Sha256 SpecCodec SpecAbi SpecSha.
Import ListNotations.
Open Scope N_scope.

(** The blocks SHA-256 compresses for a bytecode that can have a code hash: 32-byte words, an odd
    number of them, at most 65535. *)
Definition accepted (ws : list (list N)) : Prop :=
  Forall (byte_array 32) ws /\ N.odd (len ws) = true /\ len ws <= 65535.
Definition rounds (ws blocks : list (list N)) : Prop :=
  accepted ws /\ spec_blocks (List.concat ws) blocks.

(** The total of the lengths. *)
Definition total {A} (l : list (list A)) : N := fold_right (fun x n => len x + n) 0 l.

(** The [j]-th block is two words of code. *)
Definition code_block (ws blocks : list (list N)) (j : nat) : Prop :=
  exists w w', nth_error ws (2 * j) = Some w /\ nth_error ws (2 * j + 1) = Some w' /\
    nth_error blocks j = Some (w ++ w').
(** The last block is [code], a one bit, zeros, and the number of bits of [n] words. *)
Definition last_block (blocks : list (list N)) (code : list N) (zeros : nat) (n : N) : Prop :=
  exists l, byte_array 8 l /\ be_value l = 256 * n /\
    nth_error blocks (List.length blocks - 1) = Some (code ++ [128] ++ repeat 0 zeros ++ l).

(** After the first [i] blocks, the next block leads to the same words but the first, or to the
    same state if it is not the last block, although block or state differ. *)
Definition collides_at (i : nat) (blocks blocks' : list (list N)) : Prop :=
  exists s0 s s' b b' t t',
    spec_initial s0 /\ chained s0 (firstn i blocks) s /\ chained s0 (firstn i blocks') s' /\
    nth_error blocks i = Some b /\ nth_error blocks' i = Some b' /\ (s, b) <> (s', b') /\
    spec_compress s b t /\ spec_compress s' b' t' /\
    skipn 1 (state_words t) = skipn 1 (state_words t') /\
    ((i + 1 < List.length blocks)%nat -> t = t').
