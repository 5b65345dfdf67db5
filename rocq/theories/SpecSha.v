(** * Specification of SHA-256.  Definitions only.

    The functions on words are given bit by bit, the constants by the roots they are taken from,
    and the compression by the two sequences of words [A] and [E]. *)

From Coq Require Import NArith List Bool.
From Verif Require Import Machine Sha256 SpecCodec SpecAbi.
Import ListNotations.
Open Scope N_scope.

(** The number with the bits [f 0], ..., [f (n - 1)]. *)
Fixpoint of_bits (n : nat) (f : N -> bool) : N :=
  match n with
  | O => 0
  | S n' => N.b2n (f 0) + 2 * of_bits n' (fun i => f (i + 1))
  end.

(** Bit [i] of [x] rotated to the right by [n]. *)
Definition rotated (x n i : N) : bool := N.testbit x ((i + n) mod 32).
Definition spec_rotations (p q r x : N) : N :=
  of_bits 32 (fun i => xorb (rotated x p i) (xorb (rotated x q i) (rotated x r i))).
Definition spec_rotations_shift (p q k x : N) : N :=
  of_bits 32 (fun i => xorb (rotated x p i) (xorb (rotated x q i) (N.testbit x (i + k)))).
Definition spec_choose (x y z : N) : N :=
  of_bits 32 (fun i => if N.testbit x i then N.testbit y i else N.testbit z i).
Definition spec_majority (x y z : N) : N :=
  of_bits 32 (fun i => 2 <=? N.b2n (N.testbit x i) + N.b2n (N.testbit y i)
                                + N.b2n (N.testbit z i)).

(** The primes below 312. *)
Definition spec_primes : list N :=
  filter (fun p => forallb (fun d => negb (p mod d =? 0))
                     (map N.of_nat (seq 2 (N.to_nat p - 2))))
         (map N.of_nat (seq 2 310)).

(** [k] is the first 32 bits after the point of the square root, the cube root, of [p]. *)
Definition square_root_bits (p k : N) : Prop :=
  k < 2 ^ 32 /\ exists n, let c := n * 2 ^ 32 + k in
    c ^ 2 <= p * 2 ^ 64 /\ p * 2 ^ 64 < (c + 1) ^ 2.
Definition cube_root_bits (p k : N) : Prop :=
  k < 2 ^ 32 /\ exists n, let c := n * 2 ^ 32 + k in
    c ^ 3 <= p * 2 ^ 96 /\ p * 2 ^ 96 < (c + 1) ^ 3.

Definition state_words (s : ShaState) : list N :=
  [sha_a s; sha_b s; sha_c s; sha_d s; sha_e s; sha_f s; sha_g s; sha_h s].
Definition state_ok (s : ShaState) : Prop := Forall (fun w => w < 2 ^ 32) (state_words s).

(** The words of the message schedule of a block of 64 bytes. *)
Definition spec_schedule (block : list N) (W : nat -> N) : Prop :=
  (forall t, (t < 16)%nat -> W t = be_value (firstn 4 (skipn (4 * t) block))) /\
  (forall t, (t < 48)%nat ->
     W (t + 16)%nat = (spec_rotations_shift 17 19 10 (W (t + 14)%nat) + W (t + 9)%nat
                       + spec_rotations_shift 7 18 3 (W (t + 1)%nat) + W t) mod 2 ^ 32).

(** One compression: the sequences start with the words of the state, last first, and their last
    words are added to it. *)
Definition spec_compress (s : ShaState) (block : list N) (s' : ShaState) : Prop :=
  exists W K A E : nat -> N,
    spec_schedule block W /\
    (forall t, (t < 64)%nat -> cube_root_bits (nth t spec_primes 0) (K t)) /\
    A 3%nat = sha_a s /\ A 2%nat = sha_b s /\ A 1%nat = sha_c s /\ A 0%nat = sha_d s /\
    E 3%nat = sha_e s /\ E 2%nat = sha_f s /\ E 1%nat = sha_g s /\ E 0%nat = sha_h s /\
    (forall t, (t < 64)%nat ->
       let T := E t + spec_rotations 6 11 25 (E (t + 3)%nat)
                + spec_choose (E (t + 3)%nat) (E (t + 2)%nat) (E (t + 1)%nat) + K t + W t in
       E (t + 4)%nat = (A t + T) mod 2 ^ 32 /\
       A (t + 4)%nat = (T + spec_rotations 2 13 22 (A (t + 3)%nat)
                        + spec_majority (A (t + 3)%nat) (A (t + 2)%nat) (A (t + 1)%nat))
                       mod 2 ^ 32) /\
    state_words s' =
      [(sha_a s + A 67%nat) mod 2 ^ 32; (sha_b s + A 66%nat) mod 2 ^ 32;
       (sha_c s + A 65%nat) mod 2 ^ 32; (sha_d s + A 64%nat) mod 2 ^ 32;
       (sha_e s + E 67%nat) mod 2 ^ 32; (sha_f s + E 66%nat) mod 2 ^ 32;
       (sha_g s + E 65%nat) mod 2 ^ 32; (sha_h s + E 64%nat) mod 2 ^ 32].

(** The blocks of a padded message: a one bit, fewer than 64 zero bytes, and the number of bits
    of the message. *)
Definition spec_blocks (message : list N) (blocks : list (list N)) : Prop :=
  Forall (byte_array 64) blocks /\
  exists zeros length,
    (zeros < 64)%nat /\ byte_array 8 length /\ be_value length = (8 * len message) mod 2 ^ 64 /\
    List.concat blocks = message ++ [128] ++ repeat 0 zeros ++ length.

(** Compressing one block after the other. *)
Inductive chained : ShaState -> list (list N) -> ShaState -> Prop :=
| chained_nil s : chained s [] s
| chained_cons s b bs s' s'' :
    spec_compress s b s' -> chained s' bs s'' -> chained s (b :: bs) s''.

Definition spec_initial (s : ShaState) : Prop :=
  forall i, (i < 8)%nat -> square_root_bits (nth i spec_primes 0) (nth i (state_words s) 0).

Definition spec_sha256 (message digest : list N) : Prop :=
  exists blocks s s',
    spec_blocks message blocks /\ spec_initial s /\ chained s blocks s' /\
    byte_array 32 digest /\
    forall i, (i < 8)%nat -> be_value (firstn 4 (skipn (4 * i) digest)) = nth i (state_words s') 0.
