(** * Rust machine semantics used by the model.

    Definitions only.  These model the Rust language and core library, not code in
    /repo; each says which Rust construct it stands for.  All integers are [N]; a Rust
    integer of width [w] is an [N] below [2^w]. *)

From Coq Require Export NArith List String Ascii Bool.
Export ListNotations.
Open Scope N_scope.

(** A computation that may panic: [assert!], [unreachable!], [unimplemented!],
    [Option::expect], [Result::unwrap], out-of-bounds indexing. Panics occur
    e.g. at definitions/mod.rs:86-87, 229, 414; definitions/condition.rs:20;
    decoding/encoding_mode_production.rs:166. *)
Inductive res (A : Type) : Type :=
| Ok (a : A)
| Panic.
Arguments Ok {A} a.
Arguments Panic {A}.

(** Sequencing: a panic aborts everything that follows. Statement order, e.g.
    definitions/mod.rs:211-230. *)
Definition bind {A B : Type} (x : res A) (f : A -> res B) : res B :=
  match x with
  | Ok a => f a
  | Panic => Panic
  end.

Notation "'let*' x ':=' e 'in' k" := (bind e (fun x => k))
  (at level 200, x pattern, e at level 100, k at level 200, right associativity).

(** [assert!(b)] / [assert_eq!]. Source: definitions/mod.rs:86-87, 225, 228-229,
    709-711, 804, 822; definitions/condition.rs:20; lib.rs:141, 170. *)
Definition assert_ (b : bool) : res unit := if b then Ok tt else Panic.

(** [Option::unwrap] / [Option::expect]. Source: definitions/all.rs:47-101;
    definitions/mod.rs:668, 693, 696; lib.rs:129, 133, 226. *)
Definition unwrap {A : Type} (o : option A) : res A :=
  match o with Some a => Ok a | None => Panic end.

(** [slice[i]] : panics when out of bounds. Source: definitions/mod.rs:228; lib.rs:141,
    154. *)
Definition index {A : Type} (l : list A) (i : N) : res A :=
  unwrap (nth_error l (N.to_nat i)).

(** [slice.len()]. Source: definitions/mod.rs:86, 225, 229. *)
Definition len {A : Type} (l : list A) : N := N.of_nat (List.length l).

(** [for x in l { s = f(s, x) }] where the body may panic. Source:
    definitions/mod.rs:200, 215, 471, 714, 728; definitions/opcode_trait.rs:123;
    lib.rs:138, 152, 221. *)
Fixpoint for_each {A S : Type} (f : S -> A -> res S) (l : list A) (s : S) : res S :=
  match l with
  | [] => Ok s
  | x :: r => let* s' := f s x in for_each f r s'
  end.

(** [l.iter().map(f).collect()] where [f] may panic. Source: definitions/mod.rs:662-696.
    *)
Fixpoint map_res {A B : Type} (f : A -> res B) (l : list A) : res (list B) :=
  match l with
  | [] => Ok []
  | x :: r => let* y := f x in let* ys := map_res f r in Ok (y :: ys)
  end.

(** [l.iter().enumerate()]. Source: The index of the next element, for [enumerate]
    below; definitions/mod.rs:200. *)
Fixpoint enumerate_from {A : Type} (k : N) (l : list A) : list (N * A) :=
  match l with
  | [] => []
  | x :: r => (k, x) :: enumerate_from (k + 1) r
  end.
(** definitions/mod.rs:200, 728, 741, 790; lib.rs:138, 152 *)
Definition enumerate {A : Type} (l : list A) : list (N * A) := enumerate_from 0 l.

(** [l.into_iter().max()] on integers. Source: definitions/mod.rs:667, 687, 692, 695. *)
Definition iter_max (l : list N) : option N :=
  match l with
  | [] => None
  | x :: r => Some (fold_left N.max r x)
  end.

(** [lo..=hi] as a list. Source: definitions/add.rs:45 and the other families. *)
Definition range_inclusive (lo hi : N) : list N :=
  map (fun i => lo + N.of_nat i) (seq 0 (N.to_nat (hi + 1 - lo))).

(** [Vec::resize(n, x)]. Source: definitions/mod.rs:230, 428. *)
Definition resize {A : Type} (l : list A) (n : N) (x : A) : list A :=
  firstn (N.to_nat n) l ++ repeat x (N.to_nat n - List.length l).

(** Build profile: [debug_assert!] and integer overflow checks are active in [Debug] and
    inactive in [Release]. Source: utils.rs:8-9; definitions/mod.rs:784;
    circuit_pricing_generator/main.rs:32. *)
Inductive build := Debug | Release.

(** [debug_assert!(b)]. Source: utils.rs:8-9. *)
Definition debug_assert_ (bld : build) (b : bool) : res unit :=
  match bld with Debug => assert_ b | Release => Ok tt end.

(** [x as uW] for an unsigned [x]: truncation. Source:
    decoding/encoding_mode_production.rs:78-107. *)
Definition as_u8 (x : N) : N := x mod 2 ^ 8.
(** decoding/mod.rs:53-74 *)
Definition as_u16 (x : N) : N := x mod 2 ^ 16.
(** definitions/abi/fat_pointer.rs:31-45 *)
Definition as_u32 (x : N) : N := x mod 2 ^ 32.
(** definitions/abi/fat_pointer.rs:88-95 *)
Definition as_u64 (x : N) : N := x mod 2 ^ 64.
(** decoding/encoding_mode_testing.rs:110-146 *)
Definition as_u128 (x : N) : N := x mod 2 ^ 128.

(** [x << k] on a [w]-bit integer for [k < w]: bits shifted out are lost. (All shift
    amounts written in the source this is used for are constants below [w].). Source:
    decoding/encoding_mode_production.rs:22-27; definitions/abi/fat_pointer.rs:13-14,
    88-95. *)
Definition shl (w x k : N) : N := N.shiftl x k mod 2 ^ w.

(** [x >> k] on an unsigned integer. Source: utils.rs:4;
    definitions/abi/fat_pointer.rs:31-45. *)
Definition shr (x k : N) : N := N.shiftr x k.

(** [1uW << k] with a run-time [k]: an oversized [k] panics in debug and is masked to
    [log2 w] bits in release ([w] is a power of two). Source: definitions/mod.rs:765,
    784-818. *)
Definition shl_one (bld : build) (w k : N) : res N :=
  if k <? w then Ok (2 ^ k)
  else match bld with Debug => Panic | Release => Ok (2 ^ (k mod w)) end.

(** [a.wrapping_add(b)], [a.wrapping_sub(b)], [a.overflowing_add(b)] at width [w].
    Source: decoding/mod.rs:63-65, 85-87. *)
Definition wrapping_add_w (w a b : N) : N := (a + b) mod 2 ^ w.
(** decoding/mod.rs:67-69, 89-91 *)
Definition wrapping_sub_w (w a b : N) : N := (a + (2 ^ w - b)) mod 2 ^ w.
(** definitions/abi/fat_pointer.rs:59 *)
Definition overflowing_add_w (w a b : N) : N * bool :=
  ((a + b) mod 2 ^ w, 2 ^ w <=? a + b).

(** [a + b], [a - b], [a / b] at width [w]: overflow panics in debug, wraps in release;
    division by zero always panics. Source: circuit_pricing_generator/main.rs:32. *)
Definition add_w (bld : build) (w a b : N) : res N :=
  if a + b <? 2 ^ w then Ok (a + b)
  else match bld with Debug => Panic | Release => Ok (wrapping_add_w w a b) end.
(** circuit_pricing_generator/main.rs:32 *)
Definition sub_w (bld : build) (w a b : N) : res N :=
  if b <=? a then Ok (a - b)
  else match bld with Debug => Panic | Release => Ok (wrapping_sub_w w a b) end.
(** circuit_pricing_generator/main.rs:55-80 *)
Definition mul_w (bld : build) (w a b : N) : res N :=
  if a * b <? 2 ^ w then Ok (a * b)
  else match bld with Debug => Panic | Release => Ok (a * b mod 2 ^ w) end.
(** circuit_pricing_generator/main.rs:32 *)
Definition div_w (a b : N) : res N := if b =? 0 then Panic else Ok (a / b).

(** [usize::next_power_of_two] (below the overflow point) and [trailing_zeros]. Source:
    decoding/encoding_mode_production.rs:128, 134. *)
Definition next_power_of_two (n : N) : N :=
  if n <=? 1 then 1 else 2 ^ (N.log2 (n - 1) + 1).
(** for [trailing_zeros] below; decoding/encoding_mode_production.rs:128 *)
Fixpoint pos_trailing_zeros (p : positive) : N :=
  match p with xO q => 1 + pos_trailing_zeros q | _ => 0 end.
(** decoding/encoding_mode_production.rs:128, 134 *)
Definition trailing_zeros (w n : N) : N :=
  match n with N0 => w | Npos p => pos_trailing_zeros p end.

(** [x.to_le_bytes()], [x.to_be_bytes()] for an [n]-byte integer, [from_be_bytes].
    Source: definitions/abi/far_call.rs:49; definitions/abi/ret.rs:43. *)
Fixpoint to_le_bytes (n : nat) (x : N) : list N :=
  match n with
  | O => []
  | S n' => x mod 256 :: to_le_bytes n' (x / 256)
  end.
(** decoding/mod.rs:33, 39; definitions/versioned_hash/mod.rs:73 *)
Definition to_be_bytes (n : nat) (x : N) : list N := rev (to_le_bytes n x).
(** definitions/versioned_hash/mod.rs:94 *)
Definition from_be_bytes (l : list N) : N := fold_left (fun acc b => acc * 256 + b) l 0.

(** [dst[off..off+src.len()].copy_from_slice(src)]: panics when out of bounds. Source:
    definitions/versioned_hash/mod.rs:39, 73-74; utils.rs:44. *)
Definition copy_into {A : Type} (dst : list A) (off : nat) (src : list A) : res (list A) :=
  if Nat.leb (off + List.length src) (List.length dst)
  then Ok (firstn off dst ++ src ++ skipn (off + List.length src) dst)
  else Panic.

(** [ethereum_types::U256]: [pub struct U256(pub [u64; 4])], least significant limb
    first. Source: definitions/ptr.rs:13; definitions/abi/fat_pointer.rs:31. *)
Record U256 := mkU256 { limb0 : N; limb1 : N; limb2 : N; limb3 : N }.
(** definitions/abi/fat_pointer.rs:88-95 *)
Definition U256_zero : U256 := mkU256 0 0 0 0.
