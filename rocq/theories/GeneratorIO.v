(** * What the generator does to the disk: circuit_pricing_generator/main.rs:43-53, 159.
    Definitions only.

    [std::fs] and [std::io] are external; a disk maps paths to contents, and every call of the
    operating system is answered by a list of answers.  [write_all] is the loop of the standard
    library. *)

From Coq Require Import Arith NArith List Bool String.
From Verif Require Import Machine PricingGen.
Import ListNotations.

(** The contents of the files; circuit_pricing_generator/main.rs:50. *)
Definition disk := string -> option string.

(** One file changed; circuit_pricing_generator/main.rs:50-51. *)
Definition set_file (d : disk) (path contents : string) : disk :=
  fun q => if String.eqb q path then Some contents else d q.

(** How the operating system answers one [write]: with the number of bytes it took (at most what
    was offered), with an interruption, or with another error.
    Source: circuit_pricing_generator/main.rs:51 *)
Inductive answer := Took (n : nat) | Interrupted | Failed.

(** How a run goes on: it returned, it panicked, or it still waits for an answer.
    Source: circuit_pricing_generator/main.rs:50-52 *)
Inductive outcome := Returned | Panicked | Waits.

(** The first [n] bytes of [s], and the others; the slice [&buf[n..]] of [write_all],
    circuit_pricing_generator/main.rs:51. *)
Fixpoint split_string (n : nat) (s : string) : string * string :=
  match n, s with
  | O, _ => (EmptyString, s)
  | _, EmptyString => (EmptyString, EmptyString)
  | S n', String c r => let (a, b) := split_string n' r in (String c a, b)
  end.

(** [f.write_all(buf).expect(..)], circuit_pricing_generator/main.rs:51-52: the outcome and the
    contents of the file that held [file]. *)
Fixpoint write_all (answers : list answer) (buf file : string) : outcome * string :=
  match buf with
  | EmptyString => (Returned, file)
  | _ =>
      match answers with
      | [] => (Waits, file)
      | Took O :: _ => (Panicked, file)                        (* WriteZero *)
      | Took n :: rest =>
          let (a, b) := split_string n buf in write_all rest b (file ++ a)
      | Interrupted :: rest => write_all rest buf file
      | Failed :: _ => (Panicked, file)
      end
  end.

(** circuit_pricing_generator/main.rs:50-52, for the path and the contents of
    [save_circiut_prices]; [created] says whether [File::create] succeeds, which empties the file. *)
Definition save_to_disk (effect : string * string) (created : bool) (answers : list answer) (d : disk)
  : outcome * disk :=
  let (filepath, file_content) := effect in
  if created then
    let d := set_file d filepath EmptyString in
    let (o, file) := write_all answers file_content EmptyString in
    (o, set_file d filepath file)
  else (Panicked, d).

(** circuit_pricing_generator/main.rs:55-160, with its effect on the disk *)
Definition generator_run (P : circuit_parameters) (bld : build) (created : bool)
    (answers : list answer) (d : disk) : outcome * disk :=
  match generator_main_at P bld with
  | Ok effect => save_to_disk effect created answers d
  | Panic => (Panicked, d)
  end.
