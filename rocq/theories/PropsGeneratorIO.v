(** * Interrupted runs of the price generator (C92)

    Statements only: each proof is the lemma of the same name in [ProofsGeneratorIO]. *)

From Coq Require Import Arith NArith List Bool String Ascii.
From Verif Require Import Machine PricingGen GeneratorIO SpecPricing SpecDisplay SpecGenerator
  SpecGeneratorIO ProofsDisplay ProofsGenerator ProofsGeneratorIO.
Import ListNotations.
Local Open Scope nat_scope.

(** What a run leaves on the disk, for every way in which the operating system answers. *)
Theorem C92_save :
  forall P bld path text created answers d,
    generator_main_at P bld = Ok (path, text) ->
    let (o, d') := generator_run P bld created answers d in
    (forall q, q <> path -> d' q = d q) /\
    (created = false -> o = Panicked /\ d' path = d path) /\
    (created = true ->
       (o = Returned <->
          exists l rest, answers = l ++ rest /\ forallb goes_on l = true /\
            String.length text <= total l) /\
       (o = Panicked <->
          exists l a rest, answers = l ++ a :: rest /\ forallb goes_on l = true /\
            goes_on a = false /\ total l < String.length text) /\
       (o = Waits <-> forallb goes_on answers = true /\ total answers < String.length text) /\
       (o = Returned -> d' path = Some text) /\
       (forall l a rest, answers = l ++ a :: rest -> forallb goes_on l = true ->
          goes_on a = false -> total l < String.length text ->
          exists pre, d' path = Some pre /\ first_bytes (total l) text pre) /\
       (o = Waits -> exists pre, d' path = Some pre /\ first_bytes (total answers) text pre)).
Proof. exact pf_C92_save. Qed.
Print Assumptions C92_save.

(** A run that cannot compute the prices panics before the file is opened: the disk is as before. *)
Theorem C92_unpriced :
  forall P, typed_parameters P ->
  forall bld,
    match bld with
    | Debug => ~ computable (narrowed P)
    | Release => limit_for_l1_messages_merklizer P = 0%N \/
                 exists n c, In (n, c) (metered P) /\ (c mod 2 ^ 32 = 0)%N
    end ->
  forall created answers d,
    fst (generator_run P bld created answers d) = Panicked /\
    (forall q, snd (generator_run P bld created answers d) q = d q).
Proof. exact pf_C92_unpriced. Qed.
Print Assumptions C92_unpriced.

(** A file of which only the beginning was written has no wrong price: what it declares has the value
    of the complete file.  The constants appear in their order, and all are there exactly if at most
    the last newline is missing. *)
Theorem C92_torn :
  forall P, typed_parameters P -> computable (narrowed P) ->
  forall bld path text v, generator_main_at P bld = Ok (path, text) -> prices (narrowed P) v ->
  forall pre rest, text = (pre ++ rest)%string ->
    (forall m x, declares pre m x -> In m (price_names P) /\ x = v m) /\
    (exists k, forall m, (exists x, declares pre m x) <-> In m (firstn k file_order)) /\
    ((forall m, In m (price_names P) -> declares pre m (v m)) <->
       rest = EmptyString \/ rest = line "").
Proof. exact pf_C92_torn. Qed.
Print Assumptions C92_torn.

(** So no run, however it ends, leaves a file with a wrong price, unless it was there before and the
    file could not be opened; and the next run that returns completes the file. *)
Theorem C92_left :
  forall P, typed_parameters P -> computable (narrowed P) ->
  forall bld path text v, generator_main_at P bld = Ok (path, text) -> prices (narrowed P) v ->
  forall created answers d,
    let d' := snd (generator_run P bld created answers d) in
    (created = false /\ d' path = d path \/
     exists file, d' path = Some file /\
       forall m x, declares file m x -> In m (price_names P) /\ x = v m) /\
    forall created' answers',
      let (o, d'') := generator_run P bld created' answers' d' in
      o = Returned -> d'' path = Some text /\ forall m, In m (price_names P) -> declares text m (v m).
Proof. exact pf_C92_left. Qed.
Print Assumptions C92_left.

(** The expectation that a failing run leaves the old or the new file is wrong. *)
Theorem C92_atomic_refuted :
  ~ (forall P bld path text created answers d, generator_main_at P bld = Ok (path, text) ->
       let d' := snd (generator_run P bld created answers d) in
       d' path = d path \/ d' path = Some text).
Proof. exact pf_C92_atomic_refuted. Qed.
Print Assumptions C92_atomic_refuted.

(** The expectation that the crate does not compile with a torn file is wrong: a file of complete
    lines can have every constant the crate refers to, and lack others. *)
Theorem C92_silent_refuted :
  ~ (forall P bld path text, generator_main_at P bld = Ok (path, text) ->
       forall pre rest, text = (pre ++ rest)%string -> line_start pre ->
       (forall m, In m used_by_crate -> exists x, declares pre m x) ->
       forall m, In m (price_names P) -> exists x, declares pre m x).
Proof. exact pf_C92_silent_refuted. Qed.
Print Assumptions C92_silent_refuted.

(** A run with partial writes and interruptions, and one that stops in the middle of a line. *)
Example C92_runs :
  exists text,
    generator_main_at current_parameters Debug = Ok ("src/circuit_prices.rs"%string, text) /\
    (let (o, d) := generator_run current_parameters Debug true
                     [Took 100; Interrupted; Took 1; Took 4000; Failed] (fun _ => None) in
     o = Returned /\ d "src/circuit_prices.rs"%string = Some text) /\
    (let (o, d) := generator_run current_parameters Debug true
                     [Took 100; Interrupted; Took 98; Failed] (fun _ => None) in
     o = Panicked /\
     exists pre, d "src/circuit_prices.rs"%string = Some pre /\
       declares pre "VM_CYCLE_COST_IN_ERGS" 4%N /\
       forall x, ~ declares pre "RAM_PERMUTATION_COST_IN_ERGS" x).
Proof. exact pf_C92_runs. Qed.
