(** * The first use of the statics from several threads (C91)

    Statements only: each proof is the lemma of the same name in [ProofsLazy]. *)

From Coq Require Import Arith NArith List Bool String Ascii.
From Verif Require Import Machine Operands OpcodeTrait Opcodes AllOpcodes Constants Tables Decoding
  LazyStatics SpecIsa SpecFamilies SpecCodec SpecLazy TableProofs TableProofs2 CodecProofs ProofsLazy.
Import ListNotations.
Local Open Scope nat_scope.

(** However the threads interleave: what a thread returns, and what a static holds, is what the
    computation yields alone. *)
Theorem C91_results :
  forall L V eqb (init : L -> prog L V) ps schedule, (forall a b, eqb a b = true <-> a = b) ->
    let p := run eqb init (launch ps) schedule in
    List.length (threads p) = List.length ps /\
    (forall i q t r, nth_error ps i = Some q -> nth_error (threads p) i = Some t -> finished t r ->
       yields init q r) /\
    (forall c v, state_of p c = Complete v -> yields init (init c) (Ok v)) /\
    (forall c, state_of p c = Poisoned -> yields init (init c) Panic) /\
    (forall q r r', yields init q r -> yields init q r' -> r = r').
Proof. exact pf_C91_results. Qed.
Print Assumptions C91_results.

(** Every initializer is begun at most once, and a value, once there, stays. *)
Theorem C91_once :
  forall L V eqb (init : L -> prog L V) ps schedule more, (forall a b, eqb a b = true <-> a = b) ->
    let p := run eqb init (launch ps) schedule in
    let p' := run eqb init p more in
    NoDup (begun p) /\
    (forall c, In c (begun p) <-> state_of p c <> Incomplete) /\
    (forall c v, state_of p c = Complete v -> state_of p' c = Complete v) /\
    (forall c, state_of p c = Poisoned -> state_of p' c = Poisoned).
Proof. exact pf_C91_once. Qed.
Print Assumptions C91_once.

(** If the initializers do not go round in circles, nobody waits for ever: when no thread can take
    a step, all have finished. *)
Theorem C91_progress :
  forall L V eqb (init : L -> prog L V) ps schedule, (forall a b, eqb a b = true <-> a = b) ->
    acyclic init ->
    let p := run eqb init (launch ps) schedule in
    at_rest eqb init p ->
    (forall i t, nth_error (threads p) i = Some t -> exists r, finished t r) /\
    (forall c i, state_of p c <> Running i).
Proof. exact pf_C91_progress. Qed.
Print Assumptions C91_progress.

(** No schedule goes on for ever, and whatever has happened so far, steps remain until all threads
    have the results of their computations. *)
Theorem C91_ends :
  forall L V eqb (init : L -> prog L V) ps schedule, (forall a b, eqb a b = true <-> a = b) ->
    acyclic init ->
    let p := run eqb init (launch ps) schedule in
    (forall f : nat -> process L V, f 0 = p ->
       ~ forall n, exists i, step eqb init (f n) i = Some (f (S n))) /\
    (exists l q, goes eqb init p l q /\ at_rest eqb init q) /\
    (forall l q, goes eqb init p l q -> at_rest eqb init q ->
       Forall2 (fun x t => exists r, finished t r /\ yields init x r) ps (threads q)).
Proof. exact pf_C91_ends. Qed.
Print Assumptions C91_ends.

(** The initializers of the source do not go round in circles, none panics, and the values and the
    results of the codecs are those of a single thread. *)
Theorem C91_source :
  (forall a b, static_eqb a b = true <-> a = b) /\
  acyclic initializer /\
  (forall c, exists v, static_value c = Ok v /\ yields initializer (initializer c) (Ok v)) /\
  (forall q, yields initializer (request_prog q) (request_result q)).
Proof. exact pf_C91_source. Qed.
Print Assumptions C91_source.

(** Any number of threads with any requests, in any order of steps: no static is ever poisoned, what
    is there is the value of a single thread, a thread that is done has the result of a single
    thread, and all get done. *)
Theorem C91_requests :
  forall (qs : list request) schedule,
    let p := run static_eqb initializer (launch (map request_prog qs)) schedule in
    (forall c v, state_of p c = Complete v -> static_value c = Ok v) /\
    (forall c, state_of p c <> Poisoned) /\
    (forall i q t r, nth_error qs i = Some q -> nth_error (threads p) i = Some t -> finished t r ->
       r = request_result q) /\
    (exists l p', goes static_eqb initializer p l p' /\ at_rest static_eqb initializer p') /\
    (forall l p', goes static_eqb initializer p l p' -> at_rest static_eqb initializer p' ->
       threads p' = map (fun q => mkThread (Return (request_result q)) []) qs) /\
    (forall f : nat -> process static value, f 0 = p ->
       ~ forall n, exists i, step static_eqb initializer (f n) i = Some (f (S n))).
Proof. exact pf_C91_requests. Qed.
Print Assumptions C91_requests.

(** Without the order among the initializers, threads can wait for each other, and one for itself. *)
Theorem C91_circle_refuted :
  ~ (forall L V eqb (init : L -> prog L V) ps schedule, (forall a b, eqb a b = true <-> a = b) ->
       let p := run eqb init (launch ps) schedule in
       at_rest eqb init p -> forall i t, nth_error (threads p) i = Some t -> exists r, finished t r).
Proof. exact pf_C91_circle_refuted. Qed.
Print Assumptions C91_circle_refuted.

Example C91_itself :
  at_rest (fun _ _ => true) selfish (run (fun _ _ => true) selfish (launch [selfish tt]) [0]) /\
  threads (run (fun _ _ => true) selfish (launch [selfish tt]) [0])
    = [mkThread (selfish tt) [(tt, fun v => Return (Ok v))]].
Proof. exact pf_C91_itself. Qed.

(** The second thread comes while the first computes: it waits, then finds the value. *)
Example C91_second :
  let start := launch [request_prog (Use S_NUM_LOGICAL_OPCODES); request_prog (Use S_NUM_LOGICAL_OPCODES)] in
  let p := run static_eqb initializer start [0; 0] in
  step static_eqb initializer p 1 = None /\
  state_of p S_OPCODE_PROTOTYPES = Running 0 /\
  (let q := run static_eqb initializer p [1; 0; 1; 0; 1] in
   threads q = [mkThread (Return (Ok (V_number 16))) []; mkThread (Return (Ok (V_number 16))) []] /\
   begun q = [S_OPCODE_PROTOTYPES; S_NUM_LOGICAL_OPCODES] /\
   at_rest static_eqb initializer q).
Proof. exact pf_C91_second. Qed.
