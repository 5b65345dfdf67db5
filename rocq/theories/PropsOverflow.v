(** * Counting on a machine integer (C82)

    Statements only: each proof is the lemma of the same name in [ProofsOverflow]. *)

From Coq Require Import Arith NArith List Bool String Ascii.
From Verif Require Import Machine Constants Operands OpcodeTrait Opcodes AllOpcodes Tables Overflow
  SpecIsa SpecFamilies SpecSets SpecOverflow ProofsOverflow.
Import ListNotations.
Open Scope N_scope.

(** Counting the variants of an instruction set on [p]-bit integers.  An overflow is noticed when
    overflow checks are on; without them the count is that of the flags taken modulo [p], modulo
    [2^p]. *)
Theorem C82_density :
  forall I p v, 0 < p ->
    machine_answer p (compute_encoding_density_of I v)
      (fun bld => compute_encoding_density_usize I p bld v) /\
    (forall objs rows, described I v objs rows -> NoDup (map name objs) ->
       compute_encoding_density_usize I p Release v
       = Ok (fold_right N.add 0 (map (wrapped_weight p) (List.concat rows)) mod 2 ^ p)).
Proof. exact pf_C82_density. Qed.
Print Assumptions C82_density.

(** Tables that can be synthesized in exact arithmetic are synthesized by every build; with
    overflow checks there are no others.  Without them, too, if the enumerations have fewer
    than [2^p] entries, as vectors do. *)
Theorem C82_synthesis :
  forall I p bits u,
    (forall bld t, bits < p ->
       synthesize_opcode_decoding_tables_of I p bld bits u = Ok t ->
       synthesize_opcode_decoding_tables_usize I p bld bits u = Ok t) /\
    (forall bld t, bits < p ->
       synthesize_opcode_decoding_tables_legacy_of I p bld bits u = Ok t ->
       synthesize_opcode_decoding_tables_legacy_usize I p bld bits u = Ok t) /\
    (forall t, synthesize_opcode_decoding_tables_usize I p Debug bits u = Ok t ->
               synthesize_opcode_decoding_tables_of I p Debug bits u = Ok t) /\
    (forall t, synthesize_opcode_decoding_tables_legacy_usize I p Debug bits u = Ok t ->
               synthesize_opcode_decoding_tables_legacy_of I p Debug bits u = Ok t) /\
    ((forall v l, all_variants_in_version_of I v = Ok l -> N.of_nat (List.length l) < 2 ^ p) ->
     0 < p -> forall bld, synthesize_opcode_decoding_tables_usize I p bld bits u
                 = synthesize_opcode_decoding_tables_of I p bld bits u).
Proof. exact pf_C82_synthesis. Qed.
Print Assumptions C82_synthesis.

(** The widths of the description on [p]-bit integers. *)
Theorem C82_widths :
  forall I p v,
    machine_answer p (max_num_variants_for_version_of I v)
      (fun bld => max_num_variants_for_version_usize I p bld v) /\
    machine_answer p (total_description_bits_for_version_of I v)
      (fun bld => total_description_bits_for_version_usize I p bld v) /\
    machine_answer p (total_description_bits_rounded_for_version_of I v)
      (fun bld => total_description_bits_rounded_for_version_usize I p bld v) /\
    machine_answer p
      (let* r := total_description_bits_rounded_for_version_of I v in Ok (r + 3))
      (fun bld => total_opcode_description_and_aux_bits_for_version_usize I p bld v).
Proof. exact pf_C82_widths. Qed.
Print Assumptions C82_widths.

(** Bitmasks on [p]-bit integers, which in Rust have at least 16 bits: with overflow checks the
    mask is that of exact arithmetic and fails with it; without them a mask that exists in exact
    arithmetic is the same. *)
Theorem C82_mask :
  forall I p x v, 16 <= p ->
    opcode_as_integer_bitmask_usize I p Debug x v = opcode_as_integer_bitmask_of I Debug x v /\
    (forall m, opcode_as_integer_bitmask_of I Release x v = Ok m ->
               opcode_as_integer_bitmask_usize I p Release x v = Ok m).
Proof. exact pf_C82_mask. Qed.
Print Assumptions C82_mask.

(** Lists of bitmasks, likewise. *)
Theorem C82_descriptions :
  forall I p l v, 16 <= p ->
    synthesize_bit_decomposition_table_usize I p Debug l v
    = synthesize_bit_decomposition_table_of I Debug l v /\
    (forall t, synthesize_bit_decomposition_table_of I Release l v = Ok t ->
               synthesize_bit_decomposition_table_usize I p Release l v = Ok t).
Proof. exact pf_C82_descriptions. Qed.
Print Assumptions C82_descriptions.

(** What an unchecked build makes of widths that do not fit. *)
Theorem C82_unchecked :
  forall I p v objs ms nf, 16 <= p ->
    set_objects I = Ok objs -> objs <> [] ->
    Forall2 (fun o m => max_variant_idx o v = Ok m) objs ms ->
    max_num_flags_for_version_of I v = Ok nf ->
    let nv := fold_right N.max 0 (map (fun m => (m + 1) mod 2 ^ p) ms) in
    let t := (16 + nv + nf + 6 + 4) mod 2 ^ p in
    let r := ((t + 15) / 16 * 16) mod 2 ^ p in
    let no := N.of_nat (List.length objs) in
    max_num_variants_for_version_usize I p Release v = Ok nv /\
    total_description_bits_for_version_usize I p Release v = Ok t /\
    total_description_bits_rounded_for_version_usize I p Release v = Ok r /\
    total_opcode_description_and_aux_bits_for_version_usize I p Release v
      = Ok ((r + 3) mod 2 ^ p) /\
    (forall x, opcode_as_integer_bitmask_usize I p Release x v
       = if ((no + nv + nf + 10) mod 2 ^ p <=? r) && ((r + 3) mod 2 ^ p <=? 64)
         then Ok (word_with_bits (description_places I no nv nf r x)) else Panic).
Proof. exact pf_C82_unchecked. Qed.
Print Assumptions C82_unchecked.

(** The crate as it is: on every target, in every build, all of these are what they are in exact
    arithmetic. *)
Theorem C82_current :
  forall p bld v, 16 <= p ->
    compute_encoding_density_usize current_set p bld v = compute_encoding_density v /\
    max_num_variants_for_version_usize current_set p bld v = max_num_variants_for_version v /\
    total_description_bits_for_version_usize current_set p bld v
      = total_description_bits_for_version v /\
    total_description_bits_rounded_for_version_usize current_set p bld v
      = total_description_bits_rounded_for_version v /\
    total_opcode_description_and_aux_bits_for_version_usize current_set p bld v
      = total_opcode_description_and_aux_bits_for_version v /\
    (forall x, opcode_as_integer_bitmask_usize current_set p bld x v
               = opcode_as_integer_bitmask bld x v) /\
    (forall l, synthesize_bit_decomposition_table_usize current_set p bld l v
               = synthesize_bit_decomposition_table bld l v) /\
    (forall bits, synthesize_opcode_decoding_tables_usize current_set p bld bits v
                  = synthesize_opcode_decoding_tables_of current_set p bld bits v) /\
    (forall bits, synthesize_opcode_decoding_tables_legacy_usize current_set p bld bits v
                  = synthesize_opcode_decoding_tables_legacy_of current_set p bld bits v).
Proof. exact pf_C82_current. Qed.
Print Assumptions C82_current.

(** Expected: a set whose widths do not fit is rejected by every build.  False: without overflow
    checks the number of sub-variants wraps around to a small one, and masks are made with it. *)
Theorem C82_refuted :
  let x := mkOpcodeVariant (Op_Nop nopOpcode) RegOnly RegOnly (false, false) in
  opcode_as_integer_bitmask_of wide_set Release x 0 = Panic /\
  opcode_as_integer_bitmask_usize wide_set 64 Debug x 0 = Panic /\
  opcode_as_integer_bitmask_usize wide_set 64 Release x 0
    = Ok (2 ^ 1 + 2 ^ 2 + 2 ^ 3 + 2 ^ 9 + 2 ^ 33) /\
  max_num_variants_for_version_usize wide_set 64 Release 0 = Ok 1 /\
  compute_encoding_density_of flagged_set 0 = Ok (6 * 2 ^ 64) /\
  compute_encoding_density_usize flagged_set 64 Debug 0 = Panic /\
  compute_encoding_density_usize flagged_set 64 Release 0 = Ok 6.
Proof. exact pf_C82_refuted. Qed.
Print Assumptions C82_refuted.

Example C82_example :
  machine_answer 8 (Ok 255) (fun bld => add_w bld 8 254 1) /\
  machine_answer 8 (Ok 256) (fun bld => add_w bld 8 255 1) /\
  add_w Release 8 255 1 = Ok 0 /\
  compute_encoding_density_usize toy_set 6 Release 1 = Ok (99 - 64) /\
  compute_encoding_density_usize toy_set 6 Debug 1 = Panic /\
  compute_encoding_density_usize toy_set 7 Debug 1 = Ok 99 /\
  (exists objs, set_objects wide_set = Ok objs /\ objs <> [] /\
     Forall2 (fun o m => max_variant_idx o 0 = Ok m) objs [0; 2 ^ 64 - 1] /\
     max_num_flags_for_version_of wide_set 0 = Ok 0 /\
     description_places wide_set 2 1 0 32
       (mkOpcodeVariant (Op_Nop nopOpcode) RegOnly RegOnly (false, false)) = [1; 2; 3; 9; 33]).
Proof. exact pf_C82_example. Qed.
