(** * Synthesis for an arbitrary instruction set (C75)

    Statements only: each proof is the lemma of the same name in [ProofsSets]. *)

From Coq Require Import Arith NArith List Bool String Ascii.
From Coq Require Import Permutation.
From Verif Require Import Machine Constants Operands OpcodeTrait Opcodes AllOpcodes Tables
  SpecIsa SpecFamilies SpecSets ProofsSets.
Import ListNotations.
Open Scope N_scope.

(** The enumeration of a version, for every instruction set: the variants of each opcode in
    turn, by sub-variant, source, destination and flags.  It succeeds exactly if all names
    differ and the first is that of the invalid opcode, every query succeeds, every combination
    of operands is a supported one, no opcode has more than two flags, and the first variant is
    the invalid one. *)
Theorem C75_enumeration :
  forall I v l,
    all_variants_in_version_of I v = Ok l <->
    exists objs rows,
      described I v objs rows /\ NoDup (map name objs) /\
      hd_error (map name objs) = Some "Invalid opcode"%string /\
      (forall row b, In row rows -> In b row ->
         supported (bare_inputs b) (bare_outputs b) /\ bare_flags b <= 2) /\
      l = flat_map addressed (List.concat rows) /\ hd_error l = Some spec_invalid.
Proof. exact pf_C75_enumeration. Qed.
Print Assumptions C75_enumeration.

(** The density of every instruction set: the sum over its opcodes of two to the number of flags
    times the modes of every operand.  Whenever the enumeration succeeds, this is its length, so
    that the comparison of the two cannot fail. *)
Theorem C75_density :
  forall I v,
    (forall objs rows, described I v objs rows -> NoDup (map name objs) ->
       compute_encoding_density_of I v
       = Ok (fold_right N.add 0 (map weight (List.concat rows)))) /\
    (forall l, all_variants_in_version_of I v = Ok l ->
       compute_encoding_density_of I v = Ok (N.of_nat (List.length l))).
Proof. exact pf_C75_density. Qed.
Print Assumptions C75_density.

(** Numbers are stable in every instruction set: if tables up to two versions can be
    synthesized, every number that means something in the earlier one means the same in the later
    one.  The widths of the tables, the build and the pointer width do not matter. *)
Theorem C75_stable :
  forall I p p' bld bld' bits bits' u u' t t',
    u <= u' ->
    synthesize_opcode_decoding_tables_of I p bld bits u = Ok t ->
    synthesize_opcode_decoding_tables_of I p' bld' bits' u' = Ok t' ->
    forall i a, nth_error t i = Some a -> a <> spec_invalid ->
      exists b, nth_error t' i = Some b /\ spec_equivalent a b.
Proof. exact pf_C75_stable. Qed.
Print Assumptions C75_stable.

(** What a synthesized table holds, for every instruction set: the meanings of exactly the
    variants of the last version used, in as many entries, followed by the invalid variant.  If no
    two variants of that version mean the same, the entries are those variants, in some order. *)
Theorem C75_contents :
  forall I p bld bits u t, bits < p ->
    synthesize_opcode_decoding_tables_of I p bld bits u = Ok t ->
    exists vs w l r,
      versions_used I u (vs ++ [w]) /\ all_variants_in_version_of I w = Ok l /\
      N.of_nat (List.length t) = 2 ^ bits /\
      t = r ++ repeat spec_invalid (List.length t - List.length l) /\
      List.length r = List.length l /\ hd_error r = Some spec_invalid /\
      covered l r /\ covered r l /\ (inequivalent l -> Permutation r l).
Proof. exact pf_C75_contents. Qed.
Print Assumptions C75_contents.

(** Synthesis succeeds for every instruction set whose used versions can be enumerated, have no
    two variants of one meaning, and drop no meaning of the version before, if the last of them
    fits into the table. *)
Theorem C75_total :
  forall I p bld bits u vs, bits < p ->
    versions_used I u vs -> vs <> [] ->
    (forall v, In v vs -> exists l, all_variants_in_version_of I v = Ok l /\ inequivalent l) ->
    (forall i v v' l l', nth_error vs i = Some v -> nth_error vs (S i) = Some v' ->
       all_variants_in_version_of I v = Ok l -> all_variants_in_version_of I v' = Ok l' ->
       covered l l') ->
    forall w l, nth_error vs (List.length vs - 1) = Some w ->
      all_variants_in_version_of I w = Ok l ->
      ((exists t, synthesize_opcode_decoding_tables_of I p bld bits u = Ok t) <->
       N.of_nat (List.length l) <= 2 ^ bits).
Proof. exact pf_C75_total. Qed.
Print Assumptions C75_total.

(** The older procedure, for every instruction set: it agrees with the newer one while a single
    version is used, the operands of an opcode are those of all its sub-variants, and no source
    is a register or an immediate.  It panics if an opcode has such a source. *)
Theorem C75_legacy :
  forall I p bld bits u,
    (forall w, versions_used I u [w] ->
       (exists objs, set_objects I = Ok objs /\
          forall i o, nth_error objs i = Some o ->
            exists proto ds ins outs,
              nth_error (set_prototypes I) i = Some proto /\ variants_data o w = Ok ds /\
              input_operands o w = Ok ins /\ output_operands o w = Ok outs /\
              supported ins outs /\ hd_error (map kind_of ins) <> Some KRegOrImm /\
              forall d, In d ds -> exists op,
                set_materialize I proto (variant_idx d) w = Ok op /\
                set_inputs I op w = Ok ins /\ set_outputs I op w = Ok outs) ->
       synthesize_opcode_decoding_tables_legacy_of I p bld bits u
       = synthesize_opcode_decoding_tables_of I p bld bits u) /\
    (forall vs w objs o ins,
       versions_used I u vs -> In w vs -> set_objects I = Ok objs -> In o objs ->
       input_operands o w = Ok ins -> hd_error (map kind_of ins) = Some KRegOrImm ->
       synthesize_opcode_decoding_tables_legacy_of I p bld bits u = Panic).
Proof. exact pf_C75_legacy. Qed.
Print Assumptions C75_legacy.

(** The functions of the source are those above for the current instruction set, which meets the
    conditions of the theorems. *)
Theorem C75_current :
  (forall v, all_variants_in_version_of current_set v = all_variants_in_version v) /\
  (forall v, compute_encoding_density_of current_set v = compute_encoding_density v) /\
  (forall bld bits v, synthesize_opcode_decoding_tables_of current_set 64 bld bits v
                      = synthesize_opcode_decoding_tables bld bits v) /\
  (forall bld bits v, synthesize_opcode_decoding_tables_legacy_of current_set 64 bld bits v
                      = synthesize_opcode_decoding_tables_legacy bld bits v) /\
  (forall v, v <= 1 -> exists l, all_variants_in_version_of current_set v = Ok l /\ inequivalent l) /\
  (forall l l', all_variants_in_version_of current_set 0 = Ok l ->
     all_variants_in_version_of current_set 1 = Ok l' -> covered l l').
Proof. exact pf_C75_current. Qed.
Print Assumptions C75_current.

(** A set with operand combinations the current one does not have. *)
Example C75_example :
  all_variants_in_version_of toy_set 0
  = Ok [spec_invalid; mkOpcodeVariant (Op_Ret RetOpcode_Ok) RegOnly RegOnly (false, false)] /\
  (exists l, all_variants_in_version_of toy_set 1 = Ok l /\ List.length l = 99%nat /\
             compute_encoding_density_of toy_set 1 = Ok 99) /\
  (exists t t', synthesize_opcode_decoding_tables_of toy_set 64 Debug 7 0 = Ok t /\
     synthesize_opcode_decoding_tables_of toy_set 64 Debug 7 1 = Ok t' /\
     nth_error t 1 = Some (mkOpcodeVariant (Op_Ret RetOpcode_Ok) RegOnly RegOnly (false, false)) /\
     nth_error t' 1 = Some (mkOpcodeVariant (Op_Ret RetOpcode_Ok) (RegOrImm RI_UseRegOnly) RegOnly
                              (false, false)) /\
     synthesize_opcode_decoding_tables_legacy_of toy_set 64 Debug 7 0 = Ok t) /\
  synthesize_opcode_decoding_tables_of toy_set 64 Debug 6 1 = Panic /\
  synthesize_opcode_decoding_tables_legacy_of toy_set 64 Debug 7 1 = Panic.
Proof. exact pf_C75_example. Qed.
