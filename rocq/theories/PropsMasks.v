(** * Bit descriptions for an arbitrary instruction set (C76)

    Statements only: each proof is the lemma of the same name in [ProofsMasks]. *)

From Coq Require Import Arith NArith List Bool String Ascii.
From Verif Require Import Machine Constants Operands OpcodeTrait Opcodes AllOpcodes Tables
  PricingGen Display SpecIsa SpecFamilies SpecPricing SpecDisplay SpecSets ProofsMasks.
Import ListNotations.
Open Scope N_scope.

(** The widths of the fields, for every instruction set: one more than the greatest sub-variant
    index, the greatest number of flags over all versions up to the given one, their sum with the
    fixed widths, and that sum rounded up to the next multiple of 16.  They are defined exactly if
    the queries succeed and there is an opcode and, for the flags, a version. *)
Theorem C76_widths :
  forall I v,
    (forall n, max_num_variants_for_version_of I v = Ok n <->
       exists objs, set_objects I = Ok objs /\
         (forall o, In o objs -> exists m, max_variant_idx o v = Ok m /\ m + 1 <= n) /\
         (exists o m, In o objs /\ max_variant_idx o v = Ok m /\ m + 1 = n)) /\
    (forall n, max_num_flags_for_version_of I v = Ok n <->
       exists objs, set_objects I = Ok objs /\ objs <> [] /\
         (exists w, In w (set_versions I) /\ w <= v) /\
         (forall o w, In o objs -> In w (set_versions I) -> w <= v ->
            exists ds, variants_data o w = Ok ds /\
                       forall d, In d ds -> num_non_exclusive_flags d <= n) /\
         (n = 0 \/ exists o w ds d, In o objs /\ In w (set_versions I) /\ w <= v /\
            variants_data o w = Ok ds /\ In d ds /\ num_non_exclusive_flags d = n)) /\
    (forall t, total_description_bits_for_version_of I v = Ok t <->
       exists nv nf, max_num_variants_for_version_of I v = Ok nv /\
         max_num_flags_for_version_of I v = Ok nf /\ t = 16 + nv + nf + 6 + 4) /\
    (forall r, total_description_bits_rounded_for_version_of I v = Ok r <->
       exists t, total_description_bits_for_version_of I v = Ok t /\
         r mod 16 = 0 /\ t <= r < t + 16).
Proof. exact pf_C76_widths. Qed.
Print Assumptions C76_widths.

(** The description of a variant, for every instruction set: defined, in both builds, exactly if
    the widths are defined and leave room for all fields within 64 bits; and then its bits are
    one bit per field at that field's place. *)
Theorem C76_mask :
  forall I bld x v,
    (forall m, opcode_as_integer_bitmask_of I bld x v = Ok m ->
       exists objs nv nf r, set_objects I = Ok objs /\
         max_num_variants_for_version_of I v = Ok nv /\
         max_num_flags_for_version_of I v = Ok nf /\
         total_description_bits_rounded_for_version_of I v = Ok r /\
         N.of_nat (List.length objs) + nv + nf + 10 <= r /\ r + 3 <= 64) /\
    (forall objs nv nf r, set_objects I = Ok objs ->
       max_num_variants_for_version_of I v = Ok nv ->
       max_num_flags_for_version_of I v = Ok nf ->
       total_description_bits_rounded_for_version_of I v = Ok r ->
       N.of_nat (List.length objs) + nv + nf + 10 <= r -> r + 3 <= 64 ->
       describable I (N.of_nat (List.length objs)) nv nf x ->
       exists m, opcode_as_integer_bitmask_of I bld x v = Ok m /\
         forall i, N.testbit m i = description_bit I (N.of_nat (List.length objs)) nv nf r x i).
Proof. exact pf_C76_mask. Qed.
Print Assumptions C76_mask.

(** Equal descriptions describe the same: in every instruction set the description determines
    the opcode and sub-variant numbers, the flags, both modes and the three attributes. *)
Theorem C76_injective :
  forall I bld bld' x y v objs nv nf m,
    set_objects I = Ok objs ->
    max_num_variants_for_version_of I v = Ok nv ->
    max_num_flags_for_version_of I v = Ok nf ->
    describable I (N.of_nat (List.length objs)) nv nf x ->
    describable I (N.of_nat (List.length objs)) nv nf y ->
    opcode_as_integer_bitmask_of I bld x v = Ok m ->
    opcode_as_integer_bitmask_of I bld' y v = Ok m ->
    set_index I (opcode x) = set_index I (opcode y) /\
    set_sub_index I (opcode x) = set_sub_index I (opcode y) /\ flags x = flags y /\
    spec_operand_mode (src0_operand_type x) = spec_operand_mode (src0_operand_type y) /\
    spec_operand_mode (dst0_operand_type x) = spec_operand_mode (dst0_operand_type y) /\
    set_kernel I (opcode x) = set_kernel I (opcode y) /\
    set_static I (opcode x) = set_static I (opcode y) /\
    spec_is_invalid (opcode x) = spec_is_invalid (opcode y).
Proof. exact pf_C76_injective. Qed.
Print Assumptions C76_injective.

(** Describing a whole table asks in addition for exactly sixteen opcodes. *)
Theorem C76_table :
  forall I bld l v ms,
    synthesize_bit_decomposition_table_of I bld l v = Ok ms <->
    exists objs, set_objects I = Ok objs /\ List.length objs = 16%nat /\
      Forall2 (fun x m => opcode_as_integer_bitmask_of I bld x v = Ok m) l ms.
Proof. exact pf_C76_table. Qed.
Print Assumptions C76_table.

(** The text of the format description, for every instruction set. *)
Theorem C76_format :
  forall I v s,
    compute_decoding_format_of I v = Ok s <->
    exists objs nv nf n t a b c,
      set_objects I = Ok objs /\ max_num_variants_for_version_of I v = Ok nv /\
      max_num_flags_for_version_of I v = Ok nf /\ N.of_nat (List.length objs) = n /\
      decimal_text (n + nv + nf + 10) t /\ decimal_text n a /\ decimal_text nv b /\
      decimal_text nf c /\
      s = (t ++ " bits in total." ++ String (Ascii.ascii_of_N 10) ""
           ++ a ++ " bit flags for opcode|" ++ b ++ " bit flags for variant|"
           ++ c ++ " bit flags for flags|6 bits flags for input type|"
           ++ "4 bit flags for output type")%string.
Proof. exact pf_C76_format. Qed.
Print Assumptions C76_format.

(** The functions of the source are those above for the current instruction set. *)
Theorem C76_current :
  (forall v, max_num_variants_for_version_of current_set v = max_num_variants_for_version v) /\
  (forall v, max_num_flags_for_version_of current_set v = max_num_flags_for_version v) /\
  (forall v, total_description_bits_for_version_of current_set v
             = total_description_bits_for_version v) /\
  (forall v, total_description_bits_rounded_for_version_of current_set v
             = total_description_bits_rounded_for_version v) /\
  (forall bld x v, opcode_as_integer_bitmask_of current_set bld x v
                   = opcode_as_integer_bitmask bld x v) /\
  (forall bld l v, synthesize_bit_decomposition_table_of current_set bld l v
                   = synthesize_bit_decomposition_table bld l v) /\
  (forall v, compute_decoding_format_of current_set v = compute_decoding_format v) /\
  (forall x, spec_well_formed 1 x = true -> describable current_set 16 10 2 x).
Proof. exact pf_C76_current. Qed.
Print Assumptions C76_current.

Example C76_example :
  max_num_variants_for_version_of toy_set 1 = Ok 1 /\
  max_num_flags_for_version_of toy_set 0 = Ok 0 /\
  max_num_flags_for_version_of toy_set 1 = Ok 2 /\
  total_description_bits_for_version_of toy_set 1 = Ok 29 /\
  total_description_bits_rounded_for_version_of toy_set 1 = Ok 32 /\
  describable toy_set 3 1 2
    (mkOpcodeVariant (Op_Nop nopOpcode) (Full UseCodePage) (Full UseStackWithOffset) (true, false)) /\
  opcode_as_integer_bitmask_of toy_set Release
    (mkOpcodeVariant (Op_Nop nopOpcode) (Full UseCodePage) (Full UseStackWithOffset) (true, false)) 1
  = Ok (2 ^ 2 + 2 ^ 3 + 2 ^ 4 + 2 ^ 11 + 2 ^ 14 + 2 ^ 32 + 2 ^ 33).
Proof. exact pf_C76_example. Qed.
