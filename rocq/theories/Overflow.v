(** * The arithmetic on counts and widths, done on a [usize].  Definitions only.

    Tables.v adds and multiplies counts and widths as natural numbers.  Here the functions that
    do so are written again with the arithmetic of a [usize] of [p] bits: overflow panics when
    overflow checks are on and wraps around when they are off. *)

From Verif Require Import Machine Constants Operands OpcodeTrait Opcodes AllOpcodes Tables.

(** definitions/mod.rs:744-751, the loop over the inputs *)
Definition input_modes_usize (p : N) (bld : build) (ins : list Operand) (acc : N) : res N :=
  for_each (fun acc el =>
    let multiplier := match el with
                      | Full _ => ImmMemHandlerFlags_num_src_variants
                      | RegOrImm _ => RegOrImmFlags_num_src_variants
                      | RegOnly => 1
                      end in
    mul_w bld p acc multiplier) ins acc.

(** definitions/mod.rs:753-760, the loop over the outputs *)
Definition output_modes_usize (p : N) (bld : build) (outs : list Operand) (acc : N) : res N :=
  for_each (fun acc el =>
    let multiplier := match el with
                      | Full _ => ImmMemHandlerFlags_num_dst_variants
                      | RegOrImm _ => RegOrImmFlags_num_dst_variants
                      | RegOnly => 1
                      end in
    mul_w bld p acc multiplier) outs acc.

(** definitions/mod.rs:724-768 *)
Definition compute_encoding_density_usize (I : InstructionSet) (p : N) (bld : build)
    (for_version : ISAVersion) : res N :=
  let* all_opcodes := set_objects I in
  let* _ := check_unique_names all_opcodes in
  let all_prototypes := set_prototypes I in
  for_each (fun num_options '(idx, opcode) =>
    let* variants_data := variants_data opcode for_version in
    for_each (fun num_options variant =>
      let* proto := index all_prototypes idx in
      let* concrete_opcode_without_addressing :=
        set_materialize I proto (variant_idx variant) for_version in
      let* ins := set_inputs I concrete_opcode_without_addressing for_version in
      let* num_addressing_modes := input_modes_usize p bld ins 1 in
      let* outs := set_outputs I concrete_opcode_without_addressing for_version in
      let* num_addressing_modes := output_modes_usize p bld outs num_addressing_modes in
      let* multiplier_for_non_exclusive := shl_one bld p (num_non_exclusive_flags variant) in
      let* all_variants := mul_w bld p multiplier_for_non_exclusive num_addressing_modes in
      add_w bld p num_options all_variants)
      variants_data num_options)
    (enumerate all_opcodes) 0.

(** definitions/mod.rs:189-233 *)
Definition synthesize_opcode_decoding_tables_usize (I : InstructionSet) (p : N) (bld : build)
    (table_bits : N) (up_to_version : ISAVersion) : res (list OpcodeVariant) :=
  let* all_opcodes := set_objects I in
  let* _ := check_unique_names all_opcodes in
  let* capacity := shl_one bld p table_bits in
  let* result :=
    for_each (fun result version =>
      let* all_opcodes_in_version := all_variants_in_version_of I version in
      let* (result, new_opcodes) := find_new_opcodes result all_opcodes_in_version in
      let result := result ++ new_opcodes in
      let* density := compute_encoding_density_usize I p bld version in
      let* _ := assert_ (len result =? density) in
      Ok result)
      (versions_until_break (set_versions I) up_to_version) [] in
  let* r0 := index result 0 in
  let* _ := assert_ (OpcodeVariant_eqb r0 INVALID_OPCODE_VARIANT) in
  let* _ := assert_ (len result <=? capacity) in
  Ok (resize result capacity INVALID_OPCODE_VARIANT).

(** definitions/mod.rs:235-431 *)
Definition synthesize_opcode_decoding_tables_legacy_usize (I : InstructionSet) (p : N)
    (bld : build) (table_bits : N) (up_to_version : ISAVersion) : res (list OpcodeVariant) :=
  let* all_opcodes := set_objects I in
  let all_prototypes := set_prototypes I in
  let* _ := check_unique_names all_opcodes in
  let* capacity := shl_one bld p table_bits in
  let* result :=
    for_each (fun result version =>
      let* result :=
        for_each (fun result '(i, opcode) =>
          let* _ := (if i =? 0 then assert_ (String.eqb (name opcode) "Invalid opcode")
                     else Ok tt) in
          let* proto := index all_prototypes i in
          legacy_push_opcode_of I version opcode proto result)
          (enumerate all_opcodes) result in
      let* density := compute_encoding_density_usize I p bld version in
      let* _ := assert_ (len result =? density) in
      Ok result)
      (versions_until_break (set_versions I) up_to_version) [] in
  let* r0 := index result 0 in
  let* _ := assert_ (OpcodeVariant_eqb r0 INVALID_OPCODE_VARIANT) in
  let* _ := assert_ (len result <=? capacity) in
  Ok (resize result capacity INVALID_OPCODE_VARIANT).

(** definitions/mod.rs:662-671 *)
Definition max_num_variants_for_version_usize (I : InstructionSet) (p : N) (bld : build)
    (version : ISAVersion) : res N :=
  let* all_opcodes := set_objects I in
  let* idxs := map_res (fun op => let* m := max_variant_idx op version in add_w bld p m 1)
                       all_opcodes in
  unwrap (iter_max idxs).

(** lib.rs:95-103 *)
Definition total_description_bits_for_version_usize (I : InstructionSet) (p : N) (bld : build)
    (version : ISAVersion) : res N :=
  let* nv := max_num_variants_for_version_usize I p bld version in
  let* total := add_w bld p OPCODE_TYPE_BITS nv in
  let* nf := max_num_flags_for_version_of I version in
  let* total := add_w bld p total nf in
  let* total := add_w bld p total OPCODE_INPUT_VARIANT_FLAGS in
  add_w bld p total OPCODE_OUTPUT_VARIANT_FLAGS.

(** lib.rs:105-116 *)
Definition total_description_bits_rounded_for_version_usize (I : InstructionSet) (p : N)
    (bld : build) (version : ISAVersion) : res N :=
  let* nv := max_num_variants_for_version_usize I p bld version in
  let* total := add_w bld p OPCODE_TYPE_BITS nv in
  let* nf := max_num_flags_for_version_of I version in
  let* total := add_w bld p total nf in
  let* total := add_w bld p total OPCODE_INPUT_VARIANT_FLAGS in
  let* total := add_w bld p total OPCODE_OUTPUT_VARIANT_FLAGS in
  if negb (total mod WIDTH_MULTIPLE =? 0)
  then
    let* missing := sub_w bld p WIDTH_MULTIPLE (total mod WIDTH_MULTIPLE) in
    add_w bld p total missing
  else Ok total.

(** lib.rs:121-123 *)
Definition total_opcode_description_and_aux_bits_for_version_usize (I : InstructionSet) (p : N)
    (bld : build) (version : ISAVersion) : res N :=
  let* r := total_description_bits_rounded_for_version_usize I p bld version in
  add_w bld p r TOTAL_AUX_BITS.

(** definitions/mod.rs:774-825 *)
Definition opcode_as_integer_bitmask_usize (I : InstructionSet) (p : N) (bld : build)
    (full_opcode_variant : OpcodeVariant) (version : ISAVersion) : res N :=
  let* max_variant_bits_in_version := max_num_variants_for_version_usize I p bld version in
  let* max_num_flags_in_version := max_num_flags_for_version_of I version in
  let encoding := 0 in
  let global_shift := 0 in
  let* s := add_w bld p global_shift (set_index I (opcode full_opcode_variant)) in
  let* b := shl_one bld 64 s in
  let encoding := N.lor encoding b in
  let* prototypes := set_objects I in
  let* global_shift := add_w bld p global_shift (len prototypes) in
  let* s := add_w bld p global_shift (set_sub_index I (opcode full_opcode_variant)) in
  let* b := shl_one bld 64 s in
  let encoding := N.lor encoding b in
  let* global_shift := add_w bld p global_shift max_variant_bits_in_version in
  let* encoding :=
    for_each (fun encoding '(i, flag) =>
      if (flag : bool) then
        let* s := add_w bld p global_shift i in
        let* b := shl_one bld 64 s in
        Ok (N.lor encoding b)
      else Ok encoding)
      (enumerate [fst (flags full_opcode_variant); snd (flags full_opcode_variant)])
      encoding in
  let* global_shift := add_w bld p global_shift max_num_flags_in_version in
  let* s := add_w bld p global_shift
              (Operand_variant_idx (src0_operand_type full_opcode_variant)) in
  let* b := shl_one bld 64 s in
  let encoding := N.lor encoding b in
  let* global_shift := add_w bld p global_shift NUM_INPUT_VARIANTS in
  let* s := add_w bld p global_shift
              (Operand_variant_idx (dst0_operand_type full_opcode_variant)) in
  let* b := shl_one bld 64 s in
  let encoding := N.lor encoding b in
  let* global_shift := add_w bld p global_shift NUM_OUTPUT_VARIANTS in
  let* aligned_num_description_bits :=
    total_description_bits_rounded_for_version_usize I p bld version in
  let* _ := assert_ (global_shift <=? aligned_num_description_bits) in
  let global_shift := aligned_num_description_bits in
  let* encoding :=
    (if set_kernel I (opcode full_opcode_variant)
     then let* b := shl_one bld 64 global_shift in Ok (N.lor encoding b)
     else Ok encoding) in
  let* global_shift := add_w bld p global_shift KERNEL_MODE_FLAG_BITS in
  let* encoding :=
    (if set_static I (opcode full_opcode_variant)
     then let* b := shl_one bld 64 global_shift in Ok (N.lor encoding b)
     else Ok encoding) in
  let* global_shift := add_w bld p global_shift CAN_BE_USED_IN_STATIC_CONTEXT_FLAG_BITS in
  let* encoding :=
    (if OpcodeVariant_is_explicit_panic full_opcode_variant
     then let* b := shl_one bld 64 global_shift in Ok (N.lor encoding b)
     else Ok encoding) in
  let* global_shift := add_w bld p global_shift EXPLICIT_PANIC_FLAG_BITS in
  let* _ := assert_ (global_shift <=? 64) in
  Ok encoding.

(** definitions/mod.rs:701-720 *)
Definition synthesize_bit_decomposition_table_usize (I : InstructionSet) (p : N) (bld : build)
    (opcodes : list OpcodeVariant) (assert_version : ISAVersion) : res (list N) :=
  let* all_opcodes := set_objects I in
  let num_opcodes := len all_opcodes in
  let input_flags := ImmMemHandlerFlags_num_src_variants in
  let output_flags := ImmMemHandlerFlags_num_dst_variants in
  let* _ := assert_ (num_opcodes =? OPCODE_TYPE_BITS) in
  let* _ := assert_ (input_flags =? OPCODE_INPUT_VARIANT_FLAGS) in
  let* _ := assert_ (output_flags =? OPCODE_OUTPUT_VARIANT_FLAGS) in
  for_each (fun result opcode =>
    let* encoding := opcode_as_integer_bitmask_usize I p bld opcode assert_version in
    Ok (result ++ [encoding]))
    opcodes [].
