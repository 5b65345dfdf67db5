(** * The vectors the table functions allocate up front.  Definitions only.

    [Vec::with_capacity(n)] panics with "capacity overflow" when [n] elements take more bytes
    than [isize::MAX].  Tables.v leaves this out; here the functions that ask for a capacity
    are written again with that check.  The width [p] of [usize] and the size in bytes of an
    [OpcodeVariant], which the language does not fix, are parameters.  Running out of memory
    for smaller requests, and the growth of a vector beyond its first capacity, stay outside
    the model. *)

From Verif Require Import Machine Constants Operands OpcodeTrait Opcodes AllOpcodes Tables.

(** [Vec::with_capacity(n)] for elements of [size] bytes. Source: definitions/mod.rs:211, 259,
    454, 713; lib.rs:220. *)
Definition with_capacity {A : Type} (p size n : N) : res (list A) :=
  if n * size <=? 2 ^ (p - 1) - 1 then Ok [] else Panic.

(** definitions/mod.rs:433-659; the capacity is that of line 454 *)
Definition all_variants_in_version_alloc (I : InstructionSet) (p size : N)
    (version : ISAVersion) : res (list OpcodeVariant) :=
  let* all_opcodes := set_objects I in
  let all_prototypes := set_prototypes I in
  let* _ := check_unique_names all_opcodes in
  let* result := with_capacity p size (2 ^ 11) in
  let* result :=
    for_each (fun result '(i, opcode) =>
      let* _ := (if i =? 0 then assert_ (String.eqb (name opcode) "Invalid opcode")
                 else Ok tt) in
      let* all_variants_in_this_version := variants_data opcode version in
      let* proto := index all_prototypes i in
      for_each (push_variant_of I version proto) all_variants_in_this_version result)
      (enumerate all_opcodes) result in
  let* r0 := index result 0 in
  let* _ := assert_ (OpcodeVariant_eqb r0 INVALID_OPCODE_VARIANT) in
  Ok result.

(** definitions/mod.rs:189-233; the capacity is that of line 211 *)
Definition synthesize_opcode_decoding_tables_alloc (I : InstructionSet) (p size : N)
    (bld : build) (table_bits : N) (up_to_version : ISAVersion) : res (list OpcodeVariant) :=
  let* all_opcodes := set_objects I in
  let* _ := check_unique_names all_opcodes in
  let* capacity := shl_one bld p table_bits in
  let* result := with_capacity p size capacity in
  let* result :=
    for_each (fun result version =>
      let* all_opcodes_in_version := all_variants_in_version_alloc I p size version in
      let* (result, new_opcodes) := find_new_opcodes result all_opcodes_in_version in
      let result := result ++ new_opcodes in
      let* density := compute_encoding_density_of I version in
      let* _ := assert_ (len result =? density) in
      Ok result)
      (versions_until_break (set_versions I) up_to_version) result in
  let* r0 := index result 0 in
  let* _ := assert_ (OpcodeVariant_eqb r0 INVALID_OPCODE_VARIANT) in
  let* _ := assert_ (len result <=? capacity) in
  Ok (resize result capacity INVALID_OPCODE_VARIANT).

(** definitions/mod.rs:235-431; the capacity is that of line 259 *)
Definition synthesize_opcode_decoding_tables_legacy_alloc (I : InstructionSet) (p size : N)
    (bld : build) (table_bits : N) (up_to_version : ISAVersion) : res (list OpcodeVariant) :=
  let* all_opcodes := set_objects I in
  let all_prototypes := set_prototypes I in
  let* _ := check_unique_names all_opcodes in
  let* capacity := shl_one bld p table_bits in
  let* result := with_capacity p size capacity in
  let* result :=
    for_each (fun result version =>
      let* result :=
        for_each (fun result '(i, opcode) =>
          let* _ := (if i =? 0 then assert_ (String.eqb (name opcode) "Invalid opcode")
                     else Ok tt) in
          let* proto := index all_prototypes i in
          legacy_push_opcode_of I version opcode proto result)
          (enumerate all_opcodes) result in
      let* density := compute_encoding_density_of I version in
      let* _ := assert_ (len result =? density) in
      Ok result)
      (versions_until_break (set_versions I) up_to_version) result in
  let* r0 := index result 0 in
  let* _ := assert_ (OpcodeVariant_eqb r0 INVALID_OPCODE_VARIANT) in
  let* _ := assert_ (len result <=? capacity) in
  Ok (resize result capacity INVALID_OPCODE_VARIANT).

(** definitions/mod.rs:701-720; the capacity is that of line 713, of [u64]s of 8 bytes *)
Definition synthesize_bit_decomposition_table_alloc (I : InstructionSet) (p : N) (bld : build)
    (opcodes : list OpcodeVariant) (assert_version : ISAVersion) : res (list N) :=
  let* all_opcodes := set_objects I in
  let num_opcodes := len all_opcodes in
  let input_flags := ImmMemHandlerFlags_num_src_variants in
  let output_flags := ImmMemHandlerFlags_num_dst_variants in
  let* _ := assert_ (num_opcodes =? OPCODE_TYPE_BITS) in
  let* _ := assert_ (input_flags =? OPCODE_INPUT_VARIANT_FLAGS) in
  let* _ := assert_ (output_flags =? OPCODE_OUTPUT_VARIANT_FLAGS) in
  let* result := with_capacity p 8 (len opcodes) in
  for_each (fun result opcode =>
    let* encoding := opcode_as_integer_bitmask_of I bld opcode assert_version in
    Ok (result ++ [encoding]))
    opcodes result.

(** lib.rs:219-227; the capacity is that of line 220, of [u32]s of 4 bytes *)
Definition OPCODES_PRICES_alloc (p : N) : res (list N) :=
  let* result := with_capacity p 4 (2 ^ OPCODES_TABLE_WIDTH) in
  let* table := OPCODES_TABLE in
  into_array (2 ^ OPCODES_TABLE_WIDTH)
    (fold_left (fun result opcode => result ++ [OpcodeVariant_ergs_price opcode]) table result).
