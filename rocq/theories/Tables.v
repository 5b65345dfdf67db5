(** * Opcode tables: src/definitions/mod.rs and the statics of src/lib.rs.  Definitions only.

    A [lazy_static] is the value its initializer returns ([Panic] if the initializer
    panics).  [HashSet] is a list with a membership test, [HashMap] an association list
    with lookup; the source only inserts absent keys, looks up and tests membership, so
    no iteration order is involved.  [Vec::with_capacity] is the empty list: running out of
    memory is not modelled. *)

From Verif Require Import Machine Constants Operands OpcodeTrait Opcodes AllOpcodes.

(** definitions/mod.rs:119-125.  [flags : [bool; 2]] is a pair. *)
Record OpcodeVariant := mkOpcodeVariant {
  opcode : Opcode;
  src0_operand_type : Operand;
  dst0_operand_type : Operand;
  flags : bool * bool
}.

(** [#[derive(PartialEq)]] of definitions/mod.rs:119 *)
Definition flags_eqb (a b : bool * bool) : bool :=
  eqb (fst a) (fst b) && eqb (snd a) (snd b).
(** definitions/mod.rs:119 *)
Definition OpcodeVariant_eqb (a b : OpcodeVariant) : bool :=
  Opcode_beq (opcode a) (opcode b)
  && Operand_beq (src0_operand_type a) (src0_operand_type b)
  && Operand_beq (dst0_operand_type a) (dst0_operand_type b)
  && flags_eqb (flags a) (flags b).

(** [self.flags[i]]. Source: definitions/mod.rs:120-125. *)
Definition flag_at (fl : bool * bool) (i : N) : bool :=
  match i with 0 => fst fl | _ => snd fl end.

(** Field updates [t.f = x]. Source: definitions/mod.rs:476-642. *)
Definition set_opcode (t : OpcodeVariant) (x : Opcode) : OpcodeVariant :=
  mkOpcodeVariant x (src0_operand_type t) (dst0_operand_type t) (flags t).
(** definitions/mod.rs:476-642 *)
Definition set_src0 (t : OpcodeVariant) (x : Operand) : OpcodeVariant :=
  mkOpcodeVariant (opcode t) x (dst0_operand_type t) (flags t).
(** definitions/mod.rs:476-642 *)
Definition set_dst0 (t : OpcodeVariant) (x : Operand) : OpcodeVariant :=
  mkOpcodeVariant (opcode t) (src0_operand_type t) x (flags t).
(** definitions/mod.rs:476-642 *)
Definition set_flag0 (t : OpcodeVariant) (b : bool) : OpcodeVariant :=
  mkOpcodeVariant (opcode t) (src0_operand_type t) (dst0_operand_type t) (b, snd (flags t)).
(** definitions/mod.rs:476-642 *)
Definition set_flag1 (t : OpcodeVariant) (b : bool) : OpcodeVariant :=
  mkOpcodeVariant (opcode t) (src0_operand_type t) (dst0_operand_type t) (fst (flags t), b).

(** definitions/mod.rs:59-64 *)
Definition INVALID_OPCODE_VARIANT : OpcodeVariant :=
  mkOpcodeVariant (Op_Invalid invalidOpcode) RegOnly RegOnly (false, false).

(** definitions/mod.rs:66-94 *)
Definition all_opcodes : res (list OpcodeProps) :=
  let opcodes :=
    [ InvalidOpcode_Props invalidOpcode;
      NopOpcode_Props nopOpcode;
      AddOpcode_Props AddOpcode_Add;
      SubOpcode_Props SubOpcode_Sub;
      MulOpcode_Props mulOpcode;
      DivOpcode_Props divOpcode;
      JumpOpcode_Props jumpOpcode;
      BinopOpcode_Props BinopOpcode_Xor;
      ShiftOpcode_Props ShiftOpcode_Shl;
      PtrOpcode_Props PtrOpcode_Add;
      NearCallOpcode_Props nearCallOpcode;
      ContextOpcode_Props ContextOpcode_This;
      LogOpcode_Props LogOpcode_StorageRead;
      FarCallOpcode_Props FarCallOpcode_Normal;
      RetOpcode_Props RetOpcode_Ok;
      UMAOpcode_Props UMAOpcode_HeapRead ] in
  let* _ := assert_ (len opcodes =? NUM_OPCODES) in
  let* o0 := index opcodes 0 in
  let* _ := assert_ (String.eqb (name o0) "Invalid opcode") in
  Ok opcodes.

(** definitions/mod.rs:96-117 *)
Definition all_opcode_prototypes : list Opcode :=
  [ Op_Invalid invalidOpcode;
    Op_Nop nopOpcode;
    Op_Add AddOpcode_Add;
    Op_Sub SubOpcode_Sub;
    Op_Mul mulOpcode;
    Op_Div divOpcode;
    Op_Jump jumpOpcode;
    Op_Binop BinopOpcode_Xor;
    Op_Shift ShiftOpcode_Shl;
    Op_Ptr PtrOpcode_Add;
    Op_NearCall nearCallOpcode;
    Op_Context ContextOpcode_This;
    Op_Log LogOpcode_StorageRead;
    Op_FarCall FarCallOpcode_Normal;
    Op_Ret RetOpcode_Ok;
    Op_UMA UMAOpcode_HeapRead ].

(** definitions/mod.rs:132-134 *)
Definition OpcodeVariant_ergs_price (self : OpcodeVariant) : N :=
  Opcode_ergs_price (opcode self).

(** definitions/mod.rs:136-144 *)
Definition OpcodeVariant_swap_operands (self : OpcodeVariant) : bool :=
  match opcode self with
  | Op_Sub _ | Op_Div _ | Op_Shift _ =>
      flag_at (flags self) SWAP_OPERANDS_FLAG_IDX_FOR_ARITH_OPCODES
  | Op_Ptr _ => flag_at (flags self) SWAP_OPERANDS_FLAG_IDX_FOR_PTR_OPCODE
  | _ => false
  end.

(** definitions/mod.rs:146-148 *)
Definition OpcodeVariant_requires_kernel_mode (self : OpcodeVariant) : bool :=
  Opcode_requires_kernel_mode (opcode self).

(** definitions/mod.rs:150-152 *)
Definition OpcodeVariant_can_be_used_in_static_context (self : OpcodeVariant) : bool :=
  Opcode_can_be_used_in_static_context (opcode self).

(** definitions/mod.rs:157-162 *)
Definition OpcodeVariant_is_explicit_panic (self : OpcodeVariant) : bool :=
  match opcode self with
  | Op_Invalid _ => true
  | _ => false
  end.

(** definitions/mod.rs:166-173 *)
Definition OpcodeVariant_default : OpcodeVariant :=
  mkOpcodeVariant (Op_Nop nopOpcode) RegOnly RegOnly (false, false).

(** The duplicate-name check, the same loop at definitions/mod.rs:199-209, 247-257, 442-452 and
    727-737 *)
Definition check_unique_names (ops : list OpcodeProps) : res (list string) :=
  for_each (fun checker op =>
              if existsb (String.eqb (name op)) checker then Panic
              else Ok (name op :: checker))
           ops [].

(** What the functions below read of the instruction set: the opcode objects
    ([all_opcodes()]), the prototypes ([all_opcode_prototypes()]), the conversions and queries
    of [Opcode] (definitions/all.rs:45-103, 230-270) and the list of versions.  The source has
    one instruction set, [current_set] below, and the functions name it directly
    (definitions/mod.rs:189-470, 724-760); the model takes it as an argument, so that the same
    code can be considered for every instruction set. *)
Record InstructionSet := mkInstructionSet {
  set_objects : res (list OpcodeProps);
  set_prototypes : list Opcode;
  set_materialize : Opcode -> N -> ISAVersion -> res Opcode;
  set_inputs : Opcode -> ISAVersion -> res (list Operand);
  set_outputs : Opcode -> ISAVersion -> res (list Operand);
  set_index : Opcode -> N;
  set_sub_index : Opcode -> N;
  set_kernel : Opcode -> bool;
  set_static : Opcode -> bool;
  set_versions : list ISAVersion
}.

(** The instruction set of the source: definitions/mod.rs:66-117; definitions/all.rs:45-103,
    230-270; definitions/opcode_trait.rs:40 *)
Definition current_set : InstructionSet :=
  mkInstructionSet all_opcodes all_opcode_prototypes
    Opcode_materialize_subvariant_from_prototype Opcode_input_operands Opcode_output_operands
    Opcode_variant_idx Opcode_materialize_subvariant_idx Opcode_requires_kernel_mode
    Opcode_can_be_used_in_static_context ALL_ISA_VERSIONS.

(** The block that pushes one table entry per flag combination.  The source repeats it in
    every arm (definitions/mod.rs:297-324, 345-369, 385-409, 496-523, 541-565, 580-604, 618-642); the
    model factors the seven identical copies into this one function. *)
Definition push_flag_options (num_non_exclusive_flags : N) (tmp : OpcodeVariant)
    (result : list OpcodeVariant) : res (list OpcodeVariant) :=
  match num_non_exclusive_flags with
  | 0 => Ok (result ++ [tmp])
  | 1 => Ok (result ++ map (fun b => set_flag0 tmp b) [false; true])
  | 2 => Ok (result ++ flat_map (fun b0 => map (fun b1 => set_flag1 (set_flag0 tmp b0) b1)
                                               [false; true])
                                [false; true])
  | _ => Panic (* unreachable!() *)
  end.

(** [matches!(x, Operand::RegOnly)]. Source: definitions/mod.rs:494-495, 579, 617. *)
Definition is_RegOnly (x : Operand) : bool :=
  match x with RegOnly => true | _ => false end.

(** definitions/mod.rs:471-653, the loop body of [all_variants_in_version] for one sub-variant of the
    prototype [proto] *)
Definition push_variant_of (I : InstructionSet) (version : ISAVersion) (proto : Opcode)
    (result : list OpcodeVariant) (variant_data : OpcodeVariantData) : res (list OpcodeVariant) :=
  let vidx := variant_idx variant_data in
  let nflags := num_non_exclusive_flags variant_data in
  let* concrete_opcode_without_addressing :=
    set_materialize I proto vidx version in
  let* ins := set_inputs I concrete_opcode_without_addressing version in
  let* outs := set_outputs I concrete_opcode_without_addressing version in
  match ins, outs with
  (* definitions/mod.rs:482-524 *)
  | [], []
  | [RegOnly], []
  | [], [RegOnly]
  | [RegOnly], [RegOnly]
  | [RegOnly; RegOnly], []
  | [RegOnly; RegOnly], [RegOnly]
  | [RegOnly], [RegOnly; RegOnly] =>
      let tmp := INVALID_OPCODE_VARIANT in
      let* op := set_materialize I proto vidx version in
      let tmp := set_opcode tmp op in
      let* _ := assert_ (is_RegOnly (src0_operand_type tmp)) in
      let* _ := assert_ (is_RegOnly (dst0_operand_type tmp)) in
      push_flag_options nflags tmp result
  (* definitions/mod.rs:525-568 *)
  | [Full _], [Full _]
  | [Full _; RegOnly], [Full _]
  | [Full _; RegOnly], [Full _; RegOnly] =>
      for_each (fun result input_variant =>
        for_each (fun result output_variant =>
          let tmp := INVALID_OPCODE_VARIANT in
          let* op := set_materialize I proto vidx version in
          let tmp := set_opcode tmp op in
          let tmp := set_src0 tmp (Full input_variant) in
          if negb (ImmMemHandlerFlags_is_allowed_for_dst output_variant) then Ok result
          else
            let tmp := set_dst0 tmp (Full output_variant) in
            push_flag_options nflags tmp result)
          ImmMemHandlerFlags_all_variants result)
        ImmMemHandlerFlags_all_variants result
  (* definitions/mod.rs:569-606 *)
  | [Full _], [] =>
      for_each (fun result input_variant =>
        let tmp := INVALID_OPCODE_VARIANT in
        let* op := set_materialize I proto vidx version in
        let tmp := set_opcode tmp op in
        let tmp := set_src0 tmp (Full input_variant) in
        let* _ := assert_ (is_RegOnly (dst0_operand_type tmp)) in
        push_flag_options nflags tmp result)
        ImmMemHandlerFlags_all_variants result
  (* definitions/mod.rs:607-644 *)
  | [RegOrImm _; RegOnly], [RegOnly]
  | [RegOrImm _], [RegOnly; RegOnly] =>
      for_each (fun result src_variant =>
        let tmp := INVALID_OPCODE_VARIANT in
        let* op := set_materialize I proto vidx version in
        let tmp := set_opcode tmp op in
        let tmp := set_src0 tmp (RegOrImm src_variant) in
        let* _ := assert_ (is_RegOnly (dst0_operand_type tmp)) in
        push_flag_options nflags tmp result)
        RegOrImmFlags_all_variants result
  (* definitions/mod.rs:645-651, unreachable!() *)
  | _, _ => Panic
  end.

(** definitions/mod.rs:433-659.  The prototype is looked up once for each opcode, before the loop
    over its sub-variants; the source looks it up in the loop (definitions/mod.rs:474-475), from an
    array that is as long as the list of opcodes. *)
Definition all_variants_in_version_of (I : InstructionSet) (version : ISAVersion)
  : res (list OpcodeVariant) :=
  let* all_opcodes := set_objects I in
  let all_prototypes := set_prototypes I in
  let* _ := check_unique_names all_opcodes in
  let* result :=
    for_each (fun result '(i, opcode) =>
      let* _ := (if i =? 0 then assert_ (String.eqb (name opcode) "Invalid opcode")
                 else Ok tt) in
      let* all_variants_in_this_version := variants_data opcode version in
      let* proto := index all_prototypes i in
      for_each (push_variant_of I version proto) all_variants_in_this_version result)
      (enumerate all_opcodes) [] in
  let* r0 := index result 0 in
  let* _ := assert_ (OpcodeVariant_eqb r0 INVALID_OPCODE_VARIANT) in
  Ok result.
(** definitions/mod.rs:433-659, for the instruction set of the source *)
Definition all_variants_in_version : ISAVersion -> res (list OpcodeVariant) :=
  all_variants_in_version_of current_set.

(** definitions/mod.rs:279-420, the body of the legacy loop for the opcode object [opcode] with
    prototype [proto]: the operand lists are those of the prototype, not of each
    sub-variant *)
Definition legacy_push_opcode_of (I : InstructionSet) (version : ISAVersion)
    (opcode : OpcodeProps) (proto : Opcode) (result : list OpcodeVariant) : res (list OpcodeVariant) :=
  let* all_variants_added_in_this_version := variants_data opcode version in
  let* ins := input_operands opcode version in
  let* outs := output_operands opcode version in
  match ins, outs with
  (* definitions/mod.rs:283-326 *)
  | [], []
  | [RegOnly], []
  | [], [RegOnly]
  | [RegOnly], [RegOnly]
  | [RegOnly; RegOnly], []
  | [RegOnly; RegOnly], [RegOnly]
  | [RegOnly], [RegOnly; RegOnly] =>
      for_each (fun result variant_data =>
        let tmp := INVALID_OPCODE_VARIANT in
        let* op := set_materialize I proto
                     (variant_idx variant_data) version in
        let tmp := set_opcode tmp op in
        push_flag_options (num_non_exclusive_flags variant_data) tmp result)
        all_variants_added_in_this_version result
  (* definitions/mod.rs:327-373 *)
  | [Full _], [Full _]
  | [Full _; RegOnly], [Full _]
  | [Full _; RegOnly], [Full _; RegOnly] =>
      for_each (fun result variant_data =>
        for_each (fun result input_variant =>
          for_each (fun result output_variant =>
            let tmp := INVALID_OPCODE_VARIANT in
            let* op := set_materialize I proto
                         (variant_idx variant_data) version in
            let tmp := set_opcode tmp op in
            let tmp := set_src0 tmp (Full input_variant) in
            if negb (ImmMemHandlerFlags_is_allowed_for_dst output_variant) then Ok result
            else
              let tmp := set_dst0 tmp (Full output_variant) in
              push_flag_options (num_non_exclusive_flags variant_data) tmp result)
            ImmMemHandlerFlags_all_variants result)
          ImmMemHandlerFlags_all_variants result)
        all_variants_added_in_this_version result
  (* definitions/mod.rs:374-412 *)
  | [Full _], [] =>
      for_each (fun result variant_data =>
        for_each (fun result input_variant =>
          let tmp := INVALID_OPCODE_VARIANT in
          let* op := set_materialize I proto
                       (variant_idx variant_data) version in
          let tmp := set_opcode tmp op in
          let tmp := set_src0 tmp (Full input_variant) in
          push_flag_options (num_non_exclusive_flags variant_data) tmp result)
          ImmMemHandlerFlags_all_variants result)
        all_variants_added_in_this_version result
  (* definitions/mod.rs:413-419, unreachable!() *)
  | _, _ => Panic
  end.

(** definitions/mod.rs:724-772.  [1 << n] is a [usize]: [n] is 0, 1 or 2 for
    the current instruction set; for other ones the shift, like the sums and products here, is done
    on numbers, and Overflow.v has it on a [usize]. *)
Definition compute_encoding_density_of (I : InstructionSet) (for_version : ISAVersion) : res N :=
  let* all_opcodes := set_objects I in
  let* _ := check_unique_names all_opcodes in
  let all_prototypes := set_prototypes I in
  for_each (fun num_options '(idx, opcode) =>
    let* variants_data := variants_data opcode for_version in
    for_each (fun num_options variant =>
      let* proto := index all_prototypes idx in
      let* concrete_opcode_without_addressing :=
        set_materialize I proto (variant_idx variant) for_version in
      let* ins := set_inputs I concrete_opcode_without_addressing for_version in
      let num_addressing_modes :=
        fold_left (fun acc el =>
                     acc * match el with
                           | Full _ => ImmMemHandlerFlags_num_src_variants
                           | RegOrImm _ => RegOrImmFlags_num_src_variants
                           | RegOnly => 1
                           end) ins 1 in
      let* outs := set_outputs I concrete_opcode_without_addressing for_version in
      let num_addressing_modes :=
        fold_left (fun acc el =>
                     acc * match el with
                           | Full _ => ImmMemHandlerFlags_num_dst_variants
                           | RegOrImm _ => RegOrImmFlags_num_dst_variants
                           | RegOnly => 1
                           end) outs num_addressing_modes in
      let multiplier_for_non_exclusive := 2 ^ num_non_exclusive_flags variant in
      Ok (num_options + multiplier_for_non_exclusive * num_addressing_modes))
      variants_data num_options)
    (enumerate all_opcodes) 0.
(** definitions/mod.rs:724-772, for the instruction set of the source *)
Definition compute_encoding_density : ISAVersion -> res N :=
  compute_encoding_density_of current_set.

(** definitions/mod.rs:827-848 *)
Definition semantically_equal (a b : OpcodeVariant) : bool :=
  if negb (Opcode_beq (opcode a) (opcode b)) then false
  else if negb (flags_eqb (flags a) (flags b)) then false
  else if negb (Operand_beq (dst0_operand_type a) (dst0_operand_type b)) then false
  else if Operand_beq (src0_operand_type a) (src0_operand_type b) then true
  else match src0_operand_type a, src0_operand_type b with
       | RegOnly, RegOrImm RI_UseRegOnly
       | RegOrImm RI_UseRegOnly, RegOnly => true
       | _, _ => false
       end.

(** definitions/mod.rs:874-884: scan [old], overwrite the first element semantically equal to [new] *)
Fixpoint replace_first_equivalent (new : OpcodeVariant) (old : list OpcodeVariant)
  : bool * list OpcodeVariant :=
  match old with
  | [] => (false, [])
  | o :: r =>
      if semantically_equal new o then (true, new :: r)
      else let '(found, r') := replace_first_equivalent new r in (found, o :: r')
  end.

(** definitions/mod.rs:850-892.  The [&mut [OpcodeVariant]] argument is returned alongside the result:
    [(old, difference)]. *)
Definition find_new_opcodes (old new : list OpcodeVariant)
  : res (list OpcodeVariant * list OpcodeVariant) :=
  let* _ :=
    for_each (fun _ el =>
      if existsb (OpcodeVariant_eqb el) new then Ok tt
      else assert_ (existsb (fun new => semantically_equal new el) new))
      old tt in
  Ok (fold_left (fun '(old, difference) new =>
                   let '(found_equivalent, old') := replace_first_equivalent new old in
                   (old', if found_equivalent then difference else difference ++ [new]))
                new (old, [])).

(** The loop header [for version in ALL_ISA_VERSIONS { if version > up_to { break } .. }]
    of definitions/mod.rs:215-218 and 263-266 *)
Fixpoint versions_until_break (l : list ISAVersion) (up_to : ISAVersion) : list ISAVersion :=
  match l with
  | [] => []
  | v :: r => if up_to <? v then [] else v :: versions_until_break r up_to
  end.

(** definitions/mod.rs:189-233.  [1 << table_bits] is evaluated on [usize], of [p] bits: at
    [Vec::with_capacity], in the assertion and at [resize]; all three are the same value,
    here [capacity]. *)
Definition synthesize_opcode_decoding_tables_of (I : InstructionSet) (p : N) (bld : build)
    (table_bits : N) (up_to_version : ISAVersion) : res (list OpcodeVariant) :=
  let* all_opcodes := set_objects I in
  let* _ := check_unique_names all_opcodes in
  let* capacity := shl_one bld p table_bits in
  let* result :=
    for_each (fun result version =>
      let* all_opcodes_in_version := all_variants_in_version_of I version in
      let* (result, new_opcodes) := find_new_opcodes result all_opcodes_in_version in
      let result := result ++ new_opcodes in
      let* density := compute_encoding_density_of I version in
      let* _ := assert_ (len result =? density) in
      Ok result)
      (versions_until_break (set_versions I) up_to_version) [] in
  let* r0 := index result 0 in
  let* _ := assert_ (OpcodeVariant_eqb r0 INVALID_OPCODE_VARIANT) in
  let* _ := assert_ (len result <=? capacity) in
  Ok (resize result capacity INVALID_OPCODE_VARIANT).
(** definitions/mod.rs:189-233, for the instruction set of the source and a [usize] of 64 bits *)
Definition synthesize_opcode_decoding_tables
  : build -> N -> ISAVersion -> res (list OpcodeVariant) :=
  synthesize_opcode_decoding_tables_of current_set 64.

(** definitions/mod.rs:235-431.  As in [all_variants_in_version_of], the prototype is looked up once
    for each opcode. *)
Definition synthesize_opcode_decoding_tables_legacy_of (I : InstructionSet) (p : N) (bld : build)
    (table_bits : N) (up_to_version : ISAVersion) : res (list OpcodeVariant) :=
  let* all_opcodes := set_objects I in
  let all_prototypes := set_prototypes I in
  let* _ := check_unique_names all_opcodes in
  let* capacity := shl_one bld p table_bits in
  let* result :=
    for_each (fun result version =>
      let* result :=
        for_each (fun result '(i, opcode) =>
          let* _ := (if i =? 0 then assert_ (String.eqb (name opcode) "Invalid opcode")
                     else Ok tt) in
          let* proto := index all_prototypes i in
          legacy_push_opcode_of I version opcode proto result)
          (enumerate all_opcodes) result in
      let* density := compute_encoding_density_of I version in
      let* _ := assert_ (len result =? density) in
      Ok result)
      (versions_until_break (set_versions I) up_to_version) [] in
  let* r0 := index result 0 in
  let* _ := assert_ (OpcodeVariant_eqb r0 INVALID_OPCODE_VARIANT) in
  let* _ := assert_ (len result <=? capacity) in
  Ok (resize result capacity INVALID_OPCODE_VARIANT).
(** definitions/mod.rs:235-431, for the instruction set of the source and a [usize] of 64 bits *)
Definition synthesize_opcode_decoding_tables_legacy
  : build -> N -> ISAVersion -> res (list OpcodeVariant) :=
  synthesize_opcode_decoding_tables_legacy_of current_set 64.

(** definitions/mod.rs:662-671 *)
Definition max_num_variants_for_version_of (I : InstructionSet) (version : ISAVersion) : res N :=
  let* all_opcodes := set_objects I in
  let* idxs := map_res (fun op => let* m := max_variant_idx op version in Ok (m + 1))
                       all_opcodes in
  unwrap (iter_max idxs).
(** definitions/mod.rs:662-671, for the instruction set of the source *)
Definition max_num_variants_for_version : ISAVersion -> res N :=
  max_num_variants_for_version_of current_set.

(** definitions/mod.rs:674-699 *)
Definition max_num_flags_for_version_of (I : InstructionSet) (version : ISAVersion) : res N :=
  let* all_opcodes := set_objects I in
  let* per_op :=
    map_res (fun op =>
      let* per_version :=
        map_res (fun el =>
          let* vd := variants_data op el in
          Ok (match iter_max (map num_non_exclusive_flags vd) with
              | Some m => m
              | None => 0
              end))
          (filter (fun el => el <=? version) (set_versions I)) in
      unwrap (iter_max per_version))
      all_opcodes in
  unwrap (iter_max per_op).
(** definitions/mod.rs:674-699, for the instruction set of the source *)
Definition max_num_flags_for_version : ISAVersion -> res N :=
  max_num_flags_for_version_of current_set.

(** lib.rs:95-103 *)
Definition total_description_bits_for_version_of (I : InstructionSet) (version : ISAVersion)
  : res N :=
  let* nv := max_num_variants_for_version_of I version in
  let* nf := max_num_flags_for_version_of I version in
  Ok (OPCODE_TYPE_BITS + nv + nf + OPCODE_INPUT_VARIANT_FLAGS + OPCODE_OUTPUT_VARIANT_FLAGS).
(** lib.rs:95-103, for the instruction set of the source *)
Definition total_description_bits_for_version : ISAVersion -> res N :=
  total_description_bits_for_version_of current_set.

(** lib.rs:105-116 *)
Definition total_description_bits_rounded_for_version_of (I : InstructionSet)
    (version : ISAVersion) : res N :=
  let* nv := max_num_variants_for_version_of I version in
  let* nf := max_num_flags_for_version_of I version in
  let total :=
    OPCODE_TYPE_BITS + nv + nf + OPCODE_INPUT_VARIANT_FLAGS + OPCODE_OUTPUT_VARIANT_FLAGS in
  if negb (total mod WIDTH_MULTIPLE =? 0)
  then Ok (total + (WIDTH_MULTIPLE - total mod WIDTH_MULTIPLE))
  else Ok total.
(** lib.rs:105-116, for the instruction set of the source *)
Definition total_description_bits_rounded_for_version : ISAVersion -> res N :=
  total_description_bits_rounded_for_version_of current_set.

(** lib.rs:121-123 *)
Definition total_opcode_description_and_aux_bits_for_version (version : ISAVersion) : res N :=
  let* r := total_description_bits_rounded_for_version version in
  Ok (r + TOTAL_AUX_BITS).

(** lib.rs:125 *)
Definition DEFAULT_ISA_VERSION : ISAVersion := 1.

(** lib.rs:202-204, 206-208 *)
Definition OPCODE_PROTOTYPES : res (list OpcodeProps) := all_opcodes.
(** lib.rs:206-208 *)
Definition NUM_LOGICAL_OPCODES : res N :=
  let* p := OPCODE_PROTOTYPES in Ok (len p).

(** lib.rs:210-212 *)
Definition NUM_INPUT_VARIANTS : N := ImmMemHandlerFlags_num_src_variants.
(** lib.rs:214-216 *)
Definition NUM_OUTPUT_VARIANTS : N := ImmMemHandlerFlags_num_dst_variants.

(** definitions/mod.rs:774-825.  The number of logical opcodes is [NUM_LOGICAL_OPCODES], the
    length of the list of opcode objects. *)
Definition opcode_as_integer_bitmask_of (I : InstructionSet) (bld : build)
    (full_opcode_variant : OpcodeVariant) (version : ISAVersion) : res N :=
  let* max_variant_bits_in_version := max_num_variants_for_version_of I version in
  let* max_num_flags_in_version := max_num_flags_for_version_of I version in
  let encoding := 0 in
  let global_shift := 0 in
  let* b := shl_one bld 64 (global_shift + set_index I (opcode full_opcode_variant)) in
  let encoding := N.lor encoding b in
  let* prototypes := set_objects I in
  let nlo := len prototypes in
  let global_shift := global_shift + nlo in
  let* b := shl_one bld 64 (global_shift
                        + set_sub_index I (opcode full_opcode_variant)) in
  let encoding := N.lor encoding b in
  let global_shift := global_shift + max_variant_bits_in_version in
  let* encoding :=
    for_each (fun encoding '(i, flag) =>
      if (flag : bool) then
        let* b := shl_one bld 64 (global_shift + i) in
        Ok (N.lor encoding b)
      else Ok encoding)
      (enumerate [fst (flags full_opcode_variant); snd (flags full_opcode_variant)])
      encoding in
  let global_shift := global_shift + max_num_flags_in_version in
  let* b := shl_one bld 64 (global_shift
                        + Operand_variant_idx (src0_operand_type full_opcode_variant)) in
  let encoding := N.lor encoding b in
  let global_shift := global_shift + NUM_INPUT_VARIANTS in
  let* b := shl_one bld 64 (global_shift
                        + Operand_variant_idx (dst0_operand_type full_opcode_variant)) in
  let encoding := N.lor encoding b in
  let global_shift := global_shift + NUM_OUTPUT_VARIANTS in
  let* aligned_num_description_bits := total_description_bits_rounded_for_version_of I version in
  let* _ := assert_ (global_shift <=? aligned_num_description_bits) in
  let global_shift := aligned_num_description_bits in
  let* encoding :=
    (if set_kernel I (opcode full_opcode_variant)
     then let* b := shl_one bld 64 global_shift in Ok (N.lor encoding b)
     else Ok encoding) in
  let global_shift := global_shift + KERNEL_MODE_FLAG_BITS in
  let* encoding :=
    (if set_static I (opcode full_opcode_variant)
     then let* b := shl_one bld 64 global_shift in Ok (N.lor encoding b)
     else Ok encoding) in
  let global_shift := global_shift + CAN_BE_USED_IN_STATIC_CONTEXT_FLAG_BITS in
  let* encoding :=
    (if OpcodeVariant_is_explicit_panic full_opcode_variant
     then let* b := shl_one bld 64 global_shift in Ok (N.lor encoding b)
     else Ok encoding) in
  let global_shift := global_shift + EXPLICIT_PANIC_FLAG_BITS in
  let* _ := assert_ (global_shift <=? 64) in
  Ok encoding.
(** definitions/mod.rs:774-825, for the instruction set of the source *)
Definition opcode_as_integer_bitmask : build -> OpcodeVariant -> ISAVersion -> res N :=
  opcode_as_integer_bitmask_of current_set.

(** definitions/mod.rs:701-720 *)
Definition synthesize_bit_decomposition_table_of (I : InstructionSet) (bld : build)
    (opcodes : list OpcodeVariant) (assert_version : ISAVersion) : res (list N) :=
  let* all_opcodes := set_objects I in
  let num_opcodes := len all_opcodes in
  let input_flags := ImmMemHandlerFlags_num_src_variants in
  let output_flags := ImmMemHandlerFlags_num_dst_variants in
  let* _ := assert_ (num_opcodes =? OPCODE_TYPE_BITS) in
  let* _ := assert_ (input_flags =? OPCODE_INPUT_VARIANT_FLAGS) in
  let* _ := assert_ (output_flags =? OPCODE_OUTPUT_VARIANT_FLAGS) in
  for_each (fun result opcode =>
    let* encoding := opcode_as_integer_bitmask_of I bld opcode assert_version in
    Ok (result ++ [encoding]))
    opcodes [].
(** definitions/mod.rs:701-720, for the instruction set of the source *)
Definition synthesize_bit_decomposition_table
  : build -> list OpcodeVariant -> ISAVersion -> res (list N) :=
  synthesize_bit_decomposition_table_of current_set.

(** [Vec<T>::try_into::<[T; n]>().unwrap()]. Source: lib.rs:129, 133, 226. *)
Definition into_array {A : Type} (n : N) (v : list A) : res (list A) :=
  if len v =? n then Ok v else Panic.

(** lib.rs:128-130; the width 11 makes the build profile irrelevant (theorem [C18_build]) *)
Definition OPCODES_TABLE : res (list OpcodeVariant) :=
  let* t := synthesize_opcode_decoding_tables Debug OPCODES_TABLE_WIDTH DEFAULT_ISA_VERSION in
  into_array (2 ^ OPCODES_TABLE_WIDTH) t.

(** lib.rs:132-134; the build profile is irrelevant (theorem [C22_build]) *)
Definition OPCODES_PROPS_INTEGER_BITMASKS : res (list N) :=
  let* table := OPCODES_TABLE in
  let* t := synthesize_bit_decomposition_table Debug table DEFAULT_ISA_VERSION in
  into_array (2 ^ OPCODES_TABLE_WIDTH) t.

(** [HashMap<OpcodeVariant, V>]: [get], [insert] of an absent key, [contains_key].
    Source: lib.rs:139, 153. *)
Definition map_get {V : Type} (m : list (OpcodeVariant * V)) (k : OpcodeVariant) : option V :=
  match find (fun e => OpcodeVariant_eqb (fst e) k) m with
  | Some e => Some (snd e)
  | None => None
  end.
(** lib.rs:143, 156 *)
Definition map_insert {V : Type} (m : list (OpcodeVariant * V)) (k : OpcodeVariant) (v : V)
  : list (OpcodeVariant * V) := (k, v) :: m.
(** lib.rs:170, 190 *)
Definition contains_key {V : Type} (m : list (OpcodeVariant * V)) (k : OpcodeVariant) : bool :=
  match map_get m k with Some _ => true | None => false end.

(** decoding/mod.rs:10-23 *)
Record VariantMonotonicNumber := mkVariantMonotonicNumber { monotonic_number : N }.
(** decoding/mod.rs:10-23 *)
Definition VariantMonotonicNumber_from_usize (value : N) : VariantMonotonicNumber :=
  mkVariantMonotonicNumber value.
(** decoding/mod.rs:10-23 *)
Definition VariantMonotonicNumber_into_usize (self : VariantMonotonicNumber) : N :=
  monotonic_number self.

(** lib.rs:137-147, the initializer of [OPCODE_TO_MONOTONIC_INDEX_NUMBER_MAP] for a table *)
Definition monotonic_map_of_table (table : list OpcodeVariant)
  : res (list (OpcodeVariant * VariantMonotonicNumber)) :=
  for_each (fun result '(idx, el) =>
    match map_get result el with
    | Some existing =>
        let usize_index := VariantMonotonicNumber_into_usize existing in
        let* e := index table usize_index in
        let* _ := assert_ (OpcodeVariant_eqb e INVALID_OPCODE_VARIANT) in
        Ok result
    | None => Ok (map_insert result el (VariantMonotonicNumber_from_usize idx))
    end)
    (enumerate table) [].

(** lib.rs:136-148 *)
Definition OPCODE_TO_MONOTONIC_INDEX_NUMBER_MAP
  : res (list (OpcodeVariant * VariantMonotonicNumber)) :=
  let* table := OPCODES_TABLE in monotonic_map_of_table table.

(** lib.rs:151-160, the initializer of [OPCODE_TO_CANONICAL_INDEX_LOOKUP_MAP] for a table *)
Definition canonical_map_of_table (table : list OpcodeVariant)
  : res (list (OpcodeVariant * N)) :=
  for_each (fun result '(idx, el) =>
    match map_get result el with
    | Some existing =>
        let* e := index table existing in
        let* _ := assert_ (OpcodeVariant_eqb e INVALID_OPCODE_VARIANT) in
        Ok result
    | None => Ok (map_insert result el idx)
    end)
    (enumerate table) [].

(** lib.rs:150-161 *)
Definition OPCODE_TO_CANONICAL_INDEX_LOOKUP_MAP : res (list (OpcodeVariant * N)) :=
  let* table := OPCODES_TABLE in canonical_map_of_table table.

(** lib.rs:163-173 *)
Definition NOP_OPCODE_VARIANT : res OpcodeVariant :=
  let variant :=
    mkOpcodeVariant (Op_Nop nopOpcode) (Full UseRegOnly) (Full UseRegOnly) (false, false) in
  let* m := OPCODE_TO_CANONICAL_INDEX_LOOKUP_MAP in
  let* _ := assert_ (contains_key m variant) in
  Ok variant.

(** lib.rs:175-180 *)
Definition NOP_BITSPREAD_U64 : res N :=
  let* m := OPCODE_TO_CANONICAL_INDEX_LOOKUP_MAP in
  let* v := NOP_OPCODE_VARIANT in
  let* idx := unwrap (map_get m v) in
  let* masks := OPCODES_PROPS_INTEGER_BITMASKS in
  index masks idx.

(** lib.rs:182-193 *)
Definition PANIC_OPCODE_VARIANT : res OpcodeVariant :=
  let variant :=
    mkOpcodeVariant (Op_Ret RetOpcode_Panic) RegOnly RegOnly (false, false) in
  let* m := OPCODE_TO_CANONICAL_INDEX_LOOKUP_MAP in
  let* _ := assert_ (contains_key m variant) in
  Ok variant.

(** lib.rs:195-200 *)
Definition PANIC_BITSPREAD_U64 : res N :=
  let* m := OPCODE_TO_CANONICAL_INDEX_LOOKUP_MAP in
  let* v := PANIC_OPCODE_VARIANT in
  let* idx := unwrap (map_get m v) in
  let* masks := OPCODES_PROPS_INTEGER_BITMASKS in
  index masks idx.

(** lib.rs:219-227 *)
Definition OPCODES_PRICES : res (list N) :=
  let* table := OPCODES_TABLE in
  into_array (2 ^ OPCODES_TABLE_WIDTH)
    (fold_left (fun result opcode => result ++ [OpcodeVariant_ergs_price opcode]) table []).
