(** * Specification of table synthesis for an arbitrary instruction set.  Definitions only. *)

From Coq Require Import NArith List Bool String.
From Verif Require Import Machine Operands OpcodeTrait Opcodes AllOpcodes Tables SpecIsa
  SpecFamilies.
Import ListNotations.
Open Scope N_scope.

(** An operand without the mode it happens to carry. *)
Inductive operand_kind := KReg | KRegOrImm | KFull.

Definition kind_of (x : Operand) : operand_kind :=
  match x with RegOnly => KReg | RegOrImm _ => KRegOrImm | Full _ => KFull end.

(** The combinations of inputs and outputs an opcode may have. *)
Definition supported_shapes : list (list operand_kind * list operand_kind) :=
  [ ([], []); ([KReg], []); ([], [KReg]); ([KReg], [KReg]); ([KReg; KReg], []);
    ([KReg; KReg], [KReg]); ([KReg], [KReg; KReg]);
    ([KFull], [KFull]); ([KFull; KReg], [KFull]); ([KFull; KReg], [KFull; KReg]);
    ([KFull], []);
    ([KRegOrImm; KReg], [KReg]); ([KRegOrImm], [KReg; KReg]) ].

Definition supported (ins outs : list Operand) : Prop :=
  In (map kind_of ins, map kind_of outs) supported_shapes.

(** What an instruction set says of one opcode variant before addressing: the opcode, its
    operands and the number of its flags. *)
Record bare_opcode := mkBare {
  bare_opcode_of : Opcode;
  bare_inputs : list Operand;
  bare_outputs : list Operand;
  bare_flags : N
}.

(** The modes the first input and the first output can take. *)
Definition source_modes (ins : list Operand) : list Operand :=
  match ins with
  | Full _ :: _ => map Full [ UseRegOnly; UseStackWithPushPop; UseStackWithOffset;
                              UseAbsoluteOnStack; UseImm16Only; UseCodePage ]
  | RegOrImm _ :: _ => map RegOrImm [ RI_UseRegOnly; RI_UseImm16Only ]
  | _ => [ RegOnly ]
  end.
Definition destination_modes (outs : list Operand) : list Operand :=
  match outs with
  | Full _ :: _ => map Full [ UseRegOnly; UseStackWithPushPop; UseStackWithOffset;
                              UseAbsoluteOnStack ]
  | _ => [ RegOnly ]
  end.
Definition flag_settings (n : N) : list (bool * bool) :=
  match n with
  | 0 => [ (false, false) ]
  | 1 => [ (false, false); (true, false) ]
  | _ => [ (false, false); (false, true); (true, false); (true, true) ]
  end.

(** All variants of a bare opcode: by source, then destination, then flags. *)
Definition addressed (b : bare_opcode) : list OpcodeVariant :=
  flat_map (fun s =>
    flat_map (fun d =>
      map (fun f => mkOpcodeVariant (bare_opcode_of b) s d f) (flag_settings (bare_flags b)))
      (destination_modes (bare_outputs b)))
    (source_modes (bare_inputs b)).

(** The bare opcode number [variant_idx d] of the prototype. *)
Definition is_bare (I : InstructionSet) (v : N) (proto : Opcode) (d : OpcodeVariantData)
    (b : bare_opcode) : Prop :=
  set_materialize I proto (variant_idx d) v = Ok (bare_opcode_of b) /\
  set_inputs I (bare_opcode_of b) v = Ok (bare_inputs b) /\
  set_outputs I (bare_opcode_of b) v = Ok (bare_outputs b) /\
  bare_flags b = num_non_exclusive_flags d.

(** In version [v] the set consists of the opcodes [objs], and [rows] lists the bare opcodes of
    each. *)
Definition described (I : InstructionSet) (v : N) (objs : list OpcodeProps)
    (rows : list (list bare_opcode)) : Prop :=
  set_objects I = Ok objs /\ List.length rows = List.length objs /\
  forall i o, nth_error objs i = Some o ->
    exists proto ds row,
      nth_error (set_prototypes I) i = Some proto /\ variants_data o v = Ok ds /\
      nth_error rows i = Some row /\ Forall2 (is_bare I v proto) ds row.

(** How many variants the density count attributes to a bare opcode. *)
Definition weight (b : bare_opcode) : N :=
  2 ^ bare_flags b
  * fold_right N.mul 1
      (map (fun x => match kind_of x with KReg => 1 | KRegOrImm => 2 | KFull => 6 end)
           (bare_inputs b))
  * fold_right N.mul 1
      (map (fun x => match kind_of x with KReg | KRegOrImm => 1 | KFull => 4 end)
           (bare_outputs b)).

(** The versions a synthesis up to [u] goes through: those before the first one beyond [u]. *)
Definition versions_used (I : InstructionSet) (u : N) (vs : list N) : Prop :=
  exists rest, set_versions I = vs ++ rest /\ Forall (fun v => v <= u) vs /\
    match rest with [] => True | v :: _ => u < v end.

(** No two entries mean the same. *)
Definition inequivalent (l : list OpcodeVariant) : Prop :=
  forall i j a b, nth_error l i = Some a -> nth_error l j = Some b ->
    spec_equivalent a b -> i = j.

(** Every entry of [l] has one of the same meaning in [l']. *)
Definition covered (l l' : list OpcodeVariant) : Prop :=
  forall a, In a l -> exists b, In b l' /\ spec_equivalent a b.

(** A small instruction set for the examples: in version 1 the source of the second opcode may be
    an immediate, and a third opcode with two flags appears. *)
Definition toy_operand (v : N) : Operand := if v =? 0 then RegOnly else RegOrImm RI_UseRegOnly.
Definition toy_objects : list OpcodeProps :=
  [ InvalidOpcode_Props invalidOpcode;
    mkOpcodeProps "Split" (fun _ => Ok [mkOpcodeVariantData 0 0 0]) (fun _ => Ok 0)
      (fun v => Ok [toy_operand v]) (fun _ => Ok [RegOnly; RegOnly]) false true;
    mkOpcodeProps "Move" (fun v => Ok (if v =? 0 then [] else [mkOpcodeVariantData 0 2 0]))
      (fun _ => Ok 0) (fun _ => Ok [Full UseRegOnly; RegOnly])
      (fun _ => Ok [Full UseRegOnly; RegOnly]) false true ].
Definition toy_set : InstructionSet :=
  mkInstructionSet (Ok toy_objects)
    [ Op_Invalid invalidOpcode; Op_Ret RetOpcode_Ok; Op_Nop nopOpcode ]
    (fun proto idx _ => if idx =? 0 then Ok proto else Panic)
    (fun o v => Ok (match o with Op_Ret _ => [toy_operand v]
                    | Op_Nop _ => [Full UseRegOnly; RegOnly] | _ => [] end))
    (fun o _ => Ok (match o with Op_Ret _ => [RegOnly; RegOnly]
                    | Op_Nop _ => [Full UseRegOnly; RegOnly] | _ => [] end))
    (fun o => match o with Op_Ret _ => 1 | Op_Nop _ => 2 | _ => 0 end) (fun _ => 0)
    (fun o => match o with Op_Nop _ => true | _ => false end) (fun _ => true)
    [0; 1].

(** ** Bit descriptions *)

(** Bit [i] of the description of a variant, for [k] opcodes, [nv] sub-variants, [nf] flags and
    descriptions of [r] bits: opcode, sub-variant, flags, source mode (6), destination mode (4),
    and from bit [r] on the privilege, static context and invalid bits. *)
Definition description_bit (I : InstructionSet) (k nv nf r : N) (x : OpcodeVariant) (i : N)
  : bool :=
  let o := opcode x in
  (i =? set_index I o) || (i =? k + set_sub_index I o)
  || fst (flags x) && (i =? k + nv) || snd (flags x) && (i =? k + nv + 1)
  || (i =? k + nv + nf + spec_operand_mode (src0_operand_type x))
  || (i =? k + nv + nf + 6 + spec_operand_mode (dst0_operand_type x))
  || set_kernel I o && (i =? r) || set_static I o && (i =? r + 1)
  || spec_is_invalid o && (i =? r + 2).

(** The variant lies within these widths. *)
Definition describable (I : InstructionSet) (k nv nf : N) (x : OpcodeVariant) : Prop :=
  set_index I (opcode x) < k /\ set_sub_index I (opcode x) < nv /\
  (nf <= 1 -> snd (flags x) = false) /\ (nf = 0 -> fst (flags x) = false) /\
  spec_operand_mode (dst0_operand_type x) < 4.
