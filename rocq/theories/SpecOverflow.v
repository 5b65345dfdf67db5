(** * Specification of counting on a machine integer.  Definitions only. *)

From Coq Require Import NArith List Bool.
From Verif Require Import Machine Operands OpcodeTrait Opcodes AllOpcodes Tables SpecIsa
  SpecFamilies SpecSets.
Import ListNotations.
Open Scope N_scope.

(** How a computation on [p]-bit integers relates to the same computation on numbers: it fails if
    that fails; an answer that fits is given by every build; one that does not fit is a panic
    when overflow checks are on. *)
Definition machine_answer (p : N) (exact : res N) (machine : build -> res N) : Prop :=
  match exact with
  | Panic => forall bld, machine bld = Panic
  | Ok n => if n <? 2 ^ p then forall bld, machine bld = Ok n else machine Debug = Panic
  end.

(** The weight of a bare opcode if the shift by the number of flags is taken modulo [p]. *)
Definition wrapped_weight (p : N) (b : bare_opcode) : N :=
  weight (mkBare (bare_opcode_of b) (bare_inputs b) (bare_outputs b) (bare_flags b mod p)).

(** An instruction set with one family whose largest index is the largest 64-bit number, and
    one whose only opcode has 64 flags. *)
Definition wide_set : InstructionSet :=
  mkInstructionSet
    (Ok [ InvalidOpcode_Props invalidOpcode;
          mkOpcodeProps "Wide" (fun _ => Ok [mkOpcodeVariantData 0 0 0])
            (fun _ => Ok (2 ^ 64 - 1)) (fun _ => Ok []) (fun _ => Ok []) false true ])
    [ Op_Invalid invalidOpcode; Op_Nop nopOpcode ]
    (fun proto idx _ => Ok proto) (fun _ _ => Ok []) (fun _ _ => Ok [])
    (fun o => match o with Op_Nop _ => 1 | _ => 0 end) (fun _ => 0)
    (fun _ => false) (fun _ => true) [0].
Definition flagged_set : InstructionSet :=
  mkInstructionSet
    (Ok [ mkOpcodeProps "Flagged" (fun _ => Ok [mkOpcodeVariantData 0 64 0])
            (fun _ => Ok 0) (fun _ => Ok []) (fun _ => Ok []) false true ])
    [ Op_Nop nopOpcode ]
    (fun proto idx _ => Ok proto) (fun _ _ => Ok [Full UseRegOnly]) (fun _ _ => Ok [])
    (fun _ => 0) (fun _ => 0) (fun _ => false) (fun _ => true) [0].

(** The bits of a description, as positions, if the opcode numbers take [no] places, the
    sub-variants [nv] and the flags [nf], and the attributes start at [r]. *)
Definition description_places (I : InstructionSet) (no nv nf r : N) (x : OpcodeVariant) : list N :=
  [set_index I (opcode x); no + set_sub_index I (opcode x)]
  ++ (if fst (flags x) then [no + nv] else [])
  ++ (if snd (flags x) then [no + nv + 1] else [])
  ++ [no + nv + nf + spec_operand_mode (src0_operand_type x);
      no + nv + nf + 6 + spec_operand_mode (dst0_operand_type x)]
  ++ (if set_kernel I (opcode x) then [r] else [])
  ++ (if set_static I (opcode x) then [r + 1] else [])
  ++ (if spec_is_invalid (opcode x) then [r + 2] else []).

(** The 64-bit word with a bit at each of these places, taken modulo 64. *)
Definition word_with_bits (places : list N) : N :=
  fold_left (fun w k => N.lor w (2 ^ (k mod 64))) places 0.
