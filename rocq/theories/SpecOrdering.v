(** * Specification of the derived orderings.  Definitions only. *)

From Coq Require Import NArith List Bool.
From Verif Require Import Machine Operands OpcodeTrait Opcodes AllOpcodes Tables Decoding Abi
  SpecIsa SpecFamilies.
Import ListNotations.
Open Scope N_scope.

(** A comparison function is a total order whose equality is Leibniz equality. *)
Definition total_order {A : Type} (cmp : A -> A -> comparison) : Prop :=
  (forall a b, cmp a b = Eq <-> a = b) /\
  (forall a b, cmp b a = CompOpp (cmp a b)) /\
  (forall a b c, cmp a b = Lt -> cmp b c = Lt -> cmp a c = Lt).

(** The nine operand kinds, in order. *)
Definition spec_operand_rank (s : Operand) : N :=
  match s with
  | RegOnly => 0
  | RegOrImm RI_UseRegOnly => 1
  | RegOrImm RI_UseImm16Only => 2
  | Full f => 3 + spec_mode f
  end.

(** Sort key of a variant: family, number within the family, source, destination, flags, in
    decreasing significance. *)
Definition spec_key (x : OpcodeVariant) : N :=
  2 * (2 * (9 * (9 * (10 * spec_family (opcode x) + spec_sub (opcode x))
                 + spec_operand_rank (src0_operand_type x))
            + spec_operand_rank (dst0_operand_type x))
       + N.b2n (fst (flags x)))
  + N.b2n (snd (flags x)).

(** Pairs whose numbers are in the opposite order: context before shift, binop, pointer and
    near call opcodes; shift before binop; and the immediate heap accesses of version 1, whose
    numbers follow all others. *)
Definition spec_out_of_order (x y : OpcodeVariant) : bool :=
  let imm z := spec_is_imm_heap_access z in
  match opcode x, opcode y with
  | Op_Context _, (Op_Shift _ | Op_Binop _ | Op_Ptr _ | Op_NearCall _) => true
  | Op_Shift _, Op_Binop _ => true
  | Op_UMA _, Op_UMA _ => imm x && negb (imm y) && (spec_key x <? spec_key y)
  | _, _ => false
  end.

(** One list of numbers precedes another: they agree up to some position, where the first has
    the smaller entry. *)
Definition lex_before (a b : list N) : Prop :=
  exists i, (i < List.length a)%nat /\ (i < List.length b)%nat /\
    firstn i a = firstn i b /\ nth i a 0 < nth i b 0.

(** The fields of the ABI structures as numbers, in declaration order. *)
Definition fat_pointer_fields (p : FatPointer) : list N :=
  [fp_offset p; fp_memory_page p; fp_start p; fp_length p].

Definition far_call_fields (a : FarCallABI) : list N :=
  fat_pointer_fields (fc_memory_quasi_fat_pointer a) ++
  [fc_ergs_passed a; fc_shard_id a;
   match fc_forwarding_mode a with
   | FarCall_UseHeap => 0 | FarCall_ForwardFatPointer => 1 | FarCall_UseAuxHeap => 2
   end;
   if fc_constructor_call a then 1 else 0; if fc_to_system a then 1 else 0].

Definition ret_fields (a : RetABI) : list N :=
  fat_pointer_fields (ret_memory_quasi_fat_pointer a) ++
  [match ret_page_forwarding_mode a with
   | Ret_UseHeap => 0 | Ret_ForwardFatPointer => 1 | Ret_UseAuxHeap => 2
   end].

Definition precompile_fields (a : PrecompileCallABI) : list N :=
  [pc_input_memory_offset a; pc_input_memory_length a; pc_output_memory_offset a;
   pc_output_memory_length a; pc_per_precompile_interpreted a].

Definition inner_fields (a : PrecompileCallInnerABI) : list N :=
  [pi_input_memory_offset a; pi_input_memory_length a; pi_output_memory_offset a;
   pi_output_memory_length a; pi_memory_page_to_read a; pi_memory_page_to_write a;
   pi_precompile_interpreted_data a].

Definition meta_fields (a : VmMetaParameters) : list N :=
  [ergs_per_pubdata_byte a; heap_size a; aux_heap_size a; this_shard_id a; caller_shard_id a;
   code_shard_id a].

Definition variant_data_fields (a : OpcodeVariantData) : list N :=
  [variant_idx a; num_non_exclusive_flags a; num_used_immediates a].

(** A comparison is the total order given by a list of fields. *)
Definition ordered_by {A : Type} (cmp : A -> A -> comparison) (fields : A -> list N) : Prop :=
  total_order cmp /\ forall a b, cmp a b = Lt <-> lex_before (fields a) (fields b).
