(** * Vectors allocated up front (C81)

    Statements only: each proof is the lemma of the same name in [ProofsAllocation]. *)

From Coq Require Import Arith NArith List Bool String Ascii.
From Verif Require Import Machine Constants Operands OpcodeTrait Opcodes AllOpcodes Tables Decoding
  Target Allocation SpecIsa SpecFamilies SpecCodec ProofsAllocation.
Import ListNotations.
Open Scope N_scope.

(** For every width, version, build, target and element size: the table of C18 if the variants
    fit the table and the table (and the list of 2048 entries in which a version is enumerated)
    is less than half the address space; a panic otherwise.  A width of at least the pointer
    width panics with overflow checks and is taken modulo the pointer width without. *)
Theorem C81_synthesis :
  forall p size bld b v,
    16 <= p <= 64 ->
    (b < p ->
     synthesize_opcode_decoding_tables_alloc current_set p size bld b v =
       if (spec_count v <=? 2 ^ b) && (2 ^ b * size <? 2 ^ (p - 1)) && (2048 * size <? 2 ^ (p - 1))
       then Ok (spec_table v ++ repeat spec_invalid (N.to_nat (2 ^ b - spec_count v)))
       else Panic) /\
    (p <= b ->
     synthesize_opcode_decoding_tables_alloc current_set p size Debug b v = Panic /\
     synthesize_opcode_decoding_tables_alloc current_set p size Release b v
       = synthesize_opcode_decoding_tables_alloc current_set p size Release (b mod p) v).
Proof. exact pf_C81_synthesis. Qed.
Print Assumptions C81_synthesis.

(** The legacy synthesis gives the same table for version 0, also where only the enumeration
    of the current one would not fit, and panics for every other version. *)
Theorem C81_legacy :
  forall p size bld b v,
    16 <= p <= 64 -> b < p ->
    synthesize_opcode_decoding_tables_legacy_alloc current_set p size bld b v =
      if (v =? 0) && (spec_count 0 <=? 2 ^ b) && (2 ^ b * size <? 2 ^ (p - 1))
      then Ok (spec_table 0 ++ repeat spec_invalid (N.to_nat (2 ^ b - spec_count 0)))
      else Panic.
Proof. exact pf_C81_legacy. Qed.
Print Assumptions C81_legacy.

(** Expected: a width at which the variants fit and the shift does not overflow gives a table.
    False of the last width on every target, whatever the size of an entry. *)
Theorem C81_refuted :
  forall p size bld v, 16 <= p <= 64 -> 1 <= size ->
    spec_count v <= 2 ^ (p - 1) /\ p - 1 < p /\
    synthesize_opcode_decoding_tables_alloc current_set p size bld (p - 1) v = Panic /\
    synthesize_opcode_decoding_tables_legacy_alloc current_set p size bld (p - 1) v = Panic.
Proof. exact pf_C81_refuted. Qed.
Print Assumptions C81_refuted.

(** The bit descriptions of a slice: those of C22 when eight bytes for each can be asked for;
    always so when the slice itself fits and an entry takes at least eight bytes. *)
Theorem C81_bits :
  forall p bld l v, 1 <= p ->
    synthesize_bit_decomposition_table_alloc current_set p bld l v =
      (if len l * 8 <? 2 ^ (p - 1) then synthesize_bit_decomposition_table bld l v else Panic) /\
    (forall size, 8 <= size -> len l * size < 2 ^ (p - 1) ->
       synthesize_bit_decomposition_table_alloc current_set p bld l v
       = synthesize_bit_decomposition_table bld l v).
Proof. exact pf_C81_bits. Qed.
Print Assumptions C81_bits.

(** The statics exist on every target with pointers of at least 32 bits, for entries of up to
    a megabyte. *)
Theorem C81_statics :
  forall p size bld, 32 <= p <= 64 -> size < 2 ^ 20 ->
    OPCODES_TABLE =
      (let* t := synthesize_opcode_decoding_tables_alloc current_set p size bld
                   OPCODES_TABLE_WIDTH DEFAULT_ISA_VERSION in
       into_array (2 ^ OPCODES_TABLE_WIDTH) t) /\
    OPCODES_PROPS_INTEGER_BITMASKS =
      (let* table := OPCODES_TABLE in
       let* t := synthesize_bit_decomposition_table_alloc current_set p bld table
                   DEFAULT_ISA_VERSION in
       into_array (2 ^ OPCODES_TABLE_WIDTH) t) /\
    OPCODES_PRICES = OPCODES_PRICES_alloc p.
Proof. exact pf_C81_statics. Qed.
Print Assumptions C81_statics.

(** On a 64-bit target with entries of eight bytes, width 59 can be asked for and width 60
    panics in both builds. *)
Example C81_example :
  (spec_count 1 <=? 2 ^ 59) && (2 ^ 59 * 8 <? 2 ^ (64 - 1)) && (2048 * 8 <? 2 ^ (64 - 1)) = true /\
  (forall bld, synthesize_opcode_decoding_tables_alloc current_set 64 8 bld 60 1 = Panic).
Proof. exact pf_C81_example. Qed.
