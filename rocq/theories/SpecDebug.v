(** * Specification of the [Debug] texts: what a value looks like as a tree, and how a tree is laid
    out on one line or over several.  Definitions only. *)

From Coq Require Import NArith List Bool String Ascii.
From Verif Require Import Machine Operands OpcodeTrait Opcodes AllOpcodes Tables Decoding Abi
  VersionedHash SpecIsa SpecCodec SpecFamilies SpecPricing SpecDisplay.
Import ListNotations.
Open Scope N_scope.

(** ** Trees *)

Inductive tree :=
| Word (s : string)                                   (* a name on its own, or true and false *)
| Number (n : N)
| Call (name : string) (children : list tree)         (* Name(a, b) *)
| Rec (name : string) (fields : list (string * tree)) (* Name { x: a, y: b } *)
| Seq (children : list tree).                         (* [a, b] *)

(** Characters of names: letters, digits, the underscore. *)
Definition word_char (c : ascii) : bool :=
  let n := N_of_ascii c in
  ((48 <=? n) && (n <=? 57)) || ((65 <=? n) && (n <=? 90)) || ((97 <=? n) && (n <=? 122))
  || (n =? 95).
Fixpoint word_chars (s : string) : bool :=
  match s with EmptyString => true | String c r => word_char c && word_chars r end.
(** A name: not empty, and not starting with a digit. *)
Definition is_name (s : string) : bool :=
  match s with
  | EmptyString => false
  | String c r => negb ((48 <=? N_of_ascii c) && (N_of_ascii c <=? 57)) && word_char c && word_chars r
  end.

(** Names are names, and [Name()] and [Name {}] do not occur. *)
Fixpoint proper (t : tree) : bool :=
  match t with
  | Word s => is_name s
  | Number _ => true
  | Call s cs => is_name s && negb (match cs with [] => true | _ => false end) && forallb proper cs
  | Rec s fs => is_name s && negb (match fs with [] => true | _ => false end)
                && forallb (fun f => is_name (fst f) && proper (snd f)) fs
  | Seq cs => forallb proper cs
  end.

(** ** Layout *)

(** The decimal digits of [n], least significant last. *)
Fixpoint digits_upto (fuel : nat) (n : N) (acc : string) : string :=
  match fuel with
  | O => acc
  | S f => let s := String (ascii_of_N (48 + n mod 10)) acc in
           if n <? 10 then s else digits_upto f (n / 10) s
  end.
Definition digits (n : N) : string := digits_upto (S (N.to_nat (N.log2 n))) n EmptyString.

Definition newline : string := String (ascii_of_N 10) EmptyString.
Fixpoint indent (d : nat) : string :=
  match d with O => EmptyString | S d => ("    " ++ indent d)%string end.
Fixpoint join (sep : string) (l : list string) : string :=
  match l with
  | [] => EmptyString
  | [x] => x
  | x :: r => (x ++ sep ++ join sep r)%string
  end.

(** What stands between the opening bracket and the first item, between two items, and between
    the last item and the closing bracket, at nesting depth [d]: over several lines every item
    has a line of its own, four spaces further in and followed by a comma; on one line there are
    commas between the items and [gap] next to the brackets. *)
Definition before (multi : bool) (d : nat) (gap : string) : string :=
  if multi then (newline ++ indent (S d))%string else gap.
Definition between (multi : bool) (d : nat) : string :=
  if multi then ("," ++ newline ++ indent (S d))%string else ", "%string.
Definition after (multi : bool) (d : nat) (gap : string) : string :=
  if multi then ("," ++ newline ++ indent d)%string else gap.

Definition bracketed (multi : bool) (d : nat) (opening gap closing : string) (items : list string)
  : string :=
  (opening ++ before multi d gap ++ join (between multi d) items ++ after multi d gap ++ closing)%string.

Fixpoint layout (multi : bool) (d : nat) (t : tree) : string :=
  match t with
  | Word s => s
  | Number n => digits n
  | Call s cs => (s ++ bracketed multi d "(" "" ")" (map (layout multi (S d)) cs))%string
  | Rec s fs =>
      (s ++ bracketed multi d " {" " " "}"
              (map (fun f => (fst f ++ ": " ++ layout multi (S d) (snd f))%string) fs))%string
  | Seq [] => "[]"%string
  | Seq cs => bracketed multi d "[" "" "]" (map (layout multi (S d)) cs)
  end.

(** ** Values as trees *)

Definition bool_tree (b : bool) : tree := Word (bool_text b).

Definition opcode_tree (o : Opcode) : tree :=
  let f := nth (N.to_nat (spec_family o)) family_names (EmptyString, []) in
  Call (fst f) [Word (nth (N.to_nat (spec_sub o)) (snd f) EmptyString)].

Definition operand_tree (s : Operand) : tree :=
  let mode := Word (nth (N.to_nat (spec_operand_mode s)) mode_names EmptyString) in
  match s with
  | RegOnly => Word "RegOnly"
  | RegOrImm _ => Call "RegOrImm" [mode]
  | Full _ => Call "Full" [mode]
  end.

Definition variant_tree (x : OpcodeVariant) : tree :=
  Rec "OpcodeVariant"
    [ ("opcode", opcode_tree (opcode x));
      ("src0_operand_type", operand_tree (src0_operand_type x));
      ("dst0_operand_type", operand_tree (dst0_operand_type x));
      ("flags", Seq [bool_tree (fst (flags x)); bool_tree (snd (flags x))]) ]%string.

Definition condition_tree (c : Condition) : tree :=
  Word (nth (N.to_nat (spec_cond_number c)) condition_names EmptyString).

Definition instruction_tree (d : DecodedOpcode) : tree :=
  Rec "DecodedOpcode"
    [ ("variant", variant_tree (variant d)); ("condition", condition_tree (condition d));
      ("src0_reg_idx", Number (src0_reg_idx d)); ("src1_reg_idx", Number (src1_reg_idx d));
      ("dst0_reg_idx", Number (dst0_reg_idx d)); ("dst1_reg_idx", Number (dst1_reg_idx d));
      ("imm_0", Number (imm_0 d)); ("imm_1", Number (imm_1 d)) ]%string.

Definition index_tree (x : VariantMonotonicNumber) : tree :=
  Call "VariantMonotonicNumber" [Number (monotonic_number x)].
Definition version_tree (v : ISAVersion) : tree := Call "ISAVersion" [Number v].
Definition variant_data_tree (x : OpcodeVariantData) : tree :=
  Rec "OpcodeVariantData"
    [ ("variant_idx", Number (variant_idx x));
      ("num_non_exclusive_flags", Number (num_non_exclusive_flags x));
      ("num_used_immediates", Number (num_used_immediates x)) ]%string.

Definition pointer_tree (p : FatPointer) : tree :=
  Rec "FatPointer"
    [ ("offset", Number (fp_offset p)); ("memory_page", Number (fp_memory_page p));
      ("start", Number (fp_start p)); ("length", Number (fp_length p)) ]%string.

Definition page_names : list string := [ "UseHeap"; "ForwardFatPointer"; "UseAuxHeap" ]%string.
Definition far_page_tree (x : FarCallForwardPageType) : tree :=
  Word (nth (match x with FarCall_UseHeap => 0 | FarCall_ForwardFatPointer => 1
             | FarCall_UseAuxHeap => 2 end)%nat page_names EmptyString).
Definition ret_page_tree (x : RetForwardPageType) : tree :=
  Word (nth (match x with Ret_UseHeap => 0 | Ret_ForwardFatPointer => 1
             | Ret_UseAuxHeap => 2 end)%nat page_names EmptyString).

Definition far_call_tree (a : FarCallABI) : tree :=
  Rec "FarCallABI"
    [ ("memory_quasi_fat_pointer", pointer_tree (fc_memory_quasi_fat_pointer a));
      ("ergs_passed", Number (fc_ergs_passed a)); ("shard_id", Number (fc_shard_id a));
      ("forwarding_mode", far_page_tree (fc_forwarding_mode a));
      ("constructor_call", bool_tree (fc_constructor_call a));
      ("to_system", bool_tree (fc_to_system a)) ]%string.
Definition ret_tree (a : RetABI) : tree :=
  Rec "RetABI"
    [ ("memory_quasi_fat_pointer", pointer_tree (ret_memory_quasi_fat_pointer a));
      ("page_forwarding_mode", ret_page_tree (ret_page_forwarding_mode a)) ]%string.
Definition near_call_tree (a : NearCallABI) : tree :=
  Rec "NearCallABI" [ ("ergs_passed", Number (nc_ergs_passed a)) ]%string.
Definition precompile_tree (a : PrecompileCallABI) : tree :=
  Rec "PrecompileCallABI"
    [ ("input_memory_offset", Number (pc_input_memory_offset a));
      ("input_memory_length", Number (pc_input_memory_length a));
      ("output_memory_offset", Number (pc_output_memory_offset a));
      ("output_memory_length", Number (pc_output_memory_length a));
      ("per_precompile_interpreted", Number (pc_per_precompile_interpreted a)) ]%string.
Definition precompile_inner_tree (a : PrecompileCallInnerABI) : tree :=
  Rec "PrecompileCallInnerABI"
    [ ("input_memory_offset", Number (pi_input_memory_offset a));
      ("input_memory_length", Number (pi_input_memory_length a));
      ("output_memory_offset", Number (pi_output_memory_offset a));
      ("output_memory_length", Number (pi_output_memory_length a));
      ("memory_page_to_read", Number (pi_memory_page_to_read a));
      ("memory_page_to_write", Number (pi_memory_page_to_write a));
      ("precompile_interpreted_data", Number (pi_precompile_interpreted_data a)) ]%string.
Definition meta_tree (a : VmMetaParameters) : tree :=
  Rec "VmMetaParameters"
    [ ("ergs_per_pubdata_byte", Number (ergs_per_pubdata_byte a));
      ("heap_size", Number (heap_size a)); ("aux_heap_size", Number (aux_heap_size a));
      ("this_shard_id", Number (this_shard_id a)); ("caller_shard_id", Number (caller_shard_id a));
      ("code_shard_id", Number (code_shard_id a)) ]%string.
Definition storage_tree (s : ContractCodeSha256Storage) : tree :=
  Rec "ContractCodeSha256Storage"
    [ ("code_length_in_words", Number (code_length_in_words s));
      ("extra_marker", Number (extra_marker s));
      ("partial_hash", Seq (map Number (partial_hash s))) ]%string.
Definition hash_tree (h : VersionedHashGeneric ContractCodeSha256Storage) : tree :=
  Rec "VersionedHashGeneric" [ ("data", storage_tree (data h)) ]%string.

(** A formatter writes a tree: on one line as [{:?}], over several as [{:#?}]. *)
Definition writes (f : bool -> string) (t : tree) : Prop := forall multi, f multi = layout multi 0 t.

(** Texts of a formatter tell the values apart. *)
Definition telling {A} (f : A -> bool -> string) : Prop :=
  forall multi x y, f x multi = f y multi -> x = y.

(** No line break in a text. *)
Fixpoint one_line (s : string) : Prop :=
  match s with EmptyString => True | String c r => c <> ascii_of_N 10 /\ one_line r end.
