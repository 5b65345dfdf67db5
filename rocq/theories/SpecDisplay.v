(** * Specification of the printed form of instructions.  Definitions only. *)

From Coq Require Import NArith List Bool String Ascii.
From Verif Require Import Machine Operands Opcodes AllOpcodes Tables Decoding SpecIsa SpecCodec SpecFamilies
  SpecPricing.
Import ListNotations.
Open Scope N_scope.

(** Names of the families by family number, each with the names of its members. *)
Definition family_names : list (string * list string) :=
  [ ("Invalid", ["InvalidOpcode"]); ("Nop", ["NopOpcode"]); ("Add", ["Add"]); ("Sub", ["Sub"]);
    ("Mul", ["MulOpcode"]); ("Div", ["DivOpcode"]); ("Jump", ["JumpOpcode"]);
    ("Context", ["This"; "Caller"; "CodeAddress"; "Meta"; "ErgsLeft"; "Sp"; "GetContextU128";
                 "SetContextU128"; "SetErgsPerPubdataByte"; "IncrementTxNumber"]);
    ("Shift", ["Shl"; "Shr"; "Rol"; "Ror"]); ("Binop", ["Xor"; "And"; "Or"]);
    ("Ptr", ["Add"; "Sub"; "Pack"; "Shrink"]); ("NearCall", ["NearCallOpcode"]);
    ("Log", ["StorageRead"; "StorageWrite"; "ToL1Message"; "Event"; "PrecompileCall"]);
    ("FarCall", ["Normal"; "Delegate"; "Mimic"]); ("Ret", ["Ok"; "Revert"; "Panic"]);
    ("UMA", ["HeapRead"; "HeapWrite"; "AuxHeapRead"; "AuxHeapWrite"; "FatPointerRead"]) ]%string.

Definition opcode_text (o : Opcode) : string :=
  let f := nth (N.to_nat (spec_family o)) family_names (EmptyString, []) in
  (fst f ++ "(" ++ nth (N.to_nat (spec_sub o)) (snd f) EmptyString ++ ")")%string.

(** Names of the addressing modes by mode number. *)
Definition mode_names : list string :=
  [ "UseRegOnly"; "UseStackWithPushPop"; "UseStackWithOffset"; "UseAbsoluteOnStack";
    "UseImm16Only"; "UseCodePage" ]%string.
Definition operand_text (s : Operand) : string :=
  match s with
  | RegOnly => "RegOnly"
  | RegOrImm r => "RegOrImm(" ++ nth (N.to_nat (spec_operand_mode s)) mode_names EmptyString ++ ")"
  | Full f => "Full(" ++ nth (N.to_nat (spec_operand_mode s)) mode_names EmptyString ++ ")"
  end%string.

Definition bool_text (b : bool) : string := if b then "true"%string else "false"%string.

(** Names of the conditions by number. *)
Definition condition_names : list string :=
  [ "Always"; "Gt"; "Lt"; "Eq"; "Ge"; "Le"; "Ne"; "GtOrLt" ]%string.

Definition variant_text (x : OpcodeVariant) : string :=
  (line ("Opcode and variant: " ++ opcode_text (opcode x))
   ++ line ("Src0 operand type: " ++ operand_text (src0_operand_type x))
   ++ line ("Dst0 operand type: " ++ operand_text (dst0_operand_type x))
   ++ "Non-exclusive flags: " ++ bool_text (fst (flags x)) ++ "|" ++ bool_text (snd (flags x)))%string.

(** Reading a numeral: digits 0-9 and a-f. *)
Definition digit_value (c : ascii) : option N :=
  let n := N_of_ascii c in
  if (48 <=? n) && (n <=? 57) then Some (n - 48)
  else if (97 <=? n) && (n <=? 102) then Some (n - 87)
  else None.
Fixpoint numeral (base acc : N) (s : string) : option N :=
  match s with
  | EmptyString => Some acc
  | String c r =>
      match digit_value c with
      | Some d => if d <? base then numeral base (acc * base + d) r else None
      | None => None
      end
  end.
Definition starts_with_zero (s : string) : bool :=
  match s with String "0" _ => true | _ => false end.

(** [s] is the decimal numeral of [n]: no superfluous zeros. *)
Definition decimal_text (n : N) (s : string) : Prop :=
  numeral 10 0 s = Some n /\ s <> EmptyString /\
  (starts_with_zero s = true -> s = "0"%string).
(** [s] is the hexadecimal numeral of [n] with at least [w] digits. *)
Definition hex_text (w : nat) (n : N) (s : string) : Prop :=
  numeral 16 0 s = Some n /\ (w <= String.length s)%nat /\
  (starts_with_zero s = true -> String.length s = w).

(** A printed instruction, with its four register and two immediate numerals. *)
Definition instruction_text (d : DecodedOpcode) (r0 r1 r2 r3 h0 h1 : string) : string :=
  (line (variant_text (variant d))
   ++ line ("Condition: " ++ nth (N.to_nat (spec_cond_number (condition d)))
              condition_names EmptyString)
   ++ line ("Register selections: src0 = r" ++ r0 ++ ", src1 = r" ++ r1 ++ ", dst0 = r" ++ r2
            ++ ", dst1 = r" ++ r3)
   ++ line ("IMM0 constant: 0x" ++ h0)
   ++ "IMM1 constant: 0x" ++ h1)%string.

(** Field types, in the wider mode. *)
Definition printable (d : DecodedOpcode) : Prop :=
  src0_reg_idx d < 2 ^ 8 /\ src1_reg_idx d < 2 ^ 8 /\ dst0_reg_idx d < 2 ^ 8 /\
  dst1_reg_idx d < 2 ^ 8 /\ imm_0 d < 2 ^ 32 /\ imm_1 d < 2 ^ 32.
