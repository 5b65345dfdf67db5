(** * Specification of what an amount of ergs buys.  Definitions only. *)

From Coq Require Import NArith List Bool.
From Verif Require Import Machine Constants Opcodes AllOpcodes SpecPricing.
Import ListNotations.
Open Scope N_scope.

(** The cycles can follow each other, starting with [d] frames: calls open a frame, returns and
    panics ([None]) close one, every cycle needs one, and the invalid instruction is a panic. *)
Fixpoint nested (d : nat) (l : list (option Opcode)) : Prop :=
  match l with
  | [] => True
  | o :: l =>
      match d with
      | O => False
      | S d' =>
          match o with
          | None => nested d' l
          | Some (Op_Ret _) => nested d' l
          | Some (Op_NearCall _) | Some (Op_FarCall _) => nested (S d) l
          | Some (Op_Invalid _) => False
          | Some _ => nested d l
          end
      end
  end.

(** The sum of the prices; a panic is free. *)
Definition total_at (price : Opcode -> N) (l : list (option Opcode)) : N :=
  fold_right (fun o n => match o with Some o => price o + n | None => n end) 0 l.

(** The same with the prices of the crate. *)
Definition total_price (l : list (option Opcode)) : N :=
  fold_right (fun o n => match o with Some o => Opcode_ergs_price o + n | None => n end) 0 l.

(** The number of near calls. *)
Definition near_calls (l : list (option Opcode)) : N :=
  fold_right (fun o n => match o with Some (Op_NearCall _) => 1 + n | _ => n end) 0 l.

(** The number of times [o] is executed. *)
Definition times (o : Opcode) (l : list (option Opcode)) : N :=
  fold_right (fun x n => match x with Some x => if Opcode_beq x o then 1 + n else n | None => n end) 0 l.
