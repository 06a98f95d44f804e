(** * Runs3: operands run from their text, part 3

    For each pair below: the function of src/operand.h named on the left, run from its text, does the same as the
    operand of the model on the right. *)

From Coq Require Import Lia ZifyBool ZifyN.
From Verif Require Import Base Float Lexer LexFacts Operand Operands Reach Outcomes Cxx Exec Functions Runs.
Local Open Scope string_scope.
Local Open Scope list_scope.
Open Scope Z_scope.

(** Uses of operand functions in src/table.h with the operand of the model for each. *)
Definition pairs_3 : list (targ * opnd) :=
  [(ARef "memory::address" (Some [ATruth true; ANum 28; ANum 20; ANum 0]), OMemAddress true 28 20 0);
   (ARef "memory::address" (Some [ATruth true; ANum 30; ANum 22; ANum 2]), OMemAddress true 30 22 2);
   (ARef "ldc::address" None, OLdcAddress)].

Lemma pairs_3_run : Forall operand_runs pairs_3.
Proof.
  unfold pairs_3. repeat (apply Forall_cons; [solve [runs]| ]). apply Forall_nil.
Qed.
