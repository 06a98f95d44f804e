(** * Runs4: operands run from their text, part 4

    For each pair below: the function of src/operand.h named on the left, run from its text, does the same as the
    operand of the model on the right. *)

From Coq Require Import Lia ZifyBool ZifyN.
From Verif Require Import Base Float Lexer LexFacts Operand Operands Reach Outcomes Cxx Exec Functions Runs.
Local Open Scope string_scope.
Local Open Scope list_scope.
Open Scope Z_scope.

(** Uses of operand functions in src/table.h with the operand of the model for each. *)
Definition pairs_4 : list (targ * opnd) :=
  [(ARef "memory::address" (Some [ATruth false]), OMemAddress false 20 24 0);
   (ARef "memory::address" None, OMemAddress true 20 24 0);
   (ARef "memory::address" (Some [ATruth true; ANum 20; ANum 20]), OMemAddress true 20 20 0)].

Lemma pairs_4_run : Forall operand_runs pairs_4.
Proof.
  unfold pairs_4. repeat (apply Forall_cons; [solve [runs]| ]). apply Forall_nil.
Qed.
