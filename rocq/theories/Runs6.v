(** * Runs6: operands run from their text, part 6

    For each pair below: the function of src/operand.h named on the left, run from its text, does the same as the
    operand of the model on the right. *)

From Coq Require Import Lia ZifyBool ZifyN.
From Verif Require Import Base Float Lexer LexFacts Operand Operands Reach Outcomes Cxx Exec Functions Runs.
Local Open Scope string_scope.
Local Open Scope list_scope.
Open Scope Z_scope.

(** Uses of operand functions in src/table.h with the operand of the model for each. *)
Definition pairs_6 : list (targ * opnd) :=
  [(ARef "abs" (Some [ANum 44; ARef "cbuf" None]), OAbs 44 OCbuf);
   (ARef "abs" (Some [ANum 54; ARef "cbuf" None]), OAbs 54 OCbuf)].

Lemma pairs_6_run : Forall operand_runs pairs_6.
Proof.
  unfold pairs_6. repeat (apply Forall_cons; [solve [runs]| ]). apply Forall_nil.
Qed.
