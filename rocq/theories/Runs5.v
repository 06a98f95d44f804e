(** * Runs5: operands run from their text, part 5

    For each pair below: the function of src/operand.h named on the left, run from its text, does the same as the
    operand of the model on the right. *)

From Coq Require Import Lia ZifyBool ZifyN.
From Verif Require Import Base Float Lexer LexFacts Operand Operands Reach Outcomes Cxx Exec Functions Runs.
Local Open Scope string_scope.
Local Open Scope list_scope.
Open Scope Z_scope.

(** Uses of operand functions in src/table.h with the operand of the model for each. *)
Definition pairs_5 : list (targ * opnd) :=
  [(ARef "ald::imm_attr" None, OImmAttr);
   (ARef "ald::patch_attr" None, OPatchAttr);
   (ARef "ald::phys_attr" None, OPhysAttr);
   (ARef "cbuf" None, OCbuf);
   (ARef "abs" (Some [ANum 49; ARef "cbuf" None]), OAbs 49 OCbuf)].

Lemma pairs_5_run : Forall operand_runs pairs_5.
Proof.
  unfold pairs_5. repeat (apply Forall_cons; [solve [runs]| ]). apply Forall_nil.
Qed.
