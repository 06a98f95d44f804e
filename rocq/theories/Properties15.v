(** * Properties15: builds with and without asserts (C92). *)
From Verif Require Import Base Float Lexer Operand Catalogue Table Parse Assemble Spec SpecOperand SpecInsn SpecSafe Safe SpecProgram Language SpecAsserts Asserts.
From Coq Require Import Lia.
Local Open Scope string_scope.
Local Open Scope list_scope.
Open Scope Z_scope.

(** C92: on a text that keeps the seven rules of SpecAsserts.v no assert fails, so
    that both builds do the same. *)
Theorem c92_silent : forall code, assert_free code -> forall a why, assemble a code <> Abort why.
Proof. exact free_silent. Qed.
Print Assumptions c92_silent.
Theorem c92_agree : forall code, assert_free code -> assemble true code = assemble false code.
Proof. exact free_builds_agree. Qed.
Print Assumptions c92_agree.
(** Each rule is necessary: for every one there is a text that keeps the others,
    is stopped by an assert in a debug build and is accepted by a release build. *)
Theorem c92_needed : forall i r, nth_error assert_rules i = Some r -> exists code w why,
  (forall j r', nth_error assert_rules j = Some r' -> j <> i -> r' code) /\
  assemble true code = Abort why /\ assemble false code = Ok w.
Proof. exact assert_rules_needed. Qed.
Print Assumptions c92_needed.
(** Together with the rules of SpecSafe.v: either build accepts exactly the programs
    of the language, and otherwise reports an error. *)
Theorem c92_language : forall a code w, assert_free code -> tame code -> Z.of_nat (List.length code) <= 2 ^ 57 ->
  (assemble a code = Ok w <-> means code w).
Proof. exact free_language. Qed.
Print Assumptions c92_language.
Theorem c92_total : forall a code, assert_free code -> tame code -> Z.of_nat (List.length code) <= 2 ^ 57 ->
  (exists w, assemble a code = Ok w) \/ (exists d, assemble a code = Fatal d).
Proof. exact free_total. Qed.
Print Assumptions c92_total.
Definition close_calls : text := lit "main: IADD.PO R0, R1, R2;
IADD R0, -R1, R2;
IADD3 R0, R1, 0xfffff, R3;
SUST.D.2D.32 [R1], R2, R3;
SUST.P.2D.BA [R1], R2, R3;
VMAD R0, -R1.B1, R2, -R3;
VSETP.GE.OR P0, PT, R1, R2, PT;
@P0 BRA main;
EXIT;
".
Example c92_ex : assert_free close_calls /\ tame close_calls /\ Z.of_nat (List.length close_calls) <= 2 ^ 57 /\
  exists w, assemble true close_calls = Ok w /\ List.length w = 12%nat.
Proof.
  split; [apply free_decided; vm_compute; reflexivity|]. split; [apply tame_decided; vm_compute; reflexivity|]. split; [vm_compute; discriminate|].
  eexists. split; vm_compute; reflexivity.
Qed.
