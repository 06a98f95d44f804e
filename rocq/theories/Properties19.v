(** * Properties19: programs without labels (C100). *)
From Verif Require Import Base Lexer Operand Catalogue Table Parse Assemble Spec SpecOperand SpecInsn SpecLex SpecOpts SpecProgram SpecEdit SpecLink SpecSafe SpecAsserts Safe Asserts SpecTidy SpecSheet Sheet.
Local Open Scope char_scope.
Local Open Scope list_scope.
Open Scope Z_scope.

(** C100: every program can be written with one statement per line and without labels,
    apart from the [main] of a container. *)
Theorem c100_sheet : forall a code w, ~ In NUL code -> tame code -> Z.of_nat (List.length code) <= 2 ^ 49 -> assemble a code = Ok w ->
  (occurs code [id ".dksh"] -> ends_read code) ->
  exists s, Forall (fun x => one_statement (snd x)) s /\ (List.length (filter fst s) <= 1)%nat /\
    (forall name, defined (sheet_text s) name -> name = lit "main" /\ occurs code [id ".dksh"]) /\
    assemble false (sheet_text s) = Ok w /\ (assert_free code -> assemble true (sheet_text s) = Ok w).
Proof. exact sheet_exists. Qed.
Print Assumptions c100_sheet.
(** A program with labels, and one without. *)
Definition with_labels : text := lit ".dksh compute
start: @P0 BRA end; MOV R0, R1; x: NOP;
main: IADD R0, R0, 0x1; BRA start;
end:
EXIT;
".
Definition without_labels : text := lit " .dksh compute
 @ P0 BRA 56 ;
 MOV R0 , R1 ;
 NOP ;
main:
 IADD R0 , R0 , 1 ;
 BRA 8 ;
 EXIT ;
".
Definition its_lines : sheet :=
  [(false, [id ".dksh"; id "compute"]);
   (false, [TAt; TPred 0 false; id "BRA"; TImm 56; TSemi]);
   (false, [id "MOV"; TReg 0; TComma; TReg 1; TSemi]);
   (false, [id "NOP"; TSemi]);
   (true, []);
   (false, [id "IADD"; TReg 0; TComma; TReg 0; TComma; TImm 1; TSemi]);
   (false, [id "BRA"; TImm 8; TSemi]);
   (false, [id "EXIT"; TSemi])].
Example c100_ex : ~ In NUL with_labels /\ tame with_labels /\ Z.of_nat (List.length with_labels) <= 2 ^ 49 /\ assert_free with_labels /\ ends_read with_labels /\
  sheet_text its_lines = without_labels /\ exists w, assemble true with_labels = Ok w /\ assemble true (sheet_text its_lines) = Ok w.
Proof.
  assert (N : ~ In NUL with_labels) by (apply no_nul_decided; vm_compute; reflexivity). split; [exact N|]. split; [apply tame_decided; vm_compute; reflexivity|].
  split; [vm_compute; discriminate|]. assert (F : assert_free with_labels) by (apply free_decided; vm_compute; reflexivity). split; [exact F|]. split; [apply (F ends_read); cbn; tauto|].
  split; [vm_compute; reflexivity|]. eexists. split; vm_compute; reflexivity.
Qed.
