(** * Properties9: the language of the assembler. *)
From Verif Require Import Base Float Lexer Operand Catalogue Table Parse Assemble Spec SpecOperand SpecInsn SpecLex SpecOpts SpecContainer
  SpecSafe SpecProgram Safe Language.
From Coq Require Import Lia.
Local Open Scope string_scope.
Local Open Scope list_scope.
Open Scope Z_scope.

(** A program with options, labels, a guard, annotations and a container. *)
Definition sample : text := lit (".dksh compute
.workgroup_size 8 4 1
.local_memory 0x20
main:
  MOV32I R0, 0x1234 @WAIT 3;
  IADD R1, R0, -5;
  ISETP.EQ.U32.AND P0, PT, R1, RZ, PT @Y;
again:
  LDG.E.64 R2, [R4+0x10] @WB 0;
  FFMA R2, R2.reuse, c[0x1][0x8], R3 @DEP 0;
  @!P0 BRA again;
  EXIT;
")%string.

(** C52: the assembler accepts exactly the programs and writes exactly their files. *)
Theorem c52_language : forall code w, ~ In NUL code -> tame code -> Z.of_nat (List.length code) <= 2 ^ 57 ->
  (assemble false code = Ok w <-> means code w).
Proof. exact accepted_iff. Qed.
Print Assumptions c52_language.
Theorem c52_rejected : forall code, ~ In NUL code -> tame code -> Z.of_nat (List.length code) <= 2 ^ 57 ->
  ((exists d, assemble false code = Fatal d) <-> forall w, ~ means code w).
Proof. exact rejected_iff. Qed.
Print Assumptions c52_rejected.
Theorem c52_sound : forall a code w, ~ In NUL code -> assemble a code = Ok w -> means code w.
Proof. exact accepted_means. Qed.
Print Assumptions c52_sound.
Theorem c52_debug : forall code w, ~ In NUL code -> tame code -> Z.of_nat (List.length code) <= 2 ^ 57 ->
  means code w -> assemble true code = Ok w \/ exists m, assemble true code = Abort m.
Proof. exact accepted_debug. Qed.
Print Assumptions c52_debug.
Lemma no_nul_b : forall l, existsb (Ascii.eqb NUL) l = false -> ~ In NUL l.
Proof. intros l E I. enough (existsb (Ascii.eqb NUL) l = true) by congruence. apply existsb_exists. exists NUL. auto. Qed.
Example c52_language_ex : ~ In NUL sample /\ tame sample /\ Z.of_nat (List.length sample) <= 2 ^ 57 /\
  exists w, means sample w /\ List.length w = 64%nat /\ firstn 4 (skipn 32 w) =
    [0x1fc000fc0007e3; 0x10000012347f000; 0x3910007fffb70001; 0x5b6403800ff70107]%N.
Proof.
  assert (NN : ~ In NUL sample) by (apply no_nul_b; vm_compute; reflexivity).
  assert (T : tame sample) by (apply tame_decided; vm_compute; reflexivity).
  split; [exact NN|]. split; [exact T|]. split; [vm_compute; discriminate|].
  eexists. split; [apply (c52_sound false); [exact NN|vm_compute; reflexivity]|]. split; vm_compute; reflexivity.
Qed.
Example c52_rejected_ex : let code := lit "IADD R0, P1, R2;" in ~ In NUL code /\ tame code /\ Z.of_nat (List.length code) <= 2 ^ 57 /\ forall w, ~ means code w.
Proof.
  intros code. assert (NN : ~ In NUL code) by (apply no_nul_b; vm_compute; reflexivity).
  assert (T : tame code) by (apply tame_decided; vm_compute; reflexivity).
  assert (L : Z.of_nat (List.length code) <= 2 ^ 57) by (vm_compute; discriminate).
  split; [exact NN|]. split; [exact T|]. split; [exact L|]. apply (c52_rejected code NN T L). vm_compute. eexists. reflexivity.
Qed.
