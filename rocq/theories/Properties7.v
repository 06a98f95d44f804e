(** * Properties7: composition and undefined behaviour. *)
From Verif Require Import Base Float Lexer Operand Catalogue Table Parse Assemble Spec SpecInsn SpecLex
  LexFacts Decode Program Emit Layout Lexemes Stream Cut Text Compose Demo SpecSafe Safe.
From Coq Require Import Lia.
Local Open Scope string_scope.
Local Open Scope list_scope.
Open Scope Z_scope.

(** C38: a program after another one.  A branch to a number is relative to the
    address of the branch: the full statement is false. *)
Theorem c38_refuted : exists p q w1 w2 w,
  ~ In NUL (p ++ q) /\ ~ In ":"%char (p ++ q) /\ plain (start p) /\ plain (start q) /\
  assemble true p = Ok w1 /\ assemble true q = Ok w2 /\ assemble true (p ++ q) = Ok w /\
  List.length w1 = 4%nat /\ List.length w2 = 4%nat /\ List.length w = 4%nat /\
  nth 1 w 0%N = nth 1 w1 0%N /\ nth 2 w 0%N <> nth 1 w2 0%N.
Proof.
  exists (lit "EXIT;"), (lit "BRA 0x10;"). eexists _, _, _.
  split; [intros H; cbn in H; repeat (destruct H as [H|H]; [discriminate|]); contradiction|].
  split; [intros H; cbn in H; repeat (destruct H as [H|H]; [discriminate|]); contradiction|].
  split; [eapply (plain_decided 10); vm_compute; reflexivity|].
  split; [eapply (plain_decided 10); vm_compute; reflexivity|].
  split; [vm_compute; reflexivity|]. split; [vm_compute; reflexivity|]. split; [vm_compute; reflexivity|].
  split; [reflexivity|]. split; [reflexivity|]. split; [reflexivity|]. split; [reflexivity|]. discriminate.
Qed.
Print Assumptions c38_refuted.
(** It may even be out of range then. *)
Theorem c38_range_refuted : exists p q w1 w2 d,
  assemble true p = Ok w1 /\ assemble true q = Ok w2 /\ assemble true (p ++ q) = Fatal d /\
  d_msg d = "label out of range".
Proof.
  exists (lit "EXIT;"), (lit "SSY -0x7FFFF0;"). eexists _, _, _.
  split; [vm_compute; reflexivity|]. split; [vm_compute; reflexivity|]. split; vm_compute; reflexivity.
Qed.
Print Assumptions c38_range_refuted.
(** Without such instructions in the second program, the instructions of the
    two programs follow each other unchanged. *)
Theorem c38_partial : forall a p q ls1 l1 y1 ls2 l2 y2,
  ~ In NUL (p ++ q) -> ~ In ":"%char (p ++ q) -> plain (start p) -> plain (start q) -> straight (start q) ->
  program a p ls1 l1 y1 -> program a q ls2 l2 y2 ->
  exists ls l y, program a (p ++ q) ls l y /\ map snd l = map snd l1 ++ map snd l2 /\ c_opts y = options0.
Proof. exact compose_program. Qed.
Print Assumptions c38_partial.
Theorem c38_words_partial : forall a p q ls1 l1 y1 ls2 l2 y2,
  ~ In NUL (p ++ q) -> ~ In ":"%char (p ++ q) -> plain (start p) -> plain (start q) -> straight (start q) ->
  program a p ls1 l1 y1 -> program a q ls2 l2 y2 ->
  let ops1 := map snd l1 in let ops2 := map snd l2 in
  assemble a p = Ok (layout (recs ops1) (words ops1)) /\ assemble a q = Ok (layout (recs ops2) (words ops2)) /\
  assemble a (p ++ q) = Ok (layout (recs ops1 ++ recs ops2) (words ops1 ++ words ops2)).
Proof. exact compose_words. Qed.
Print Assumptions c38_words_partial.
Example c38_partial_ex : exists ls1 l1 y1 ls2 l2 y2, let p := lit "MOV R0, R1 @WAIT 3; BRA.U 0x20; EXIT; " in let q := lit "  IADD3.X R2, R3, R4, R5; NOP;" in
  ~ In NUL (p ++ q) /\ ~ In ":"%char (p ++ q) /\ plain (start p) /\ plain (start q) /\ straight (start q) /\
  program true p ls1 l1 y1 /\ program true q ls2 l2 y2 /\ List.length l1 = 3%nat /\ List.length l2 = 2%nat.
Proof.
  cbv zeta.
  assert (X : exists w, assemble true (lit "MOV R0, R1 @WAIT 3; BRA.U 0x20; EXIT; ") = Ok w) by (eexists; vm_compute; reflexivity).
  destruct X as (? & X). apply assemble_ok in X as (ls1 & l1 & y1 & P1 & _).
  assert (X : exists w, assemble true (lit "  IADD3.X R2, R3, R4, R5; NOP;") = Ok w) by (eexists; vm_compute; reflexivity).
  destruct X as (? & X). apply assemble_ok in X as (ls2 & l2 & y2 & P2 & _).
  exists ls1, l1, y1, ls2, l2, y2.
  split; [intros H; cbn in H; repeat (destruct H as [H|H]; [discriminate|]); contradiction|].
  split; [intros H; cbn in H; repeat (destruct H as [H|H]; [discriminate|]); contradiction|].
  split; [eapply (plain_decided 30); vm_compute; reflexivity|].
  split; [eapply (plain_decided 30); vm_compute; reflexivity|].
  split; [eapply (straight_decided 30); vm_compute; reflexivity|].
  split; [exact P1|]. split; [exact P2|].
  destruct P1 as (_ & _ & N1), P2 as (_ & _ & N2). rewrite (N1 eq_refl), (N2 eq_refl). split; reflexivity.
Qed.

(** C37: a text that keeps the rules of SpecSafe.v never runs into undefined
    behaviour, in either build mode. *)
Theorem c37_defined : forall code, ~ In NUL code -> tame code -> Z.of_nat (List.length code) <= 2 ^ 57 ->
  forall a u, assemble a code <> Undef u.
Proof. exact tame_assembles. Qed.
Print Assumptions c37_defined.
(** Each rule is necessary: for every one there is a text that keeps all the
    others and has undefined behaviour. *)
Theorem c37_needed : forall i r, nth_error rules i = Some r -> exists code,
  ~ In NUL code /\ (List.length code <= 100)%nat /\
  (forall j r', nth_error rules j = Some r' -> j <> i -> r' code) /\
  forall a, exists u, assemble a code = Undef u.
Proof. exact rules_needed. Qed.
Print Assumptions c37_needed.
Example c37_ex : exists w, let code := lit (".dksh compute" ++ newline ++ ".local_memory 64" ++ newline ++ "main:" ++ newline ++
    "S2R R0, SR_TID.X @WAIT 2 @WB 0; LDG.E.CG.U.128 R4, [R2 -16] @DEP 0; TEX PT, R0, R1, R2, 5, ARRAY_2D, 15; " ++ newline ++
    "again: TEX.B PT, R0, R1, R2, 0, CUBE, 1; @P0 BRA again; BRA -64; EXIT; ") in
  ~ In NUL code /\ tame code /\ Z.of_nat (List.length code) <= 2 ^ 57 /\ assemble true code = Ok w /\ (36 < List.length w)%nat.
Proof.
  eexists. cbv zeta.
  split; [intros H; cbn in H; repeat (destruct H as [H|H]; [discriminate|]); contradiction|].
  split; [apply tame_decided; vm_compute; reflexivity|].
  split; [vm_compute; discriminate|]. split; [vm_compute; reflexivity|]. vm_compute. lia.
Qed.
