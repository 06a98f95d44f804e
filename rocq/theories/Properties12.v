(** * Properties12: writing one instruction of a program differently. *)
From Verif Require Import Base Float Lexer Operand Catalogue Table Parse Assemble Spec SpecOperand SpecInsn SpecLex SpecOpts SpecContainer
  SpecSafe SpecProgram SpecLink LexFacts Decode Program Layout Stream Lexemes Text Compose Safe Language Link SpecEdit Edit.
From Coq Require Import Lia Permutation.
Local Open Scope string_scope.
Local Open Scope list_scope.
Open Scope Z_scope.

Lemma no_nul : forall l, existsb (Ascii.eqb NUL) l = false -> ~ In NUL l.
Proof. intros l E I. enough (existsb (Ascii.eqb NUL) l = true) by congruence. apply existsb_exists. exists NUL. auto. Qed.

(** The tokens between two ';' of an accepted program, without an option, are an instruction of it. *)
Theorem c74_found : forall a code w n before us after, ~ In NUL code -> assemble a code = Ok w ->
  lexes code 0 (before ++ us ++ after) -> statement n before us -> instruction_at code w n before us after.
Proof. exact statement_instruction. Qed.
Print Assumptions c74_found.
(** C74: another guard changes four bits of one word. *)
Theorem c74_guard : forall code code' w n before us us' after kg m kf gi gn kg' gi' gn',
  instruction_at code w n before us after -> rewritten code code' before us us' after ->
  ~ In NUL code' -> tame code' -> Z.of_nat (List.length code') <= 2 ^ 57 ->
  map fst us = kg ++ id m :: kf -> guard_tokens gi gn kg -> map fst us' = kg' ++ id m :: kf -> guard_tokens gi' gn' kg' ->
  (always_executed m -> gi' = 7%N) ->
  exists w', assemble false code' = Ok w' /\ changed_at (word_at n) (with_guard (guard_field gi' gn')) w w'.
Proof. exact guard_edit. Qed.
Print Assumptions c74_guard.
(** C75: other annotations change one record of one control word. *)
Theorem c75_notes : forall code code' w n before us us' after kg m ko kn notes gi gn kn' notes',
  instruction_at code w n before us after -> rewritten code code' before us us' after ->
  ~ In NUL code' -> tame code' -> Z.of_nat (List.length code') <= 2 ^ 57 ->
  guard_tokens gi gn kg -> ~ In TAt ko -> notes_tokens notes kn -> notes_tokens notes' kn' -> notes_ok notes' ->
  map fst us = kg ++ id m :: ko ++ kn ++ [TSemi] -> map fst us' = kg ++ id m :: ko ++ kn' ++ [TSemi] ->
  exists w', assemble false code' = Ok w' /\
    changed_at (control_at n) (with_record (n mod 3) (notes_record notes) (notes_record notes')) w w'.
Proof. exact note_edit. Qed.
Print Assumptions c75_notes.
(** C76: the order of annotations does not matter. *)
Theorem c76_order : forall code code' w n before us us' after kg m ko kn notes gi gn kn' notes',
  instruction_at code w n before us after -> rewritten code code' before us us' after ->
  ~ In NUL code' -> tame code' -> Z.of_nat (List.length code') <= 2 ^ 57 ->
  guard_tokens gi gn kg -> ~ In TAt ko -> notes_tokens notes kn -> notes_tokens notes' kn' -> Permutation notes notes' ->
  map fst us = kg ++ id m :: ko ++ kn ++ [TSemi] -> map fst us' = kg ++ id m :: ko ++ kn' ++ [TSemi] ->
  assemble false code' = Ok w.
Proof. exact note_order. Qed.
Print Assumptions c76_order.
(** C77: a label, its address and another label of that address can be exchanged. *)
Theorem c77_target : forall code code' w n before us us' after kg m gi gn k1 t t' k2 z,
  instruction_at code w n before us after -> rewritten code code' before us us' after ->
  ~ In NUL code' -> tame code' -> Z.of_nat (List.length code') <= 2 ^ 57 ->
  guard_tokens gi gn kg -> In m jumps -> ~ In TAt k1 -> stands_for code t z -> stands_for code t' z ->
  map fst us = kg ++ id m :: k1 ++ t :: k2 -> map fst us' = kg ++ id m :: k1 ++ t' :: k2 ->
  assemble false code' = Ok w.
Proof. exact target_edit. Qed.
Print Assumptions c77_target.

(** The second instruction of a program, written in five ways. *)
Definition program_with (s : string) : text := lit "MOV R0, R1;
top: " ++ lit s ++ lit "
EXIT;
".
Definition ahead : list (tkind * Z) := [(id "MOV", 0); (TReg 0, 0); (TComma, 0); (TReg 1, 0); (TSemi, 0)].
Definition behind : list (tkind * Z) := [(id "EXIT", 2); (TSemi, 2)].
Definition on_line (ks : list tkind) : list (tkind * Z) := map (fun k => (k, 1)) ks.
Definition words_of (s : string) : list N := match assemble false (program_with s) with Ok w => w | _ => [] end.
Definition jump_ops : list tkind := [id ".U"; id "top"].
Definition jump_notes : list tkind := [TAt; id "WAIT"; TImm 3; TAt; id "YIELD"].

Definition orig : string := "@P1 BRA.U top @WAIT 3 @YIELD;".
Definition orig_tokens : list (tkind * Z) := on_line ([TAt; TPred 1 false] ++ id "BRA" :: (jump_ops ++ jump_notes ++ [TSemi])).
Lemma orig_at : instruction_at (program_with orig) (words_of orig) 1 ahead orig_tokens behind.
Proof.
  assert (N : ~ In NUL (program_with orig)) by (apply no_nul; vm_compute; reflexivity).
  eapply (c74_found false); [exact N|vm_compute; reflexivity|apply (all_lined_lexes 50 (Cursor (program_with orig) 0 0)); [exact N|vm_compute; reflexivity]|].
  split; [reflexivity|]. split; [right; exists [(id "MOV", 0); (TReg 0, 0); (TComma, 0); (TReg 1, 0)], 0; reflexivity|].
  split; [intros s l us' E; discriminate|].
  exists (on_line ([TAt; TPred 1 false] ++ id "BRA" :: (jump_ops ++ jump_notes))), 1. split; reflexivity.
Qed.
Ltac edit_ok s := 
  let N := fresh in let M := fresh in assert (N : ~ In NUL (program_with s)) by (apply no_nul; vm_compute; reflexivity);
  assert (M : ~ In NUL (program_with orig)) by (apply no_nul; vm_compute; reflexivity);
  split; [split; [apply (all_lined_lexes 50 (Cursor (program_with s) 0 0)); [exact N|vm_compute; reflexivity]|split; [reflexivity|]];
    eapply same_places_decided; [exact M|exact N|vm_compute; reflexivity|vm_compute; reflexivity|intros name; reflexivity]|];
  split; [exact N|]; split; [apply tame_decided; vm_compute; reflexivity|]; split; [vm_compute; discriminate|].

Example c74_ex : let s := "@!P6 BRA.U top @WAIT 3 @YIELD;"%string in let us' := on_line ([TAt; TPred 6 true] ++ id "BRA" :: (jump_ops ++ jump_notes ++ [TSemi])) in
  instruction_at (program_with orig) (words_of orig) 1 ahead orig_tokens behind /\
  rewritten (program_with orig) (program_with s) ahead orig_tokens us' behind /\
  ~ In NUL (program_with s) /\ tame (program_with s) /\ Z.of_nat (List.length (program_with s)) <= 2 ^ 57 /\
  guard_tokens 1 false [TAt; TPred 1 false] /\ guard_tokens 6 true [TAt; TPred 6 true] /\ ~ always_executed "BRA" /\
  words_of orig <> words_of s.
Proof.
  intros s us'. split; [exact orig_at|]. edit_ok s. split; [right; reflexivity|]. split; [right; reflexivity|]. split; [|vm_compute; discriminate].
  unfold always_executed. cbn. intros A. repeat (destruct A as [A|A]; [discriminate|]). contradiction.
Qed.
Example c75_ex : let s := "@P1 BRA.U top @RB 2 @DEP 4;"%string in
  let us' := on_line ([TAt; TPred 1 false] ++ id "BRA" :: (jump_ops ++ [TAt; id "RB"; TImm 2; TAt; id "DEP"; TImm 4] ++ [TSemi])) in
  instruction_at (program_with orig) (words_of orig) 1 ahead orig_tokens behind /\
  rewritten (program_with orig) (program_with s) ahead orig_tokens us' behind /\
  ~ In NUL (program_with s) /\ tame (program_with s) /\ Z.of_nat (List.length (program_with s)) <= 2 ^ 57 /\
  ~ In TAt jump_ops /\ notes_tokens [Stall 3; Yield] jump_notes /\ notes_tokens [ReadBarrier 2; Wait 4] [TAt; id "RB"; TImm 2; TAt; id "DEP"; TImm 4] /\
  notes_ok [ReadBarrier 2; Wait 4] /\ words_of orig <> words_of s.
Proof.
  intros s us'. split; [exact orig_at|]. edit_ok s. split; [intros [X|[X|[]]]; discriminate|].
  split; [apply (ntok_cons (Stall 3) [Yield] [TAt; id "WAIT"; TImm 3]); [reflexivity|]; apply (ntok_cons Yield [] [TAt; id "YIELD"] []); [cbn; auto|constructor]|].
  split; [apply (ntok_cons (ReadBarrier 2) [Wait 4] [TAt; id "RB"; TImm 2]); [reflexivity|]; apply (ntok_cons (Wait 4) [] [TAt; id "DEP"; TImm 4] []); [reflexivity|constructor]|].
  split; [|vm_compute; discriminate]. repeat constructor; cbn; try lia; auto.
Qed.
Example c76_ex : let s := "@P1 BRA.U top @Y @WAIT 3;"%string in
  let us' := on_line ([TAt; TPred 1 false] ++ id "BRA" :: (jump_ops ++ [TAt; id "Y"; TAt; id "WAIT"; TImm 3] ++ [TSemi])) in
  instruction_at (program_with orig) (words_of orig) 1 ahead orig_tokens behind /\
  rewritten (program_with orig) (program_with s) ahead orig_tokens us' behind /\
  ~ In NUL (program_with s) /\ tame (program_with s) /\ Z.of_nat (List.length (program_with s)) <= 2 ^ 57 /\
  notes_tokens [Yield; Stall 3] [TAt; id "Y"; TAt; id "WAIT"; TImm 3] /\ Permutation [Stall 3; Yield] [Yield; Stall 3] /\
  List.length (words_of orig) = 4%nat.
Proof.
  intros s us'. split; [exact orig_at|]. edit_ok s.
  split; [apply (ntok_cons Yield [Stall 3] [TAt; id "Y"]); [cbn; auto|]; apply (ntok_cons (Stall 3) [] [TAt; id "WAIT"; TImm 3] []); [reflexivity|constructor]|].
  split; [constructor|vm_compute; reflexivity].
Qed.
Example c77_ex : let s := "@P1 BRA.U 16 @WAIT 3 @YIELD;"%string in
  let us' := on_line ([TAt; TPred 1 false] ++ id "BRA" :: ([id ".U"] ++ TImm 16 :: jump_notes ++ [TSemi])) in
  instruction_at (program_with orig) (words_of orig) 1 ahead orig_tokens behind /\
  rewritten (program_with orig) (program_with s) ahead orig_tokens us' behind /\
  ~ In NUL (program_with s) /\ tame (program_with s) /\ Z.of_nat (List.length (program_with s)) <= 2 ^ 57 /\
  In "BRA"%string jumps /\ stands_for (program_with orig) (id "top") 16 /\ stands_for (program_with orig) (TImm 16) 16.
Proof.
  intros s us'. split; [exact orig_at|]. edit_ok s. split; [left; reflexivity|]. split; [right|left; reflexivity].
  assert (M : ~ In NUL (program_with orig)) by (apply no_nul; vm_compute; reflexivity).
  destruct (generate_labels (program_with orig)) as [ls| | | | |] eqn:G; try (vm_compute in G; discriminate).
  pose proof (first_definition _ ls M G (lit "top") 16) as A. assert (F : find_label ls (lit "top") = Some 16).
  { vm_compute in G. injection G as <-. vm_compute. reflexivity. }
  apply A in F as (p & D & E). exists (lit "top"), p. split; [reflexivity|]. split; [split; discriminate|]. auto.
Qed.
