(** * Properties14: names of labels, recursion of the tokenizer, the test driver, exact rules for messages (C86 - C91). *)
From Verif Require Import Base Float Lexer Operand Catalogue Table Parse Assemble Diag Spec SpecOperand SpecInsn SpecLex Lexemes Safe Where SpecOpts SpecContainer
  SpecProgram SpecLink SpecSafe SpecCli SpecDiag Cli Message Report Run Link SpecEdit Edit Layout Properties5 Properties11 Properties12
  SpecRename Rename SpecDepth Depth Tester SpecTester TesterFacts Astray.
From Coq Require Import Lia.
Local Open Scope string_scope.
Local Open Scope list_scope.
Open Scope Z_scope.

(** C86: of a label only the address matters.  Labels can be renamed, dropped when
    no jump uses them, and replaced by numbers. *)
Theorem c86_renamed : forall a code code' w ts ts' us, ~ In NUL code -> ~ In NUL code' -> tame code' -> Z.of_nat (List.length code') <= 2 ^ 57 ->
  lexes code 0 ts -> lexes code' 0 us -> retargeted code code' ts ts' -> alike ts' us -> same_place code code' (lit "main") ->
  assemble a code = Ok w -> assemble false code' = Ok w.
Proof. exact renamed. Qed.
Print Assumptions c86_renamed.
Theorem c86_back : forall code code' ts ts', retargeted code code' ts ts' -> retargeted code' code ts' ts.
Proof. exact retargeted_sym. Qed.
Print Assumptions c86_back.
Definition long_names : text := lit "top: MOV R0, R1;
BRA.U top;
BRA.U done;
unused:
NOP;
done: EXIT;
".
Definition short_names : text := lit "a:
MOV R0, R1;
BRA.U a;
BRA.U 48;
NOP;
EXIT;
".
Definition long_tokens : list (tkind * Z) :=
  [(id "MOV", 0); (TReg 0, 0); (TComma, 0); (TReg 1, 0); (TSemi, 0); (id "BRA", 1); (id ".U", 1); (id "top", 1); (TSemi, 1);
   (id "BRA", 2); (id ".U", 2); (id "done", 2); (TSemi, 2); (id "NOP", 4); (TSemi, 4); (id "EXIT", 5); (TSemi, 5)].
Definition both_lines : list (tkind * (Z * Z)) :=
  [(id "MOV", (0, 1)); (TReg 0, (0, 1)); (TComma, (0, 1)); (TReg 1, (0, 1)); (TSemi, (0, 1)); (id "BRA", (1, 2)); (id ".U", (1, 2)); (id "a", (1, 2)); (TSemi, (1, 2));
   (id "BRA", (2, 3)); (id ".U", (2, 3)); (TImm 48, (2, 3)); (TSemi, (2, 3)); (id "NOP", (4, 4)); (TSemi, (4, 4)); (id "EXIT", (5, 5)); (TSemi, (5, 5))].
Definition swapped_tokens : list (tkind * Z) := map (fun x => (fst x, fst (snd x))) both_lines.
Definition short_tokens : list (tkind * Z) := map (fun x => (fst x, snd (snd x))) both_lines.
Lemma stands_decided : forall code ls name z, ~ In NUL code -> generate_labels code = Ok ls -> find_label ls name = Some z -> plain name -> stands_for code (TIdent name) z.
Proof.
  intros code ls name z N G F P. apply (first_definition code ls N G) in F as (p & D & E). right. exists name, p. auto.
Qed.
Example c86_ex : ~ In NUL long_names /\ ~ In NUL short_names /\ tame short_names /\ Z.of_nat (List.length short_names) <= 2 ^ 57 /\
  lexes long_names 0 long_tokens /\ lexes short_names 0 short_tokens /\ retargeted long_names short_names long_tokens swapped_tokens /\ alike swapped_tokens short_tokens /\
  same_place long_names short_names (lit "main") /\ exists w, assemble true long_names = Ok w /\ List.length w = 8%nat.
Proof.
  assert (N1 : ~ In NUL long_names) by (apply no_nul; vm_compute; reflexivity). assert (N2 : ~ In NUL short_names) by (apply no_nul; vm_compute; reflexivity).
  assert (P : forall name, In name [lit "main"; lit "MOV"; lit "BRA"; lit ".U"; lit "NOP"; lit "EXIT"] -> same_place long_names short_names name).
  { intros name I. eapply same_place_decided; [exact N1|exact N2|vm_compute; reflexivity|vm_compute; reflexivity|]. cbn [In] in I.
    repeat (destruct I as [<-|I]; [vm_compute; reflexivity|]). destruct I. }
  split; [exact N1|]. split; [exact N2|]. split; [apply tame_decided; vm_compute; reflexivity|]. split; [vm_compute; discriminate|].
  split; [apply (all_lined_lexes 50 (Cursor long_names 0 0)); [exact N1|vm_compute; reflexivity]|].
  split; [apply (all_lined_lexes 50 (Cursor short_names 0 0)); [exact N2|vm_compute; reflexivity]|].
  split.
  - unfold swapped_tokens, long_tokens, both_lines. cbn [map fst snd].
    assert (W : forall x l ts ts', In (lit x) [lit "main"; lit "MOV"; lit "BRA"; lit ".U"; lit "NOP"; lit "EXIT"] -> retargeted long_names short_names ts ts' ->
      retargeted long_names short_names ((id x, l) :: ts) ((id x, l) :: ts')).
    { intros x l ts ts' I R. constructor; [|exact R]. intros name E. injection E as <-. apply P, I. }
    apply W; [cbn; tauto|]. do 4 (apply retargeted_same; [discriminate|]).
    assert (J : forall name, In (TIdent name) (id "BRA" :: map fst [(id ".U", 1)]) -> same_place long_names short_names name).
    { intros name I. apply P. cbn [map fst In] in I. destruct I as [E|[E|[]]]; injection E as <-; cbn; tauto. }
    apply (retargeted_jump _ _ "BRA" 1 [(id ".U", 1)] (id "top") (id "a") 1 8).
    { left. reflexivity. } { cbn. intuition discriminate. } { cbn. intuition discriminate. } { exact J. }
    { eapply stands_decided; [exact N1|vm_compute; reflexivity|vm_compute; reflexivity|split; discriminate]. }
    { eapply stands_decided; [exact N2|vm_compute; reflexivity|vm_compute; reflexivity|split; discriminate]. }
    apply retargeted_same; [discriminate|].
    apply (retargeted_jump _ _ "BRA" 2 [(id ".U", 2)] (id "done") (TImm 48) 2 48).
    { left. reflexivity. } { cbn. intuition discriminate. } { cbn. intuition discriminate. } { exact J. }
    { eapply stands_decided; [exact N1|vm_compute; reflexivity|vm_compute; reflexivity|split; discriminate]. }
    { left. reflexivity. }
    apply retargeted_same; [discriminate|]. apply W; [cbn; tauto|]. apply retargeted_same; [discriminate|]. apply W; [cbn; tauto|]. apply retargeted_same; [discriminate|]. constructor.
  - split; [apply alike_decided; vm_compute; reflexivity|]. split; [apply P; left; reflexivity|]. eexists. split; vm_compute; reflexivity.
Qed.

(** C87: behind [n] labels the tokenizer calls itself [n] times; the depth is not
    bounded. *)
Theorem c87_calls : forall n g q l m d, label_run n g q -> begun q -> (tokenize_fuel d (Cursor (g ++ q) l m) <> OutOfFuel <-> (n < d)%nat).
Proof. exact token_calls. Qed.
Print Assumptions c87_calls.
Theorem c87_gaps : forall g q, gap g q <-> exists n, label_run n g q.
Proof. exact gap_counted. Qed.
Print Assumptions c87_gaps.
Theorem c87_unbounded : forall d, exists c, tokenize_fuel d c = OutOfFuel /\ (exists t c', tokenize c = Ok (t, c')).
Proof. exact calls_unbounded. Qed.
Print Assumptions c87_unbounded.
Lemma label_a : forall ch q, In ch separators -> label_text (lit "a:") (ch :: q).
Proof. intros ch q I. split; [left; exact word_a|]. split; [exists (lit "a"); reflexivity|]. right. exists ch, q. split; [reflexivity|exact I]. Qed.
Example c87_ex : label_run 3 (lit "a: a:  a: ") (lit "EXIT;") /\ begun (lit "EXIT;").
Proof.
  split.
  - apply (run_label 2 [] (lit "a:") (lit " a:  a: ")); [constructor|apply label_a; cbn; tauto|].
    apply (run_label 1 (lit " ") (lit "a:") (lit "  a: ")); [constructor; [cbn; tauto|constructor]|apply label_a; cbn; tauto|].
    apply (run_label 0 (lit "  ") (lit "a:") (lit " ")); [constructor; [cbn; tauto|constructor; [cbn; tauto|constructor]]|apply label_a; cbn; tauto|].
    apply run_blank. constructor; [cbn; tauto|constructor].
  - left. exists (lit "EXIT"), (id "EXIT"), (lit ";"). split; [reflexivity|]. assert (T : token_text (lit "EXIT") (id "EXIT") (lit ";")) by (apply token_decided; vm_compute; split; reflexivity).
    destruct T as [T|(T & _)]; [exact T|discriminate].
Qed.

(** C88: the test driver reads no word that is not there. *)
Theorem c88_inside : forall a name args, Forall (fun s => ~ In NUL s) args ->
  forall u, tester a name args = Undef u -> exists e more, args = e :: more /\ assemble a (e ++ lit ";") = Undef u.
Proof. exact tester_inside. Qed.
Print Assumptions c88_inside.
Example c88_ex : Forall (fun s => ~ In NUL s) [lit "BRA -9223372036854775808"; lit "0x0"] /\ (exists u, tester true (lit "tester") [lit "BRA -9223372036854775808"; lit "0x0"] = Undef u) /\
  tester true (lit "tester") [lit "NOP"; lit "0x50b0000000070f00"] = Ok (Exit 0 []) /\
  tester true (lit "tester") [lit ""; lit "0x50b0000000070f00"] <> Ok (Exit 0 []).
Proof.
  split; [constructor; [|constructor; [|constructor]]; apply no_nul; vm_compute; reflexivity|]. split; [eexists; vm_compute; reflexivity|]. split; [vm_compute; reflexivity|vm_compute; discriminate].
Qed.

(** C89: a test passes when the second word is the expected one; else it says so. *)
Theorem c89_passes : forall a name e s more, ~ In NUL e ->
  (tester a name (e :: s :: more) = Ok (Exit 0 []) <-> exists c v ws, assemble a (e ++ lit ";") = Ok (c :: v :: ws) /\ expects s v).
Proof. exact tester_passes. Qed.
Print Assumptions c89_passes.
Theorem c89_fails : forall a name e s more c v ws, assemble a (e ++ lit ";") = Ok (c :: v :: ws) -> ~ expects s v ->
  exists err, tester a name (e :: s :: more) = Ok (Exit 1 err) /\
    ((forall n, ~ expects s n) \/
     exists n sv sn, expects s n /\ n <> v /\ upper_hex v sv /\ upper_hex n sn /\ err = lit "Incorrect opcode: 0x" ++ sv ++ lit " vs 0x" ++ sn ++ ["010"%char]).
Proof. exact tester_fails. Qed.
Print Assumptions c89_fails.
(** Characters behind the digits do not matter; a wrong word does. *)
Example c89_ex : tester true (lit "tester") [lit "NOP"; lit "0x50b0000000070f00, as of 2020"] = Ok (Exit 0 []) /\
  tester true (lit "tester") [lit "NOP"; lit "0x50b0000000070f01"] = Ok (Exit 1 (lit "Incorrect opcode: 0x50B0000000070F00 vs 0x50B0000000070F01
")).
Proof. split; vm_compute; reflexivity. Qed.

(** C90: the exact rule for C71. *)
Theorem c90_lines : forall code b g q body, about code b g q body ->
  (lined body <-> (body = bang_message /\ exists r, q = "!"%char :: r /\ ~ begins (lit "Pp") r) \/ quotes_break q body).
Proof. exact several_lines. Qed.
Print Assumptions c90_lines.
Example c90_ex : exists b g q body, about (lit "SSY P
;") b g q body /\ lined body.
Proof.
  assert (A : exists d body, assemble true (lit "SSY P
;") = Fatal d /\ printf false (d_msg d) = Some body /\ d_pos d <> None /\ lined body).
  { eexists. eexists. split; [vm_compute; reflexivity|]. split; [vm_compute; reflexivity|]. split; [discriminate|]. vm_compute. tauto. }
  destruct A as (d & body & A & PR & PN & L). destruct (assemble_says true _ d A ltac:(apply no_nul; vm_compute; reflexivity) ltac:(vm_compute; reflexivity)) as [(X & _)|(b & g & q & body' & AB & _ & P & _)].
  - contradiction.
  - exists b, g, q, body. rewrite PR in P. injection P as <-. split; assumption.
Qed.

(** C91: the exact rule for C73. *)
Theorem c91_words : forall s l, In (s, l) (named_words ++ astray_words) -> (shows_word s l <-> In (s, l) astray_words).
Proof. exact astray_words_exact. Qed.
Print Assumptions c91_words.
Theorem c91_kinds : forall s f, In (s, f) (named_kinds ++ astray_kinds) -> (shows_kind s f <-> In (s, f) astray_kinds).
Proof. exact astray_kinds_exact. Qed.
Print Assumptions c91_kinds.
Example c91_ex : In ("expected .P or .B", [".P"; ".B"]) (named_words ++ astray_words) /\ shows_word "expected .P or .B" [".P"; ".B"] /\ ~ shows_word "expected PR or CC" ["PR"; "CC"].
Proof.
  split; [cbn; tauto|]. split; [apply c91_words; cbn; tauto|]. intros H. apply c91_words in H; [|cbn; tauto]. cbn in H. intuition discriminate.
Qed.
