(** * Properties22: the tokenizer and the search for labels run from the text of context.cpp (C103, C104). *)
From Coq Require Import Lia.
From Verif Require Import Base Lexer LexFacts Scan SourceContext ScanExec ScanFunctions SpecScan ScanTokenize ScanLabels.
Local Open Scope string_scope.
Local Open Scope list_scope.
Open Scope Z_scope.

(** C103: [context::tokenize] and the functions it calls are read from the text of context.cpp and run by the
    interpreter.  Whatever the text, the position and the characters behind it, the run ends with the token and the
    cursor of the model, or with its diagnostic at its position, and leaves the address and the labels as they are. *)
Theorem c103_tokenizer_text : forall fs, read_named scanning context_cpp = Some fs ->
  forall asserts bound depth before c pc ls,
  (List.length (rest c) < bound)%nat -> (List.length (rest c) + 5 <= depth)%nat ->
  tokenize_text asserts bound depth fs before c pc ls = let* (t, c') := tokenize c in Ok (t, c', pc, ls).
Proof. exact scanner_text. Qed.
Print Assumptions c103_tokenizer_text.
(** The file is read. *)
Example c103_files : exists fs, read_named scanning context_cpp = Some fs /\
  map sf_name fs = ["is_contained"; "is_operator"; "is_separator"; "is_alpha"; "is_decimal"; "is_alnum";
                    "get_operator_type"; "context::tokenize"; "context::next"; "context::reset"; "context::generate_labels"].
Proof. exists context_functions. split; [exact context_cpp_read|reflexivity]. Qed.
(** The text run on a label definition, a blank and a negated predicate: the label is skipped. *)
Example c103_run : tokenize_text true 20 30 context_functions [] (Cursor (lit "a: !P3;") 0 0) 40 [(lit "a", 8)] =
  Ok (Token (TPred 3 true) 0 3, Cursor (lit ";") 0 6, 40, [(lit "a", 8)]).
Proof. vm_compute. reflexivity. Qed.
(** A register that does not exist. *)
Example c103_range : forall before pc ls, tokenize_text false 20 30 context_functions before (Cursor (lit "R255;") 7 2) pc ls =
  Fatal (Diag (Some (7, 2)) (register_range_message (lit "R255"))).
Proof. intros before pc ls. rewrite (scanner_text _ context_cpp_read) by (cbn; lia). vm_compute. reflexivity. Qed.

(** C104: [context::generate_labels], with its two lambdas, and [reset], read from the text of context.cpp and run.
    Whatever the text, the run ends with the labels of the model, the cursor at the start of the text and address 0, or
    reads behind the terminating NUL where the model says so. *)
Theorem c104_labels_text : forall fs, read_named scanning context_cpp = Some fs ->
  forall asserts bound depth code pc, (List.length code < bound)%nat -> (5 <= depth)%nat ->
  labels_text asserts bound depth fs code pc = let* ls := generate_labels code in Ok (ls, Cursor code 0 0, 0).
Proof. exact labels_from_text. Qed.
Print Assumptions c104_labels_text.
(** Two labels, the second behind three instructions and therefore behind a control word. *)
Example c104_run : forall pc, labels_text true 60 5 context_functions
    (lit "a: N;" ++ [LF] ++ lit " N; N;" ++ [LF] ++ lit "b_1: N;" ++ [LF]) pc =
  Ok ([(lit "b_1", 40); (lit "a", 8)], Cursor (lit "a: N;" ++ [LF] ++ lit " N; N;" ++ [LF] ++ lit "b_1: N;" ++ [LF]) 0 0, 0).
Proof. intros pc. vm_compute. reflexivity. Qed.
(** A word that ends with the text: [next_line] steps over the NUL and reads what is behind it. *)
Example c104_end : forall pc, labels_text false 60 5 context_functions (lit "EXIT") pc = Undef UB_read_past_nul.
Proof. intros pc. rewrite (labels_from_text _ context_cpp_read) by (cbn; lia). vm_compute. reflexivity. Qed.
