(** * ScanFunctions: the functions of context.cpp that find tokens and labels, read from their text. *)
From Verif Require Import Base Scan SourceContext.
Local Open Scope string_scope.
Local Open Scope list_scope.

Definition scanning : list string :=
  ["is_contained"; "is_operator"; "is_separator"; "is_alpha"; "is_decimal"; "is_alnum"; "get_operator_type";
   "context::tokenize"; "context::next"; "context::reset"; "context::generate_labels"].

(** src/context.cpp:16-70, 80-224 and 235-299. *)
Definition context_functions : list sfn.
Proof. let x := eval vm_compute in (match read_named scanning context_cpp with Some l => l | None => [] end) in exact x. Defined.

Lemma context_cpp_read : read_named scanning context_cpp = Some context_functions.
Proof. vm_cast_no_check (eq_refl (Some context_functions)). Qed.
