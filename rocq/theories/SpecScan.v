(** * SpecScan: the tokenizer and the search for labels, run from the text of context.cpp

    What a caller sees of the functions that ScanExec.v runs. *)
From Verif Require Import Base Lexer Scan ScanExec.
Local Open Scope string_scope.
Local Open Scope list_scope.
Open Scope Z_scope.

(** A context whose [text] points behind [before] (last character first) and at the rest of the cursor. *)
Definition context_at (before : text) (c : cursor) (pc : Z) (ls : labels) : sst :=
  Sst (At before (rest c)) (line c) (col c) pc ls [] [].

Definition found_token (v : sval) (s : sst) : res (token * cursor) :=
  match v, s_text s with
  | VToken t, At _ a => Ok (t, Cursor a (s_line s) (s_column s))
  | _, _ => OutOfFuel
  end.

(** The caller keeps the token, where the text continues, the address and the labels; it forgets the characters behind. *)
Definition keep (v : sval) (s : sst) : out :=
  match s_text s with
  | At _ a => Ok (v, Sst (At [] a) (s_line s) (s_column s) (s_pc s) (s_labels s) [] [])
  | Past => OutOfFuel
  end.

(** [context::tokenize], src/context.cpp:80-224. *)
Definition tokenize_text (asserts : bool) (bound depth : nat) (fs : list sfn) (before : text) (c : cursor) (pc : Z)
  (ls : labels) : res (token * cursor * Z * labels) :=
  let* (v, s) := run asserts bound fs depth (Named "tokenize") [] (context_at before c pc ls) keep in
  let* (t, c') := found_token v s in Ok (t, c', s_pc s, s_labels s).

(** [context::generate_labels], src/context.cpp:260-299, called at the start of the text: the labels, where the text
    is read next, and the address. *)
Definition labels_text (asserts : bool) (bound depth : nat) (fs : list sfn) (code : text) (pc : Z)
  : res (labels * cursor * Z) :=
  let* (_, s) := run asserts bound fs depth (Named "generate_labels") [] (context_at [] (Cursor code 0 0) pc []) keep in
  match s_text s with
  | At _ a => Ok (s_labels s, Cursor a (s_line s) (s_column s), s_pc s)
  | Past => OutOfFuel
  end.
