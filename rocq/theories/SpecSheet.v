(** * SpecSheet: programs with one statement per line and without labels. *)
From Verif Require Import Base Float Lexer Operand Catalogue Table Spec SpecOperand SpecInsn SpecLex SpecOpts SpecProgram SpecEdit SpecTidy.
Local Open Scope list_scope.
Local Open Scope char_scope.
Open Scope Z_scope.

(** A line: its tokens, and whether [main] is defined in front of them. *)
Definition sheet : Type := list (bool * list tkind).
Definition line_text (x : bool * list tkind) : text :=
  (if fst x then lit "main:" else []) ++ flat_map (fun k => " " :: spell k) (snd x) ++ ["010"].
Definition sheet_text (s : sheet) : text := flat_map line_text s.

(** Not a single label. *)
Definition no_label : text -> option Z := fun _ => None.
(** The tokens of a line are those of an option or of an instruction that names no
    label, or there are none. *)
Definition one_statement (ks : list tkind) : Prop :=
  ks = [] \/ (exists s, written s ks) \/ exists pc op, SpecEdit.instruction no_label pc ks op.
