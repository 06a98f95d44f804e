(** * SpecDepth: how many label definitions stand in front of a token. *)
From Verif Require Import Base Lexer SpecLex.
Local Open Scope char_scope.
Local Open Scope list_scope.
Open Scope Z_scope.

(** White space and [n] label definitions in front of [q]. *)
Inductive label_run : nat -> text -> text -> Prop :=
| run_blank : forall ws q, Forall (fun ch => In ch blanks) ws -> label_run 0 ws q
| run_label : forall n ws w g q, Forall (fun ch => In ch blanks) ws -> label_text w (g ++ q) -> label_run n g q -> label_run (S n) (ws ++ w ++ g) q.
(** A token, the end of the text or something to be rejected. *)
Definition begun (q : text) : Prop :=
  (exists s k r, q = s ++ r /\ lexeme s k r) \/ q = [] \/ begins [NUL] q \/ bad_text q.
