(** * Reading: the table of the model is the one written in table.h. *)
From Verif Require Import Base Lexer Operand Table Source SourceText Idioms.
Local Open Scope string_scope.
Local Open Scope list_scope.
Open Scope N_scope.

Lemma table_read : read_table idioms operand_h table_h = Some table.
Proof. vm_cast_no_check (eq_refl (Some table)). Qed.

Lemma table_lines : forall k i,
  nth_error table k = Some i <->
  exists is, read_table idioms operand_h table_h = Some is /\ nth_error is k = Some i.
Proof.
  intros k i. split.
  - intros H. exists table. split; [exact table_read|exact H].
  - intros (is & H & K). rewrite table_read in H. injection H as <-. exact K.
Qed.

(** The bodies of operand.h that are none of the idioms. *)
Definition unread (is : list (list word * (list cval -> option opnd))) (ds : list definition) : list (list string) :=
  map d_path (filter (fun d =>
    if String.eqb (d_macro d) "DEFINE_OPERAND"
    then match find_idiom is (d_body d) with Some _ => false | None => true end
    else false) ds).

Definition operand_definitions : option (list definition) :=
  definitions (S (List.length (words_in operand_h))) [] None (words_in operand_h).

Definition idiom_words : list (list word * (list cval -> option opnd)) :=
  map (fun i => (words_in (m_text i), m_operand i)) idioms.

Lemma one_unread :
  (let is := idiom_words in
   match operand_definitions with Some ds => Some (unread is ds) | None => None end) = Some [["stg"; "size"]].
Proof. vm_cast_no_check (eq_refl (Some [["stg"; "size"]])). Qed.

Lemma unread_in : forall is ds p, In p (unread is ds) <->
  exists d, In d ds /\ d_path d = p /\ d_macro d = "DEFINE_OPERAND" /\ find_idiom is (d_body d) = None.
Proof.
  intros is ds p. unfold unread. rewrite in_map_iff. split.
  - intros (d & E & I). apply filter_In in I as (I & F). exists d.
    destruct (String.eqb_spec (d_macro d) "DEFINE_OPERAND") as [M|M]; [|discriminate F].
    destruct (find_idiom is (d_body d)) eqn:G; [discriminate F|]. auto.
  - intros (d & I & E & M & F). exists d. split; [exact E|]. apply filter_In. split; [exact I|].
    rewrite M, F. reflexivity.
Qed.

Lemma unread_path : forall ds p, operand_definitions = Some ds ->
  ((exists d, In d ds /\ d_path d = p /\ d_macro d = "DEFINE_OPERAND" /\ find_idiom idiom_words (d_body d) = None) <->
   p = ["stg"; "size"]).
Proof.
  intros ds p D. pose proof one_unread as U. rewrite D in U. cbv zeta in U. injection U as U.
  rewrite <- unread_in, U. split; [intros [<-|[]]; reflexivity|intros ->; left; reflexivity].
Qed.
