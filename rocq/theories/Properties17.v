(** * Properties17: tokens, words and tidied programs (C96, C97, C98). *)
From Verif Require Import Base Float Lexer Operand Catalogue Table Parse Assemble Spec SpecOperand SpecInsn SpecOpts SpecSafe LexFacts Safe Compose SpecLex SpecProgram Language SpecLink Link
  SpecAsserts Asserts Stream SpecTidy Tidy Tidied.
From Coq Require Import Lia.
Local Open Scope string_scope.
Local Open Scope list_scope.
Open Scope Z_scope.

(** C96: the tokens that can be written are the possible ones, each of them has a
    spelling, and every list of them is the list of tokens of some text. *)
Theorem c96_spelled : forall k q l c, possible k -> apart_from q ->
  tokenize (Cursor (spell k ++ q) l c) = Ok (Token k l c, Cursor q (lines (spell k) l) (cols (spell k) c)).
Proof. exact spelled_read. Qed.
Print Assumptions c96_spelled.
Theorem c96_possible : forall c t c', tokenize c = Ok (t, c') -> kind t = TNone \/ possible (kind t).
Proof. exact tokenized_possible. Qed.
Print Assumptions c96_possible.
Theorem c96_streams : forall ks, (exists code ts, lexes code 0 ts /\ map fst ts = ks) <-> Forall possible ks.
Proof. exact streams_iff. Qed.
Print Assumptions c96_streams.
(** The smallest and the largest numbers, infinity and a register. *)
Example c96_ex : Forall possible [TFloat 0x80000001; TFloat 0x7F800000; TImm (- 2 ^ 63); TImm (2 ^ 63 - 1); TReg 255; TPred 6 true; id ".reuse"] /\
  ~ possible (TFloat 0x7F800001) /\ ~ possible (TReg 256) /\ ~ possible (TPred 8 false) /\ ~ possible (id "a:") /\
  apart_from (lit " x") /\ spell (TImm (- 2 ^ 63)) = lit "-9223372036854775808" /\ spell (TReg 12) = lit "R12" /\ spell (TPred 7 true) = lit "!PT".
Proof.
  split; [|repeat split; try (vm_compute; reflexivity)].
  - repeat (apply Forall_cons; [|]); try exact (Forall_nil _); try (vm_compute; split; congruence); try (vm_compute; congruence).
    destruct (tokenized_possible (Cursor (lit ".reuse") 0 0) (Token (id ".reuse") 0 0) (Cursor [] 0 6)) as [E|P]; [vm_compute; reflexivity|discriminate|exact P].
  - intros (_ & H). vm_compute in H. congruence.
  - intros H. vm_compute in H. congruence.
  - intros H. vm_compute in H. congruence.
  - intros (_ & H). apply H. exists (lit "a"). reflexivity.
  - right. eexists _, _. split; [reflexivity|]. left. reflexivity.
Qed.

(** C97: the words of an accepted program belong to the vocabulary, are labels of the
    program, or are options that are ignored. *)
Theorem c97_words : forall a code w ts u, ~ In NUL code -> assemble a code = Ok w -> lexes code 0 ts -> In (TIdent u) (map fst ts) ->
  In u (map lit vocabulary) \/ defined code u \/ exists n, u = "."%char :: n /\ ~ In u (map lit known_options).
Proof. exact words_known. Qed.
Print Assumptions c97_words.
Example c97_ex : let code := lit ".whatever
main: NOP;
BRA main;" in ~ In NUL code /\ (exists w, assemble true code = Ok w) /\
  exists ts, lexes code 0 ts /\ map fst ts = [id ".whatever"; id "NOP"; TSemi; id "BRA"; id "main"; TSemi] /\
  In (lit "NOP") (map lit vocabulary) /\ ~ In (lit "main") (map lit vocabulary) /\ ~ In (lit ".whatever") (map lit vocabulary).
Proof.
  intros code. split; [apply no_nul_decided; vm_compute; reflexivity|]. split; [eexists; vm_compute; reflexivity|]. eexists.
  split; [apply (all_lined_lexes 100 (start _)); [apply no_nul_decided; vm_compute; reflexivity|vm_compute; reflexivity]|]. split; [vm_compute; reflexivity|].
  assert (D : forall s, existsb (String.eqb s) vocabulary = false -> ~ In (lit s) (map lit vocabulary)).
  { intros s E I. apply in_map_iff in I as (x & EX & I). apply (f_equal string_of_list_ascii) in EX. unfold lit in EX.
    rewrite !string_of_list_ascii_of_string in EX. subst x. assert (X : existsb (String.eqb s) vocabulary = true) by (apply existsb_exists; exists s; split; [exact I|apply String.eqb_refl]).
    congruence. }
  split; [|split; apply D; vm_compute; reflexivity].
  apply in_map. assert (X : existsb (String.eqb "NOP") vocabulary = true) by (vm_compute; reflexivity). apply existsb_exists in X as (y & I & E). apply String.eqb_eq in E as ->. exact I.
Qed.

(** C98: a tidied program, with one spelling per token and one blank in front of it,
    has the same file.  Every text that can be read has exactly one tidied form, and
    tidying a second time changes nothing. *)
Theorem c98_same_file : forall a code code' w, ~ In NUL code -> tame code -> ends_read code -> assemble a code = Ok w -> tidies true code code' ->
  Z.of_nat (List.length code') <= 2 ^ 57 -> assemble false code' = Ok w.
Proof. exact tidied_accepted. Qed.
Print Assumptions c98_same_file.
Theorem c98_debug : forall a code code' w, ~ In NUL code -> tame code -> ends_read code -> assemble a code = Ok w -> tidies true code code' ->
  assert_free code -> Z.of_nat (List.length code') <= 2 ^ 57 -> assemble true code' = Ok w.
Proof. exact tidied_builds. Qed.
Print Assumptions c98_debug.
Theorem c98_exists : forall code n ts, lexes code n ts -> forall b, exists code', tidies b code code'.
Proof. exact tidies_exist. Qed.
Print Assumptions c98_exists.
Theorem c98_unique : forall b code r r', tidies b code r -> tidies b code r' -> r = r'.
Proof. exact tidies_unique. Qed.
Print Assumptions c98_unique.
Theorem c98_again : forall b code code', tidies b code code' -> tidies b code' code'.
Proof. exact tidied_again. Qed.
Print Assumptions c98_again.
Definition untidy : text := lit ".shared_memory 0x10
main: MOV R0 , R1  ;x:
	IADD R0,-R0,0x10; skip:
end:  @!P0 BRA	end;
".
Definition tidy : text := lit " .shared_memory 16
main: MOV R0 , R1 ;
 IADD R0 , - R0 , 16 ;
end: @ !P0 BRA end ;
".
Example c98_ex : ~ In NUL untidy /\ tame untidy /\ ends_read untidy /\ assert_free untidy /\ (exists w, assemble true untidy = Ok w) /\ tidies true untidy tidy /\
  Z.of_nat (List.length tidy) <= 2 ^ 57.
Proof.
  assert (N : ~ In NUL untidy) by (apply no_nul_decided; vm_compute; reflexivity). split; [exact N|]. split; [apply tame_decided; vm_compute; reflexivity|].
  assert (F : assert_free untidy) by (apply free_decided; vm_compute; reflexivity). split; [apply (F ends_read); cbn; tauto|]. split; [exact F|].
  split; [eexists; vm_compute; reflexivity|]. split; [apply (tidied_decided 100 true (start untidy) tidy N); vm_compute; reflexivity|vm_compute; discriminate].
Qed.
(** The ';' taken by a lone 'P' is counted for the labels but no longer there once the
    text is tidied. *)
Theorem c98_refuted : exists code code' w w', ~ In NUL code /\ tame code /\ assemble false code = Ok w /\ tidies true code code' /\ assemble false code' = Ok w' /\ w <> w'.
Proof.
  exists (lit "P;x:
NOP;
l: BRA l;
"), (lit "
 NOP ;
l: BRA l ;
"). assert (N : ~ In NUL (lit "P;x:
NOP;
l: BRA l;
")) by (apply no_nul_decided; vm_compute; reflexivity). eexists _, _. split; [exact N|]. split; [apply tame_decided; vm_compute; reflexivity|]. split; [vm_compute; reflexivity|].
  split; [apply (tidied_decided 100 true (start _) _ N); vm_compute; reflexivity|]. split; [vm_compute; reflexivity|]. discriminate.
Qed.
Print Assumptions c98_refuted.
