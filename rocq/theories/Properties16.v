(** * Properties16: longer, shorter and faulty programs (C93, C94, C95). *)
From Verif Require Import Base Float Lexer Operand Catalogue Table Parse Assemble Spec SpecOperand SpecInsn SpecOpts SpecSafe Safe Compose SpecProgram Language SpecLink Link
  SpecEdit Edit Local Growth Asserts Stream Decode.
From Coq Require Import Lia.
Local Open Scope string_scope.
Local Open Scope list_scope.
Open Scope Z_scope.

(** C93: what is written behind a program leaves its settings and instructions as
    they are; new ones only follow. *)
Theorem c93_appended : forall a a' p q w w', ~ In NUL (p ++ q) -> line_start p -> assemble a p = Ok w -> assemble a' (p ++ q) = Ok w' ->
  exists ss1 ss2 ops1 ops2, file p ss1 (code_words ops1) w /\ file (p ++ q) (ss1 ++ ss2) (code_words (ops1 ++ ops2)) w'.
Proof. exact appended. Qed.
Print Assumptions c93_appended.
(** All full groups stay as they are, and so does the word of every instruction. *)
Theorem c93_groups : forall ops1 ops2, exists x y z, code_words ops1 = x ++ y /\ code_words (ops1 ++ ops2) = x ++ z /\
  List.length x = (4 * (List.length ops1 / 3))%nat.
Proof. exact groups_kept. Qed.
Print Assumptions c93_groups.
Theorem c93_words : forall ops1 ops2 n op, nth_error ops1 n = Some op ->
  nth_error (code_words ops1) (word_at n) = Some (value op) /\ nth_error (code_words (ops1 ++ ops2)) (word_at n) = Some (value op).
Proof. exact words_kept. Qed.
Print Assumptions c93_words.
(** An accepted text has a single meaning, whether or not it is tame. *)
Theorem c93_only : forall a code w w', ~ In NUL code -> assemble a code = Ok w -> means code w' -> w' = w.
Proof. exact accepted_only. Qed.
Print Assumptions c93_only.

(** C94: the first statements of a program are a program as well, unless they use
    a label that only the rest defines. *)
Theorem c94_cut : forall a p q w ts, ~ In NUL (p ++ q) -> line_start p -> optionless (p ++ q) -> assemble a (p ++ q) = Ok w ->
  lexes p 0 ts -> last (map fst ts) TSemi = TSemi ->
  (forall name, In (TIdent name) (map fst ts) -> defined q name -> defined p name) ->
  exists ops1 ops2, means p (code_words ops1) /\ w = code_words (ops1 ++ ops2).
Proof. exact cut_off. Qed.
Print Assumptions c94_cut.
Theorem c94_accepted : forall a p q w ts, ~ In NUL (p ++ q) -> line_start p -> optionless (p ++ q) -> assemble a (p ++ q) = Ok w ->
  lexes p 0 ts -> last (map fst ts) TSemi = TSemi ->
  (forall name, In (TIdent name) (map fst ts) -> defined q name -> defined p name) -> tame p -> Z.of_nat (List.length p) <= 2 ^ 57 ->
  exists ops1 ops2, assemble false p = Ok (code_words ops1) /\ w = code_words (ops1 ++ ops2).
Proof. exact cut_off_accepted. Qed.
Print Assumptions c94_accepted.

Definition early_part : text := lit "top: MOV R0, R1 @WAIT 3;
IADD R1, R1, 0x10;
@P0 BRA.U top;
NOP;
".
Definition later_part : text := lit "again: LDG.E R2, [R4+0x10] @WB 0;
@!P0 BRA again;
top: EXIT;
".
Example c93_ex : ~ In NUL (early_part ++ later_part) /\ line_start early_part /\
  exists w w', assemble true early_part = Ok w /\ assemble true (early_part ++ later_part) = Ok w' /\
    List.length w = 8%nat /\ List.length w' = 12%nat /\ firstn 4 w = firstn 4 w' /\ nth_error w 5 = nth_error w' 5 /\ nth_error w 4 <> nth_error w' 4.
Proof.
  split; [apply no_nul_decided; vm_compute; reflexivity|]. split; [right; eexists (removelast early_part); vm_compute; reflexivity|].
  eexists _, _. split; [vm_compute; reflexivity|]. split; [vm_compute; reflexivity|]. repeat split; try reflexivity; vm_compute; discriminate.
Qed.
Example c94_ex : let p := early_part in let q := later_part in
  ~ In NUL (p ++ q) /\ line_start p /\ optionless (p ++ q) /\ tame p /\ Z.of_nat (List.length p) <= 2 ^ 57 /\
  (exists w, assemble true (p ++ q) = Ok w /\ List.length w = 12%nat) /\
  exists ts, lexes p 0 ts /\ last (map fst ts) TSemi = TSemi /\ In (TIdent (lit "top")) (map fst ts) /\
    forall name, In (TIdent name) (map fst ts) -> defined q name -> defined p name.
Proof.
  intros p q. assert (N : ~ In NUL (p ++ q)) by (apply no_nul_decided; vm_compute; reflexivity).
  assert (N1 : ~ In NUL p) by (intros I; apply N, in_or_app; auto). assert (N2 : ~ In NUL q) by (intros I; apply N, in_or_app; auto).
  assert (T : defined p (lit "top")).
  { exists []. split; [left; reflexivity|]. split; [|exists (skipn 4 p); vm_compute; reflexivity].
    exists "t"%char, (lit "op"). split; [reflexivity|]. split; [left; vm_compute; split; discriminate|]. repeat constructor; vm_compute; intuition discriminate. }
  split; [exact N|]. split; [right; eexists (removelast p); vm_compute; reflexivity|].
  split; [eapply (optionless_decided 100); vm_compute; reflexivity|]. split; [apply tame_decided; vm_compute; reflexivity|]. split; [vm_compute; discriminate|].
  split; [eexists; split; vm_compute; reflexivity|].
  eexists. split; [apply (all_lined_lexes 100 (start p)); [exact N1|vm_compute; reflexivity]|]. split; [vm_compute; reflexivity|]. split; [vm_compute; tauto|].
  intros name I D. eapply defined_in in D; [|exact N2|vm_compute; reflexivity]. cbn [map fst] in D. destruct D as [<-|[<-|[]]]; [exact T|].
  exfalso. revert I. clear. cbn. intuition discriminate.
Qed.
(** Without the condition on labels the statement is false. *)
Theorem c94_refuted : exists a p q w, ~ In NUL (p ++ q) /\ line_start p /\ optionless (p ++ q) /\ assemble a (p ++ q) = Ok w /\
  (exists ts, lexes p 0 ts /\ last (map fst ts) TSemi = TSemi) /\ exists d, assemble a p = Fatal d.
Proof.
  exists true, (lit "BRA out;
"), (lit "out: EXIT;
"). eexists. split; [apply no_nul_decided; vm_compute; reflexivity|]. split; [right; exists (lit "BRA out;"); reflexivity|].
  split; [eapply (optionless_decided 100); vm_compute; reflexivity|]. split; [vm_compute; reflexivity|]. split; [|eexists; vm_compute; reflexivity].
  eexists. split; [apply (all_lined_lexes 100 (start _)); [apply no_nul_decided; vm_compute; reflexivity|vm_compute; reflexivity]|vm_compute; reflexivity].
Qed.
Print Assumptions c94_refuted.

(** C95: an error found in front of a ';' is reported, at the same place and in the
    same words, whatever follows the ';', as long as the same labels are defined. *)
Theorem c95_local : forall a p q q' lab d p0 p1, ~ In NUL (p ++ ";"%char :: q) -> ~ In NUL (p ++ ";"%char :: q') -> no_open_end p ->
  labelled (p ++ ";"%char :: q) lab -> labelled (p ++ ";"%char :: q') lab -> ~ bare_last_line (p ++ ";"%char :: q') ->
  assemble a (p ++ ";"%char :: q) = Fatal d -> p = p0 ++ p1 -> d_pos d = Some (line_after p0, column_after p0) ->
  assemble a (p ++ ";"%char :: q') = Fatal d.
Proof. exact local_error. Qed.
Print Assumptions c95_local.
Theorem c95_plain : forall a p q q' d p0 p1, ~ In NUL (p ++ ";"%char :: q) -> ~ In NUL (p ++ ";"%char :: q') -> no_open_end p ->
  ~ In ":"%char q -> ~ In ":"%char q' -> ~ bare_last_line (p ++ ";"%char :: q') ->
  assemble a (p ++ ";"%char :: q) = Fatal d -> p = p0 ++ p1 -> d_pos d = Some (line_after p0, column_after p0) ->
  assemble a (p ++ ";"%char :: q') = Fatal d.
Proof. exact local_error_plain. Qed.
Print Assumptions c95_plain.
Example c95_ex : let p := lit "top: NOP;
  MOV R0, R1 R2" in let q := lit "
  EXIT" in let q' := lit " WHAT 5x ?;" in
  ~ In NUL (p ++ ";"%char :: q) /\ ~ In NUL (p ++ ";"%char :: q') /\ no_open_end p /\ ~ In ":"%char q /\ ~ In ":"%char q' /\ ~ bare_last_line (p ++ ";"%char :: q') /\
  exists d p0 p1, assemble true (p ++ ";"%char :: q) = Fatal d /\ p = p0 ++ p1 /\ d_pos d = Some (line_after p0, column_after p0) /\ d_pos d = Some (1, 13).
Proof.
  intros p q q'. split; [apply no_nul_decided; vm_compute; reflexivity|]. split; [apply no_nul_decided; vm_compute; reflexivity|].
  split; [|split; [vm_compute; intuition discriminate|]; split; [vm_compute; intuition discriminate|]; split].
  - intros u' x E. change p with (removelast p ++ ["2"%char]) in E. apply app_inj_tail in E as (_ & <-). vm_compute. intuition discriminate.
  - intros (h & name & E & _ & LN). destruct (label_name_chars _ LN) as (NN & _ & F). destruct (exists_last NN) as (n & x & ->).
    change (p ++ ";"%char :: q') with (removelast (p ++ ";"%char :: q') ++ [";"%char]) in E. rewrite app_assoc in E. apply app_inj_tail in E as (_ & <-).
    apply Forall_app in F as (_ & F). apply Forall_inv in F. discriminate.
  - eexists _, (firstn 23 p), (skipn 23 p). split; [vm_compute; reflexivity|]. split; [vm_compute; reflexivity|]. split; vm_compute; reflexivity.
Qed.
(** The condition on labels is needed, and so is the one on a 'P' in front of the ';'. *)
Theorem c95_labels_refuted : exists a p q q' d, ~ In NUL (p ++ ";"%char :: q) /\ ~ In NUL (p ++ ";"%char :: q') /\ no_open_end p /\
  assemble a (p ++ ";"%char :: q) = Fatal d /\ d_pos d = Some (line_after (firstn 4 p), column_after (firstn 4 p)) /\
  exists w, assemble a (p ++ ";"%char :: q') = Ok w.
Proof.
  exists true, (lit "BRA out"), [], (lit "
out: EXIT;"). eexists. split; [apply no_nul_decided; vm_compute; reflexivity|]. split; [apply no_nul_decided; vm_compute; reflexivity|].
  split; [|split; [vm_compute; reflexivity|split; [vm_compute; reflexivity|eexists; vm_compute; reflexivity]]].
  intros u' x E. change (lit "BRA out") with (removelast (lit "BRA out") ++ ["t"%char]) in E. apply app_inj_tail in E as (_ & <-). vm_compute. intuition discriminate.
Qed.
Print Assumptions c95_labels_refuted.
Theorem c95_open_refuted : exists a p q q' d d', ~ In NUL (p ++ ";"%char :: q) /\ ~ In NUL (p ++ ";"%char :: q') /\ ~ In ":"%char q /\ ~ In ":"%char q' /\
  assemble a (p ++ ";"%char :: q) = Fatal d /\ d_pos d = Some (0, 0) /\ assemble a (p ++ ";"%char :: q') = Fatal d' /\ d <> d'.
Proof.
  exists true, (lit "P"), (lit "x;"), (lit "y;"). eexists _, _. split; [apply no_nul_decided; vm_compute; reflexivity|]. split; [apply no_nul_decided; vm_compute; reflexivity|].
  split; [vm_compute; intuition discriminate|]. split; [vm_compute; intuition discriminate|].
  split; [vm_compute; reflexivity|]. split; [vm_compute; reflexivity|]. split; [vm_compute; reflexivity|]. discriminate.
Qed.
Print Assumptions c95_open_refuted.
