(** * Properties10: tokens, line breaks and linking. *)
From Verif Require Import Base Float Lexer Operand Catalogue Table Parse Assemble Spec SpecOperand SpecInsn SpecLex SpecOpts SpecContainer
  SpecSafe SpecProgram SpecLink LexFacts Decode Program Stream Lexemes Text Compose Safe Language Link.
From Coq Require Import Lia.
Local Open Scope string_scope.
Local Open Scope list_scope.
Open Scope Z_scope.

Lemma nul_free : forall l, existsb (Ascii.eqb NUL) l = false -> ~ In NUL l.
Proof. intros l E I. enough (existsb (Ascii.eqb NUL) l = true) by congruence. apply existsb_exists. exists NUL. auto. Qed.

(** C53: the output depends on the tokens, on which of them share a line, and on the labels. *)
Theorem c53_accepted : forall code code' ts ts' w,
  ~ In NUL code -> tame code -> Z.of_nat (List.length code) <= 2 ^ 57 ->
  ~ In NUL code' -> tame code' -> Z.of_nat (List.length code') <= 2 ^ 57 ->
  lexes code 0 ts -> lexes code' 0 ts' -> alike ts ts' -> same_places code code' ->
  (assemble false code = Ok w <-> assemble false code' = Ok w).
Proof. exact alike_accepted. Qed.
Print Assumptions c53_accepted.
Theorem c53_rejected : forall code code' ts ts',
  ~ In NUL code -> tame code -> Z.of_nat (List.length code) <= 2 ^ 57 ->
  ~ In NUL code' -> tame code' -> Z.of_nat (List.length code') <= 2 ^ 57 ->
  lexes code 0 ts -> lexes code' 0 ts' -> alike ts ts' -> same_places code code' ->
  ((exists d, assemble false code = Fatal d) <-> (exists d, assemble false code' = Fatal d)).
Proof. exact alike_rejected. Qed.
Print Assumptions c53_rejected.
(** Options, a label and instructions, laid out in two ways. *)
Definition airy : text := lit (".dksh compute

.local_memory 32
main:
  MOV R0,
      R1;
  @P0 BRA main;
").
Definition dense : text := lit ("  .dksh   compute
.local_memory 0x20
main: MOV R0,R1; @P0 BRA main;").
Definition both : list (tkind * (Z * Z)) :=
  [(id ".dksh", (0, 0)); (id "compute", (0, 0)); (id ".local_memory", (2, 1)); (TImm 32, (2, 1));
   (id "MOV", (4, 2)); (TReg 0, (4, 2)); (TComma, (4, 2)); (TReg 1, (5, 2)); (TSemi, (5, 2));
   (TAt, (6, 2)); (TPred 0 false, (6, 2)); (id "BRA", (6, 2)); (id "main", (6, 2)); (TSemi, (6, 2))].
Example c53_ex : lexes airy 0 (map (fun x => (fst x, fst (snd x))) both) /\ lexes dense 0 (map (fun x => (fst x, snd (snd x))) both) /\
  alike (map (fun x => (fst x, fst (snd x))) both) (map (fun x => (fst x, snd (snd x))) both) /\ same_places airy dense /\
  ~ In NUL airy /\ tame airy /\ ~ In NUL dense /\ tame dense /\ exists w, assemble false airy = Ok w /\ List.length w = 64%nat.
Proof.
  assert (N1 : ~ In NUL airy) by (apply nul_free; vm_compute; reflexivity). assert (N2 : ~ In NUL dense) by (apply nul_free; vm_compute; reflexivity).
  split; [apply (all_lined_lexes 50 (start airy)); [exact N1|vm_compute; reflexivity]|].
  split; [apply (all_lined_lexes 50 (start dense)); [exact N2|vm_compute; reflexivity]|].
  split; [apply alike_decided; vm_compute; reflexivity|].
  split; [eapply same_places_decided; [exact N1|exact N2|vm_compute; reflexivity|vm_compute; reflexivity|intros name; reflexivity]|].
  split; [exact N1|]. split; [apply tame_decided; vm_compute; reflexivity|]. split; [exact N2|]. split; [apply tame_decided; vm_compute; reflexivity|].
  eexists. split; vm_compute; reflexivity.
Qed.

(** C54: a program behind whole groups of another one. *)
Theorem c54_link : forall p q w1 w2, ~ In NUL (p ++ q) -> tame (p ++ q) -> Z.of_nat (List.length (p ++ q)) <= 2 ^ 57 ->
  line_start p -> optionless p -> optionless q -> symbolic q -> (forall name, defined q name -> ~ defined p name) -> (semis p mod 3 = 0)%nat ->
  assemble true p = Ok w1 -> assemble true q = Ok w2 -> assemble false (p ++ q) = Ok (w1 ++ w2).
Proof. exact link_words. Qed.
Print Assumptions c54_link.
Theorem c54_parts : forall p q ops1 ops2, line_start p -> part p ops1 -> part q ops2 -> (List.length ops1 mod 3 = 0)%nat ->
  (forall name, defined q name -> ~ defined p name) -> symbolic q -> part (p ++ q) (ops1 ++ ops2).
Proof. exact link_parts. Qed.
Print Assumptions c54_parts.
Definition first_part : text := lit ("top:
  MOV R0, R1 @WAIT 3;
  IADD R1, R1, 0x10;
  @P0 BRA top;
").
Definition second_part : text := lit ("again: LDG.E R2, [R4+0x10] @WB 0;
  ISETP.EQ.U32.AND P0, PT, R2, RZ, PT @DEP 0;
  @!P0 BRA again @WAIT 5;
  BRA out;
out:
  EXIT;
").
Example c54_link_ex : let p := first_part in let q := second_part in
  ~ In NUL (p ++ q) /\ tame (p ++ q) /\ line_start p /\ optionless p /\ optionless q /\ symbolic q /\
  (forall name, defined q name -> ~ defined p name) /\ (semis p mod 3 = 0)%nat /\
  (exists w1, assemble true p = Ok w1 /\ List.length w1 = 4%nat) /\ (exists w2, assemble true q = Ok w2 /\ List.length w2 = 8%nat) /\
  defined q (lit "again") /\ exists ops1 ops2, part p ops1 /\ part q ops2.
Proof.
  intros p q. assert (N : ~ In NUL (p ++ q)) by (apply nul_free; vm_compute; reflexivity).
  assert (N1 : ~ In NUL p) by (intros I; apply N, in_or_app; auto). assert (N2 : ~ In NUL q) by (intros I; apply N, in_or_app; auto).
  assert (O1 : optionless p) by (eapply (optionless_decided 100); vm_compute; reflexivity).
  assert (O2 : optionless q) by (eapply (optionless_decided 100); vm_compute; reflexivity).
  assert (A1 : exists w1, assemble true p = Ok w1 /\ List.length w1 = 4%nat) by (eexists; split; vm_compute; reflexivity).
  assert (A2 : exists w2, assemble true q = Ok w2 /\ List.length w2 = 8%nat) by (eexists; split; vm_compute; reflexivity).
  split; [exact N|]. split; [apply tame_decided; vm_compute; reflexivity|].
  split; [right; eexists (removelast p); vm_compute; reflexivity|]. split; [exact O1|]. split; [exact O2|].
  split; [eapply (symbolic_decided 100); vm_compute; reflexivity|].
  split; [eapply disjoint_decided; [exact N1|exact N2|vm_compute; reflexivity|vm_compute; reflexivity|vm_compute; reflexivity]|].
  split; [reflexivity|]. split; [exact A1|]. split; [exact A2|].
  split; [exists []; split; [left; reflexivity|]; split; [|exists (skipn 6 q); vm_compute; reflexivity]|].
  - exists "a"%char, (lit "gain"). split; [reflexivity|]. split; [left; vm_compute; split; discriminate|].
    repeat constructor; vm_compute; intuition discriminate.
  - destruct A1 as (w1 & A1 & _), A2 as (w2 & A2 & _). destruct (part_assembled p w1 N1 O1 A1) as (ops1 & P1 & _), (part_assembled q w2 N2 O2 A2) as (ops2 & P2 & _). eauto.
Qed.

(** C66: the tokens of a text. *)
Theorem c66_tokens : forall c t c', tokenize c = Ok (t, c') <->
  exists g s cs, moves c g cs /\ gap g (rest cs) /\ moves cs s c' /\ token_text s (kind t) (rest c') /\ t_line t = line cs /\ t_col t = col cs.
Proof. exact tokenize_iff. Qed.
Print Assumptions c66_tokens.
Theorem c66_rejected : forall l, rejects l <-> exists g q, l = g ++ q /\ gap g q /\ bad_text q.
Proof. exact rejects_iff. Qed.
Print Assumptions c66_rejected.
Theorem c66_position : forall c d, tokenize c = Fatal d -> exists g cs, moves c g cs /\ gap g (rest cs) /\ bad_text (rest cs) /\ d_pos d = Some (line cs, col cs).
Proof. exact tokenize_fatal_at. Qed.
Print Assumptions c66_position.
Theorem c66_undefined : forall c u, tokenize c = Undef u <-> u = UB_read_past_nul /\
  exists g cs b neg p, moves c g cs /\ gap g (rest cs) /\ rest cs = b ++ [p] /\ bang b neg /\ In p ["P"%char; "p"%char].
Proof. exact tokenize_undef_iff. Qed.
Print Assumptions c66_undefined.
Example c66_ex : (exists t c', tokenize (start (lit " a: .FTZ")) = Ok (t, c') /\ kind t = id ".FTZ" /\ t_col t = 4) /\
  (exists d, tokenize (start (lit " 12x")) = Fatal d /\ d_pos d = Some (0, 1)) /\ tokenize (start (lit " !P")) = Undef UB_read_past_nul.
Proof. split; [|split]; [do 2 eexists|eexists|]; try (split; [vm_compute; reflexivity|]); try split; vm_compute; reflexivity. Qed.
