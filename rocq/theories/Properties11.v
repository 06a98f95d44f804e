(** * Properties11: diagnostics (C67 - C73). *)
From Verif Require Import Base Float Lexer Operand Catalogue Table Parse Assemble Diag Spec SpecInsn SpecLex Lexemes Where SpecLink SpecCli SpecDiag
  Cli Message Report Run Properties5.
From Coq Require Import Lia.
Local Open Scope string_scope.
Local Open Scope list_scope.
Open Scope Z_scope.

(** C67: what the tool prints, for every command line and every file. *)
Theorem c67_runs : forall strict a args w, (forall n data, files w n = Some data -> small data) -> run strict a args w (cli_run strict a args w).
Proof. exact cli_runs. Qed.
Print Assumptions c67_runs.
Theorem c67_reported : forall a code d i, assemble a code = Fatal d -> ~ In NUL code -> small code ->
  exists body err, reported i code body err /\ stderr_of false i d = Some err /\ stderr_of true i d = if miscast body then None else Some err.
Proof. exact reported_always. Qed.
Print Assumptions c67_reported.
Theorem c67_unknown : forall code b g q body, about code b g q body ->
  (headed (lit "label " ++ escape "[1m") body = true -> exists w r, q = w ++ r /\ token_text w (TIdent w) r /\ ~ defined code w) /\
  (headed (lit "unknown mnemonic ") body = true -> exists w r, q = w ++ r /\ token_text w (TIdent w) r /\ ~ mnemonic w).
Proof. exact unknown_words. Qed.
Print Assumptions c67_unknown.
Definition folder (code : text) : world := World (fun n => if text_eqb n (lit "in.txt") then Some code else None) (fun _ => true).
Definition command : list text := [lit "in.txt"; lit "-o"; lit "out.bin"].
Lemma folder_small : forall code, small code -> forall n data, files (folder code) n = Some data -> small data.
Proof. intros code S n data H. unfold folder in H. cbn [files] in H. destruct (text_eqb n (lit "in.txt")); [|discriminate]. injection H as <-. exact S. Qed.
(** The bytes of stderr, as text with \[ for the escape character. *)
Definition legible (t : text) : string := string_of_list_ascii (map (fun ch => if Ascii.eqb ch "027" then "\"%char else ch) t).
Definition stderr_text (code : string) : option (Z * string) :=
  match cli_run false true command (folder (lit code)) with Some (st, err, _) => Some (st, legible err) | None => None end.
Example c67_runs_ex :
  (small (lit "NOP;
  SSY there;") /\ stderr_text "NOP;
  SSY there;" = Some (1, "\[1min.txt:\[1m2:7: \[1;31merror:\[0m label \[1mthere\[0m not defined
")) /\
  stderr_text "NOP R0;" = Some (1, "\[1min.txt:\[1m1:5: \[1;31merror:\[0m expected \[1msemicolon\[0m and got \[1mregister \[0m
") /\
  stderr_text "NOP 12x4;" = Some (1, "\[1min.txt:\[1m1:5: \[1;31merror:\[0m failed to parse literal \[1;31m12x4\[0m
") /\
  stderr_text ".dksh compute
NOP;" = Some (1, "\[1;31merror:\[0m entrypoint ""main"" not found
").
Proof. split; [split; vm_compute; reflexivity|]. split; [|split]; vm_compute; reflexivity. Qed.
Example c67_reported_ex : (exists d, assemble true (lit "FOO;") = Fatal d) /\ ~ In NUL (lit "FOO;") /\ small (lit "FOO;") /\
  stderr_text "FOO;" = Some (1, "\[1min.txt:\[1m1:1: \[1;31merror:\[0m unknown mnemonic \[1mFOO\[0m
").
Proof. split; [eexists; vm_compute; reflexivity|]. split; [vm_compute; intuition discriminate|]. split; vm_compute; reflexivity. Qed.
Example c67_unknown_ex : exists b g q body, about (lit "FOO;") b g q body /\ headed (lit "unknown mnemonic ") body = true.
Proof.
  assert (A : exists d, assemble true (lit "FOO;") = Fatal d /\ printf false (d_msg d) = Some (lit "unknown mnemonic " ++ strong (lit "FOO")) /\ d_pos d <> None).
  { eexists. split; [vm_compute; reflexivity|]. split; [vm_compute; reflexivity|discriminate]. }
  destruct A as (d & A & PR & PN). destruct (assemble_says true (lit "FOO;") d A ltac:(vm_compute; intuition discriminate) ltac:(vm_compute; reflexivity)) as [(X & _)|(b & g & q & body & AB & _ & P & _)].
  - contradiction.
  - exists b, g, q, body. split; [exact AB|]. rewrite PR in P. injection P as <-. reflexivity.
Qed.

(** C68: the types of the printed arguments. *)
Theorem c68_types_refuted : exists code d i, assemble true code = Fatal d /\ small code /\ stderr_of true i d = None.
Proof. exists (lit "FOO;"). eexists. exists (lit "in.txt"). split; [vm_compute; reflexivity|]. split; vm_compute; reflexivity. Qed.
Print Assumptions c68_types_refuted.
Theorem c68_types_partial : forall a code d i, assemble a code = Fatal d -> ~ In NUL code -> small code ->
  exists body err, reported i code body err /\ stderr_of false i d = Some err /\ stderr_of true i d = if miscast body then None else Some err.
Proof. exact reported_always. Qed.
Print Assumptions c68_types_partial.
Example c68_types_ex : (exists d, assemble true (lit "S2R R0, SR_FOO;") = Fatal d /\ stderr_of true (lit "f") d <> None) /\
  miscast (lit "invalid system register " ++ strong (lit "SR_FOO")) = false.
Proof. split; [eexists; split; [vm_compute; reflexivity|vm_compute; discriminate]|reflexivity]. Qed.

(** C69: errors that are collected and printed later. *)
Theorem c69_same : forall strict file l c m out, fatal_output strict file l c m = Some out -> Z.of_nat (List.length out) <= INT32_MAX ->
  exists buffer, fail_message strict file l c m = Some buffer /\ raise_output buffer = out /\ List.length buffer = List.length out.
Proof. exact raised_alike. Qed.
Print Assumptions c69_same.
Theorem c69_buffer : forall strict file l c m out, fatal_output strict file l c m = Some out ->
  fail_message strict file l c m =
    if INT32_MAX <? Z.of_nat (List.length out) then None else Some (firstn (List.length out - 1) out ++ [NUL]).
Proof. exact both_ways. Qed.
Print Assumptions c69_buffer.
Example c69_same_ex : exists out, fatal_output true (lit "f") 2 3 "expected label" = Some out /\ Z.of_nat (List.length out) <= INT32_MAX /\
  List.length out = 48%nat.
Proof. eexists. split; [vm_compute; reflexivity|]. split; vm_compute; [discriminate|reflexivity]. Qed.

(** C70: the number a range error shows. *)
Theorem c70_value_refuted : exists code d, assemble true code = Fatal d /\ d_pos d = Some (0, 11) /\
  (exists b r, code = b ++ lit "4294967297" ++ r /\ List.length b = 11%nat /\ token_text (lit "4294967297") (TImm 4294967297) r) /\
  printf false (d_msg d) = Some (lit "integer " ++ strong (lit "1") ++ lit " is out of range, expected to be from 0 to 4294967295 inclusively").
Proof.
  exists (lit "MOV32I R0, 4294967297;"). eexists. split; [vm_compute; reflexivity|]. split; [reflexivity|]. split; [|vm_compute; reflexivity].
  exists (lit "MOV32I R0, "), (lit ";"). split; [reflexivity|]. split; [reflexivity|].
  apply token_decided. vm_compute. split; reflexivity.
Qed.
Print Assumptions c70_value_refuted.
Theorem c70_value_partial : forall code b g q body, about code b g q body -> headed (lit "integer ") body = true ->
  exists w v r z lo hi dz dlo dhi, q = w ++ r /\ token_text w (TImm v) r /\ (v < lo \/ hi < v) /\ numeral z dz /\ numeral lo dlo /\ numeral hi dhi /\
    body = lit "integer " ++ strong dz ++ lit " is out of range, expected to be from " ++ dlo ++ lit " to " ++ dhi ++ lit " inclusively" /\
    low_half v z /\ (- 2 ^ 31 <= v < 2 ^ 31 -> z = v).
Proof. exact range_message_about. Qed.
Print Assumptions c70_value_partial.
Example c70_value_ex : exists b g q body, about (lit "LDG R0, [R1+0x1000000];") b g q body /\
  body = lit "integer " ++ strong (lit "16777216") ++ lit " is out of range, expected to be from -8388608 to 8388607 inclusively".
Proof.
  assert (A : exists d, assemble true (lit "LDG R0, [R1+0x1000000];") = Fatal d /\
    printf false (d_msg d) = Some (lit "integer " ++ strong (lit "16777216") ++ lit " is out of range, expected to be from -8388608 to 8388607 inclusively") /\ d_pos d <> None).
  { eexists. split; [vm_compute; reflexivity|]. split; [vm_compute; reflexivity|discriminate]. }
  destruct A as (d & A & PR & PN). destruct (assemble_says true _ d A ltac:(vm_compute; intuition discriminate) ltac:(vm_compute; reflexivity)) as [(X & _)|(b & g & q & body & AB & _ & P & _)].
  - contradiction.
  - exists b, g, q, body. split; [exact AB|]. rewrite PR in P. injection P as <-. reflexivity.
Qed.

(** C71: one line per diagnostic. *)
Theorem c71_line_refuted : exists code d body, assemble true code = Fatal d /\ printf false (d_msg d) = Some body /\ lined body.
Proof.
  exists (lit "SSY P
;"). eexists. eexists. split; [vm_compute; reflexivity|]. split; [vm_compute; reflexivity|]. vm_compute. tauto.
Qed.
Print Assumptions c71_line_refuted.
Theorem c71_line_partial : forall code b g q body, about code b g q body -> lined body ->
  (exists r, q = "!"%char :: r) \/
  (exists bg neg p t r, q = (bg ++ p :: "010"%char :: t) ++ r /\ bang bg neg /\ In p (lit "Pp")).
Proof. exact message_lines. Qed.
Print Assumptions c71_line_partial.
Example c71_line_ex : stderr_text "SSY P
;" = Some (1, "\[1min.txt:\[1m1:5: \[1;31merror:\[0m label \[1mP
\[0m not defined
") /\ stderr_text "NOP !;" = Some (1, "\[1min.txt:\[1m1:5: \[1;31merror:\[0m fatal: invalid usage of '!'

").
Proof. split; vm_compute; reflexivity. Qed.

(** C72: exit status. *)
Theorem c72_status : forall strict a args w st err w', (forall n data, files w n = Some data -> small data) ->
  cli_run strict a args w = Some (st, err, w') ->
  (st = 0 /\ err = [] /\ exists i o bin out, names args i o /\ little_endian bin out /\ files w' o = Some out /\ forall n, n <> o -> files w' n = files w n) \/
  (st = 1 /\ w' = w /\ exists p body, err = p ++ error_text body).
Proof. exact exit_status. Qed.
Print Assumptions c72_status.
Example c72_status_ex : (forall n data, files (folder (lit "NOP;")) n = Some data -> small data) /\
  (exists w', cli_run true true command (folder (lit "NOP;")) = Some (0, [], w')) /\
  (exists err, cli_run true true [lit "in.txt"] (folder (lit "NOP;")) = Some (1, err, folder (lit "NOP;")) /\ legible err = "\[1;31merror:\[0m no output file
").
Proof. split; [apply folder_small; vm_compute; reflexivity|]. split; eexists; [vm_compute; reflexivity|]. split; vm_compute; reflexivity. Qed.

(** C73: "expected" is not said of what is expected. *)
Theorem c73_words_refuted : exists code d b g q s l w r x, assemble true code = Fatal d /\ printf false (d_msg d) = Some (lit s) /\
  about code b g q (lit s) /\ In (s, l) astray_words /\ In x l /\ q = w ++ r /\ token_text w (TIdent (lit x)) r.
Proof.
  exists (lit "SUST.B R1;"). eexists. exists (lit "SUST"), [], (lit ".B R1;"), "expected .P or .B", [".P"; ".B"], (lit ".B"), (lit " R1;"), ".B".
  split; [vm_compute; reflexivity|]. split; [vm_compute; reflexivity|]. assert (T : token_text (lit ".B") (TIdent (lit ".B")) (lit " R1;")) by (apply token_decided; vm_compute; split; reflexivity).
  split; [|split; [cbn; tauto|split; [cbn; tauto|split; [reflexivity|exact T]]]]. split; [reflexivity|]. split.
  - exists [TIdent (lit "SUST")]. eapply (scan_cons _ (Token _ _ _)); [vm_compute; reflexivity|]. apply scan_nil.
  - split; [apply gap_blank; constructor|]. left. exists (lit ".B"), (TIdent (lit ".B")), (lit " R1;"). split; [reflexivity|]. split; [exact T|].
    eapply (says_sentence _ _ _ "expected .P or .B" any); [cbn; tauto|reflexivity].
Qed.
Print Assumptions c73_words_refuted.
Theorem c73_kinds_refuted : exists code d b g q s f w k r, assemble true code = Fatal d /\ printf false (d_msg d) = Some (lit s) /\
  about code b g q (lit s) /\ In (s, f) astray_kinds /\ q = w ++ r /\ token_text w k r /\ f k = true.
Proof.
  exists (lit ".num_gprs 5;"). eexists. exists (lit ".num_gprs"), (lit " "), (lit "5;"), "expected number of general purpose registers", number, (lit "5"), (TImm 5), (lit ";").
  split; [vm_compute; reflexivity|]. split; [vm_compute; reflexivity|]. assert (T : token_text (lit "5") (TImm 5) (lit ";")) by (apply token_decided; vm_compute; split; reflexivity).
  split; [|split; [cbn; tauto|split; [reflexivity|split; [exact T|reflexivity]]]]. split; [reflexivity|]. split.
  - exists [TIdent (lit ".num_gprs")]. eapply (scan_cons _ (Token _ _ _)); [vm_compute; reflexivity|]. apply scan_nil.
  - split; [apply gap_blank; repeat constructor|]. left. exists (lit "5"), (TImm 5), (lit ";"). split; [reflexivity|]. split; [exact T|].
    eapply (says_sentence _ _ _ "expected number of general purpose registers" number); [cbn; tauto|reflexivity].
Qed.
Print Assumptions c73_kinds_refuted.
(** Every sentence in the lists of exceptions is one. *)
Example c73_astray_ex :
  stderr_text "LDG.U.U8 R0, [R1];" = Some (1, "\[1min.txt:\[1m1:6: \[1;31merror:\[0m expected .U8, .S8, .U16, .S16, .32, .64, .128 or .U.128
") /\
  stderr_text "RED.F32.S32 [R1], R2;" = Some (1, "\[1min.txt:\[1m1:8: \[1;31merror:\[0m expected .U32, .S32, .U64, .S64, .F32.FTZ.RN, .F16x2.RN or .S64
") /\
  stderr_text "FADD32I R0, R1, - 1.5;" = Some (1, "\[1min.txt:\[1m1:19: \[1;31merror:\[0m expected floating-point literal, QNAN, or INF
").
Proof. repeat split; vm_compute; reflexivity. Qed.
Theorem c73_words_partial : forall code b g q s l w r x, about code b g q (lit s) -> In (s, l) named_words -> In x l -> q = w ++ r ->
  ~ token_text w (TIdent (lit x)) r.
Proof. exact words_expected. Qed.
Print Assumptions c73_words_partial.
Theorem c73_kinds_partial : forall code b g q s f w k r, about code b g q (lit s) -> In (s, f) named_kinds -> q = w ++ r -> token_text w k r -> f k = false.
Proof. exact kinds_expected. Qed.
Print Assumptions c73_kinds_partial.
Example c73_words_ex : exists b g q, about (lit "PSETP .NAND;") b g q (lit "expected .AND, .OR or .XOR") /\ In ("expected .AND, .OR or .XOR", [".AND"; ".OR"; ".XOR"]) named_words.
Proof.
  assert (A : exists d, assemble true (lit "PSETP .NAND;") = Fatal d /\ printf false (d_msg d) = Some (lit "expected .AND, .OR or .XOR") /\ d_pos d <> None).
  { eexists. split; [vm_compute; reflexivity|]. split; [vm_compute; reflexivity|discriminate]. }
  destruct A as (d & A & PR & PN). destruct (assemble_says true _ d A ltac:(vm_compute; intuition discriminate) ltac:(vm_compute; reflexivity)) as [(X & _)|(b & g & q & body & AB & _ & P & _)].
  - contradiction.
  - exists b, g, q. rewrite PR in P. injection P as <-. split; [exact AB|]. cbn. tauto.
Qed.
