(** * Properties3: how texts are read. *)
From Verif Require Import Base Float Lexer Operand Catalogue Table Parse Assemble Spec SpecInsn LexFacts SchedFuel Param Reach ParseFacts
  Outcomes Decode Program Modes Insn Position Literals SpecLex Lexemes Stream Cut Where Demo Text.
From Coq Require Import Lia.
Local Open Scope char_scope.
Local Open Scope list_scope.
Open Scope Z_scope.

Ltac char_out := intros (x & r & E & I); injection E as <- _; cbn in I; repeat (destruct I as [I|I]; [discriminate|]); contradiction.
Ltac sep_in := right; eexists _, _; split; [reflexivity|]; cbn; tauto.

Lemma label_x : forall q, ends q -> label_text ["x"; ":"] q.
Proof.
  intros q Q. split; [|split; [exists ["x"]; reflexivity|exact Q]]. left. exists "x", [":"]. split; [reflexivity|]. split.
  { constructor; [|constructor]. intros I. cbn in I. repeat (destruct I as [I|I]; [discriminate|]). contradiction. }
  do 3 (split; [intros I; cbn in I; repeat (destruct I as [I|I]; [discriminate|]); try contradiction; try discriminate|]).
  split; [intros I; cbn in I; repeat (destruct I as [I|I]; [discriminate|]); contradiction|]. split; [discriminate|].
  split; [|split; [|discriminate]].
  - intros b neg p t' [(-> & _)|(-> & _)] P E; cbn in E; [|discriminate]. injection E as <- _. destruct P as [P|[P|[]]]; discriminate.
  - intros i neg (b & p & x & E & [(-> & _)|(-> & _)] & P & _); cbn in E; [|discriminate]. injection E as <- _.
    destruct P as [P|[P|[]]]; discriminate.
Qed.

(** C28: integer literals.  A sign or a point right behind the digits belongs
    to the literal, although it separates other tokens. *)
Theorem c28_value_partial : forall g s v q, gap g (s ++ q) -> integer s v -> number_ends q ->
  reads (g ++ s ++ q) (TImm (saturate v)) q.
Proof. exact literal_value. Qed.
Print Assumptions c28_value_partial.
(** C58: the same statement, which is exact. *)
Theorem c58_value : forall g s v q, gap g (s ++ q) -> integer s v -> number_ends q ->
  reads (g ++ s ++ q) (TImm (saturate v)) q.
Proof. exact literal_value. Qed.
Print Assumptions c58_value.
Example c28_value_partial_ex : gap (lit " x: ") (lit "-0x1F" ++ lit ", R1;") /\ integer (lit "-0x1F") (-31) /\ number_ends (lit ", R1;").
Proof.
  assert (D : forall s v, denotes 16 s v -> forall ch d, digit 16 ch d -> forall w, w = 16 * v + d -> denotes 16 (s ++ [ch]) w).
  { intros s v H ch d G w ->. constructor; assumption. }
  split; [|split].
  - apply (gap_label [" "] ["x"; ":"] [" "]).
    + repeat constructor.
    + apply label_x. sep_in.
    + constructor. repeat constructor.
  - exists ["-"], true, (lit "0x1F"), 31. split; [reflexivity|]. split; [constructor|]. split; [|reflexivity].
    apply (hexadecimal_number "x" ["1"; "F"]); [cbn; auto| |discriminate].
    apply (D ["1"] 1) with (d := 15); [|split; [lia|right; reflexivity]|reflexivity].
    apply (D [] 0) with (d := 1); [constructor|split; [lia|left; reflexivity]|reflexivity].
  - split; [sep_in|char_out].
Qed.
Theorem c28_whole_partial : forall g l, gap g l -> number_start l -> ~ (exists d r, l = d :: "D" :: r /\ In d decimals) ->
  (exists s v q, l = s ++ q /\ integer s v /\ number_ends q /\ reads (g ++ l) (TImm (saturate v)) q) \/
  (exists s neg v k q, l = s ++ q /\ fraction s neg v k /\ ends q /\ reads (g ++ l) (TFloat (f32_of_ratio neg v (10 ^ k))) q) \/
  ((forall s v q, l = s ++ q -> integer s v -> ~ number_ends q) /\
   (forall s neg v k q, l = s ++ q -> fraction s neg v k -> ~ ends q) /\ rejects (g ++ l)).
Proof. exact literal_whole. Qed.
Print Assumptions c28_whole_partial.
(** C58: the same statement, which is exact. *)
Theorem c58_whole : forall g l, gap g l -> number_start l -> ~ (exists d r, l = d :: "D" :: r /\ In d decimals) ->
  (exists s v q, l = s ++ q /\ integer s v /\ number_ends q /\ reads (g ++ l) (TImm (saturate v)) q) \/
  (exists s neg v k q, l = s ++ q /\ fraction s neg v k /\ ends q /\ reads (g ++ l) (TFloat (f32_of_ratio neg v (10 ^ k))) q) \/
  ((forall s v q, l = s ++ q -> integer s v -> ~ number_ends q) /\
   (forall s neg v k q, l = s ++ q -> fraction s neg v k -> ~ ends q) /\ rejects (g ++ l)).
Proof. exact literal_whole. Qed.
Print Assumptions c58_whole.
Theorem c28_source : forall l z q, reads l (TImm z) q ->
  exists g s v, l = g ++ s ++ q /\ gap g (s ++ q) /\ integer s v /\ number_ends q /\ z = saturate v.
Proof. exact literal_source. Qed.
Print Assumptions c28_source.
Example c28_source_ex : reads (lit "017;") (TImm 15) (lit ";") /\ reads (lit "99999999999999999999;") (TImm 9223372036854775807) (lit ";") /\
  rejects (lit "12ab;").
Proof.
  split; [|split].
  - intros a b. eexists _, _. split; [vm_compute; reflexivity|]. split; reflexivity.
  - intros a b. eexists _, _. split; [vm_compute; reflexivity|]. split; reflexivity.
  - intros a b. eexists. split; [vm_compute; reflexivity|discriminate].
Qed.
Theorem c28_refuted : exists s v q, integer s v /\ ends q /\ rejects (s ++ q).
Proof.
  exists ["5"], 5, (lit "+3;"). split; [|split; [sep_in|]].
  - exists [], false, ["5"], 5. split; [reflexivity|]. split; [constructor|]. split; [|reflexivity].
    apply decimal_number; [|discriminate|char_out]. apply (denotes_snoc 10 [] 0 "5" 5); [constructor|]. split; [lia|left; reflexivity].
  - intros a b. eexists. split; [vm_compute; reflexivity|discriminate].
Qed.
Print Assumptions c28_refuted.

(** C29: registers and predicates. *)
Theorem c29_register_partial : forall g s n q, gap g ("R" :: s ++ q) -> denotes 10 s n -> s <> [] -> ends q ->
  (n <= 254 -> reads (g ++ "R" :: s ++ q) (TReg (Z.to_N n)) q) /\ (254 < n -> rejects (g ++ "R" :: s ++ q)).
Proof. exact register_value. Qed.
Print Assumptions c29_register_partial.
(** C59: the same statement, which is exact. *)
Theorem c59_register : forall g s n q, gap g ("R" :: s ++ q) -> denotes 10 s n -> s <> [] -> ends q ->
  (n <= 254 -> reads (g ++ "R" :: s ++ q) (TReg (Z.to_N n)) q) /\ (254 < n -> rejects (g ++ "R" :: s ++ q)).
Proof. exact register_value. Qed.
Print Assumptions c59_register.
Theorem c29_zero_partial : forall g q, gap g ("R" :: "Z" :: q) -> ends q -> reads (g ++ "R" :: "Z" :: q) (TReg 255) q.
Proof. exact register_zero. Qed.
Print Assumptions c29_zero_partial.
(** C59: the same statement, which is exact. *)
Theorem c59_zero : forall g q, gap g ("R" :: "Z" :: q) -> ends q -> reads (g ++ "R" :: "Z" :: q) (TReg 255) q.
Proof. exact register_zero. Qed.
Print Assumptions c59_zero.
Theorem c29_predicate_partial : forall g s i neg q, gap g (s ++ q) -> predicate_name s i neg -> ends q ->
  ((i <= 6)%N \/ ~ digit_name s -> reads (g ++ s ++ q) (TPred i neg) q) /\ (digit_name s -> (6 < i)%N -> rejects (g ++ s ++ q)).
Proof. exact predicate_value. Qed.
Print Assumptions c29_predicate_partial.
(** C59: the same statement, which is exact. *)
Theorem c59_predicate : forall g s i neg q, gap g (s ++ q) -> predicate_name s i neg -> ends q ->
  ((i <= 6)%N \/ ~ digit_name s -> reads (g ++ s ++ q) (TPred i neg) q) /\ (digit_name s -> (6 < i)%N -> rejects (g ++ s ++ q)).
Proof. exact predicate_value. Qed.
Print Assumptions c59_predicate.
Theorem c29_like_register_partial : forall g t q, gap g ("R" :: t ++ q) -> Forall inner t -> ~ begins ["Z"] t -> (exists x, In x t /\ ~ In x decimals) ->
  ~ colon_last ("R" :: t) -> ends q -> reads (g ++ "R" :: t ++ q) (TIdent ("R" :: t)) q.
Proof. exact register_like. Qed.
Print Assumptions c29_like_register_partial.
(** C59: the same statement, which is exact. *)
Theorem c59_like_register : forall g t q, gap g ("R" :: t ++ q) -> Forall inner t -> ~ begins ["Z"] t -> (exists x, In x t /\ ~ In x decimals) ->
  ~ colon_last ("R" :: t) -> ends q -> reads (g ++ "R" :: t ++ q) (TIdent ("R" :: t)) q.
Proof. exact register_like. Qed.
Print Assumptions c59_like_register.
Theorem c29_like_predicate_partial : forall g b neg p x t q, gap g (b ++ p :: x :: t ++ q) -> bang b neg -> In p ["P"; "p"] -> Forall inner (x :: t) ->
  t <> [] \/ ~ In x (["T"; "t"] ++ decimals) -> ~ colon_last (x :: t) -> ends q ->
  reads (g ++ b ++ p :: x :: t ++ q) (TIdent (b ++ p :: x :: t)) q.
Proof. exact predicate_like. Qed.
Print Assumptions c29_like_predicate_partial.
(** C59: the same statement, which is exact. *)
Theorem c59_like_predicate : forall g b neg p x t q, gap g (b ++ p :: x :: t ++ q) -> bang b neg -> In p ["P"; "p"] -> Forall inner (x :: t) ->
  t <> [] \/ ~ In x (["T"; "t"] ++ decimals) -> ~ colon_last (x :: t) -> ends q ->
  reads (g ++ b ++ p :: x :: t ++ q) (TIdent (b ++ p :: x :: t)) q.
Proof. exact predicate_like. Qed.
Print Assumptions c59_like_predicate.
Theorem c59_zero_longer : forall g q, gap g ("R" :: "Z" :: q) -> ~ ends q -> rejects (g ++ "R" :: "Z" :: q).
Proof. intros g q G N. apply rejects_iff. exists g, ("R" :: "Z" :: q). split; [reflexivity|]. split; [exact G|]. apply bad_zero_register. exact N. Qed.
Print Assumptions c59_zero_longer.
Example c29_ex : reads (lit "R017, x") (TReg 17) (lit ", x") /\ rejects (lit "R255;") /\ reads (lit "RZ.reuse") (TReg 255) (lit ".reuse") /\
  reads (lit "!P6;") (TPred 6 true) (lit ";") /\ reads (lit "PT,") (TPred 7 false) (lit ",") /\ rejects (lit "P7,") /\
  reads (lit "R2P PR") (TIdent (lit "R2P")) (lit " PR") /\ reads (lit "P2R R0") (TIdent (lit "P2R")) (lit " R0").
Proof.
  repeat match goal with |- _ /\ _ => split end; intros a b;
    first [eexists; split; [vm_compute; reflexivity|discriminate]
          |eexists _, _; split; [vm_compute; reflexivity|split; reflexivity]].
Qed.
(** A longer name that starts like the zero register is rejected. *)
Theorem c29_refuted : exists s q, Forall inner s /\ begins ["R"] s /\ ends q /\ (List.length s > 2)%nat /\ rejects (s ++ q).
Proof.
  exists (lit "RZX"), (lit ";"). split.
  { repeat constructor; intros I; cbn in I; repeat (destruct I as [I|I]; [discriminate|]); contradiction. }
  split; [eexists _, _; split; [reflexivity|cbn; auto]|]. split; [sep_in|]. split; [cbn; lia|].
  intros a b. eexists. split; [vm_compute; reflexivity|discriminate].
Qed.
Print Assumptions c29_refuted.

(** C30: white space. *)
Theorem c30_before : forall ws l a b a' b', all_blank ws -> same_stream false (Cursor (ws ++ l) a b) (Cursor l a' b').
Proof. exact blanks_skipped. Qed.
Print Assumptions c30_before.
Theorem c30_between : forall c p ws q a b, boundary c (Cursor q a b) -> rest c = p ++ q -> all_blank ws ->
  forall a' b', same_stream false c (Cursor (p ++ ws ++ q) a' b').
Proof. exact blanks_anywhere. Qed.
Print Assumptions c30_between.
Theorem c30_replaced : forall c p ws ws' q a b, boundary c (Cursor (ws ++ q) a b) -> rest c = p ++ ws ++ q ->
  all_blank ws -> all_blank ws' -> ws <> [] -> ws' <> [] -> forall a' b', same_stream false c (Cursor (p ++ ws' ++ q) a' b').
Proof. exact blanks_replaced. Qed.
Print Assumptions c30_replaced.
Example c30_between_ex : boundary (start (lit "MOV R0,R1;")) (Cursor (lit "R1;") 0 7) /\ lit "MOV R0,R1;" = lit "MOV R0," ++ lit "R1;" /\
  boundary (start (lit "MOV R0,R1;")) (Cursor (lit " " ++ lit "R0,R1;") 0 3).
Proof.
  split; [|split; [reflexivity|]].
  - exists [TIdent (lit "MOV"); TReg 0; TComma]. apply (kinds_scan 3). vm_compute. reflexivity.
  - exists [TIdent (lit "MOV")]. apply (kinds_scan 1). vm_compute. reflexivity.
Qed.
Theorem c30_program : forall a p ws q l c, boundary (start (p ++ q)) (Cursor q l c) -> all_blank ws -> plain (start (p ++ q)) ->
  relres (same_diag false) false same_labels (generate_labels (p ++ q)) (generate_labels (p ++ ws ++ q)) ->
  relres (same_diag false) false eq (assemble a (p ++ q)) (assemble a (p ++ ws ++ q)).
Proof. exact blanks_program. Qed.
Print Assumptions c30_program.
(** The first pass wants label definitions at the start of a line. *)
Theorem c30_label_lines : exists w d, assemble true (lit "x: BRA x;") = Ok w /\ assemble true (lit " x: BRA x;") = Fatal d.
Proof. eexists _, _. split; vm_compute; reflexivity. Qed.
Print Assumptions c30_label_lines.

(** C31: tokens decide.  Options end their line, so there lines matter. *)
Theorem c31_instruction_partial : forall ex ls1 ls2, (forall name, find_label ls1 name = find_label ls2 name) ->
  forall tbl a x1 x2 op, same_ctx ex x1 x2 -> ex = true \/ no_option (c_cur x1) ->
  relres (same_diag ex) false (same_result ex) (parse_instruction_with tbl a ls1 x1 op) (parse_instruction_with tbl a ls2 x2 op).
Proof. exact stream_instruction. Qed.
Print Assumptions c31_instruction_partial.
Theorem c31_program_partial : forall ex a code1 code2,
  same_stream ex (start code1) (start code2) -> ex = true \/ plain (start code1) ->
  relres (same_diag ex) false same_labels (generate_labels code1) (generate_labels code2) ->
  (a = true -> semis code1 = semis code2) ->
  relres (same_diag ex) false eq (assemble a code1) (assemble a code2).
Proof. exact stream_program. Qed.
Print Assumptions c31_program_partial.
Example c31_instruction_partial_ex : same_ctx false (ctx0 (lit "MOV R0,R1;")) (ctx0 (lit "x:  MOV R0 , R1;")) /\
  no_option (start (lit "MOV R0,R1;")).
Proof.
  split.
  - split; [|split; reflexivity]. cbn [ctx0 c_cur].
    apply same_stream_trans with (start (lit "MOV R0 ,R1;")).
    { apply (blanks_anywhere (start (lit "MOV R0,R1;")) (lit "MOV R0") [" "] (lit ",R1;") 0 6); [|reflexivity|repeat constructor].
      exists [TIdent (lit "MOV"); TReg 0]. apply (kinds_scan 2). vm_compute. reflexivity. }
    apply same_stream_trans with (start (lit "MOV R0 , R1;")).
    { apply (blanks_anywhere (start (lit "MOV R0 ,R1;")) (lit "MOV R0 ,") [" "] (lit "R1;") 0 8); [|reflexivity|repeat constructor].
      exists [TIdent (lit "MOV"); TReg 0; TComma]. apply (kinds_scan 3). vm_compute. reflexivity. }
    intros [|n]; [reflexivity|].
    assert (T1 : tokenize (start (lit "MOV R0 , R1;")) = Ok (Token (TIdent (lit "MOV")) 0 0, Cursor (lit " R0 , R1;") 0 3)) by (vm_compute; reflexivity).
    assert (T2 : tokenize (start (lit "x:  MOV R0 , R1;")) = Ok (Token (TIdent (lit "MOV")) 0 4, Cursor (lit " R0 , R1;") 0 7)) by (vm_compute; reflexivity).
    cbn [stream]. unfold start in T1, T2. rewrite T2. unfold start. rewrite T1. f_equal. apply same_rest_stream. apply same_rest_text. reflexivity.
  - intros t c' T. assert (E : tokenize (start (lit "MOV R0,R1;")) = Ok (Token (TIdent (lit "MOV")) 0 0, Cursor (lit " R0,R1;") 0 3)) by (vm_compute; reflexivity).
    rewrite E in T. injection T as <- _. reflexivity.
Qed.
Theorem c31_refuted : exists x1 x2 r d, same_ctx false x1 x2 /\
  parse_instruction true [] x1 opcode0 = Ok (Some r) /\ parse_instruction true [] x2 opcode0 = Fatal d.
Proof.
  exists (ctx0 (lit ".foo" ++ ["010"] ++ lit "NOP;")), (ctx0 (lit ".foo" ++ [" "] ++ lit "NOP;")). eexists _, _. split.
  - split; [|split; reflexivity]. cbn [ctx0 c_cur].
    apply (blanks_replaced (start (lit ".foo" ++ ["010"] ++ lit "NOP;")) (lit ".foo") ["010"] [" "] (lit "NOP;") 0 4);
      [|reflexivity|constructor; [cbn; tauto|constructor]|constructor; [cbn; tauto|constructor]|discriminate|discriminate].
    exists [TIdent (lit ".foo")]. apply (kinds_scan 1). vm_compute. reflexivity.
  - split; vm_compute; reflexivity.
Qed.
Print Assumptions c31_refuted.

(** C32: label definitions. *)
Theorem c32_one : forall ws w q a b a' b', all_blank ws -> name w -> colon_last w -> ends q ->
  same_stream false (Cursor (ws ++ w ++ q) a b) (Cursor q a' b').
Proof. exact labels_skipped. Qed.
Print Assumptions c32_one.
Theorem c32_many : forall g q a b a' b', gap g q -> same_stream false (Cursor (g ++ q) a b) (Cursor q a' b').
Proof. exact gap_skipped. Qed.
Print Assumptions c32_many.
Example c32_many_ex : gap (lit "x: x: ") (lit "NOP;").
Proof.
  apply (gap_label [] ["x"; ":"] (lit " x: ")); [constructor|apply label_x; sep_in|].
  apply (gap_label [" "] ["x"; ":"] [" "]); [repeat constructor|apply label_x; sep_in|]. constructor. repeat constructor.
Qed.

(** C35: where diagnostics point. *)
Theorem c35_where : forall a code d l c, assemble a code = Fatal d -> d_pos d = Some (l, c) ->
  exists b g q, code = b ++ g ++ q /\ l = newlines (b ++ g) /\ c = width (last_line (b ++ g)) /\
    boundary (Cursor code 0 0) (Cursor (g ++ q) (newlines b) (width (last_line b))) /\ gap g q /\ token_start q.
Proof. exact assemble_where. Qed.
Print Assumptions c35_where.
Example c35_where_ex : exists d, assemble true (lit "NOP;" ++ ["010"; "009"] ++ lit "MOV R0, 5x;") = Fatal d /\ d_pos d = Some (1, 12).
Proof. eexists. split; [vm_compute; reflexivity|reflexivity]. Qed.

(** C36: progress. *)
Theorem c36_progress : forall c t c', tokenize c = Ok (t, c') ->
  exists g s, rest c = g ++ s ++ rest c' /\ gap g (s ++ rest c') /\
    (kind t <> TNone -> s <> []) /\ (kind t = TNone -> s = [] /\ (rest c' = [] \/ begins [NUL] (rest c'))).
Proof. exact consumes. Qed.
Print Assumptions c36_progress.
Example c36_progress_ex : exists t c', tokenize (start (lit " x: NOP;")) = Ok (t, c') /\ kind t <> TNone /\ rest c' = lit ";".
Proof. eexists _, _. split; [vm_compute; reflexivity|]. split; [discriminate|reflexivity]. Qed.

(** C51: NUL. *)
Theorem c51_emitted : forall a p q w, ~ In NUL p -> readable (start p) -> assemble a (p ++ NUL :: q) = Ok w -> assemble a p = Ok w.
Proof. exact nul_ok. Qed.
Print Assumptions c51_emitted.
Theorem c51_same : forall a p q, ~ In NUL p -> readable (start p) -> ~ bare_last_line p ->
  (a = true -> semis q = O) -> assemble a (p ++ NUL :: q) = assemble a p.
Proof. exact nul_ends. Qed.
Print Assumptions c51_same.
Theorem c51_counted : forall p q w, ~ In NUL p -> readable (start p) -> ~ bare_last_line p ->
  semis q <> O -> assemble true p = Ok w -> exists why, assemble true (p ++ NUL :: q) = Abort why.
Proof. exact nul_counts. Qed.
Print Assumptions c51_counted.
Example c51_ex : exists p, p = lit "NOP; EXIT;" /\ ~ In NUL p /\ readable (start p) /\ ~ bare_last_line p /\
  (exists w, assemble true (p ++ NUL :: lit " not code") = Ok w) /\ semis (lit " not code") = O.
Proof.
  exists (lit "NOP; EXIT;"). split; [reflexivity|].
  assert (N : ~ In NUL (lit "NOP; EXIT;")) by (intros I; cbn in I; repeat (destruct I as [I|I]; [discriminate|]); contradiction).
  split; [exact N|]. split.
  { exists [TIdent (lit "NOP"); TSemi; TIdent (lit "EXIT"); TSemi]. eexists. apply (kinds_scan 5). vm_compute. reflexivity. }
  split.
  { destruct (generate_labels_spec _ N) as [(ls & _ & B & _)|(E & _)]; [exact B|]. vm_compute in E. discriminate. }
  split; [eexists; vm_compute; reflexivity|reflexivity].
Qed.
