(** * Where: diagnostics point at tokens. *)
From Verif Require Import Base Float Lexer Operand Catalogue Table Parse Assemble Spec LexFacts SchedFuel Param Reach ParseFacts
  Outcomes Decode Program SpecInsn Insn SpecLex Lexemes.
From Coq Require Import Lia.
Local Open Scope char_scope.
Local Open Scope list_scope.
Open Scope Z_scope.

(** [c] is reached from [c0] by reading whole tokens. *)
Definition boundary (c0 c : cursor) : Prop := exists ks, scan c0 ks c.
(** The position of [d] is that of the token, or of the text that is none,
    found behind a gap from a boundary. *)
Definition starts (c0 : cursor) (d : diag) : Prop :=
  exists c g cs, boundary c0 c /\ moves c g cs /\ gap g (rest cs) /\ token_start (rest cs) /\ d_pos d = Some (line cs, col cs).

Lemma boundary_refl : forall c, boundary c c.
Proof. intros c. exists []. constructor. Qed.
Lemma boundary_next : forall c0 c t c', boundary c0 c -> tokenize c = Ok (t, c') -> boundary c0 c'.
Proof.
  intros c0 c t c' (ks & S) T. exists (ks ++ [kind t]). induction S as [c|c t1 c1 ks cc T1 S IH]; cbn [app]; econstructor; eauto using scan.
Qed.
Lemma boundary_trans : forall a b c, boundary a b -> boundary b c -> boundary a c.
Proof.
  intros a b c (ks & S) (ks' & S'). exists (ks ++ ks'). induction S as [x|x t1 c1 ks cc T1 S IH]; cbn [app]; [exact S'|]. econstructor; eauto.
Qed.
Lemma boundary_moves : forall c0 c, boundary c0 c -> exists p, moves c0 p c.
Proof.
  intros c0 c (ks & S). induction S as [x|x t1 c1 ks cc T1 S (p & IH)]; [exists []; apply moves_refl|].
  apply tokenize_spec in T1 as (q & cq & b & M1 & M2 & _). exists ((q ++ b) ++ p). eapply moves_trans; [eapply moves_trans; eassumption|exact IH].
Qed.
Lemma token_starts : forall c0 c t c' m, boundary c0 c -> tokenize c = Ok (t, c') -> starts c0 (diag_at t m).
Proof.
  intros c0 c t c' m B T. apply tokenize_iff in T as (g & s & cs & M & GP & M2 & TT & L & C). exists c, g, cs.
  split; [exact B|]. split; [exact M|]. split; [exact GP|]. split; [left; exists s, (kind t), (rest c'); split; [apply M2|exact TT]|].
  cbn. rewrite L, C. reflexivity.
Qed.
Lemma fatal_starts : forall c0 c d, boundary c0 c -> tokenize c = Fatal d -> starts c0 d.
Proof.
  intros c0 c d B T. apply tokenize_fatal_at in T as (g & cs & M & GP & BT & P). exists c, g, cs. repeat split; auto; try apply M. right. exact BT.
Qed.

(** The outcomes of a step: [P] on success, a good position on failure. *)
Definition located (c0 : cursor) {A} (P : A -> Prop) (m : res A) : Prop :=
  match m with Ok a => P a | Err d | Fatal d => starts c0 d | _ => True end.
Lemma located_bind : forall c0 A B (P : A -> Prop) (Q : B -> Prop) (m : res A) (k : A -> res B),
  located c0 P m -> (forall a, P a -> located c0 Q (k a)) -> located c0 Q (bind m k).
Proof. intros c0 A B P Q [] k H K; cbn in *; auto. Qed.
(** A token just read. *)
Definition fresh_token (c0 : cursor) (t : token) (c : cursor) : Prop := boundary c0 c /\ forall m, starts c0 (diag_at t m).
Lemma located_tokenize : forall c0 c, boundary c0 c -> located c0 (fun x => fresh_token c0 (fst x) (snd x)) (tokenize c).
Proof.
  intros c0 c B. destruct (tokenize c) as [(t, c')|d|d| | |] eqn:T; cbn; auto.
  - split; [eapply boundary_next; eassumption|intros m; eapply token_starts; eassumption].
  - pose proof (tokenize_outcomes c) as O. rewrite T in O. contradiction.
  - eapply fatal_starts; eassumption.
Qed.

Section Inv.
  Variable c0 : cursor.
  Definition WC0 (c1 c2 : cursor) : Prop := c1 = c2 /\ boundary c0 c1.
  Definition WC (c1 : cursor) (t1 : token) (c2 : cursor) (t2 : token) : Prop := c1 = c2 /\ t1 = t2 /\ fresh_token c0 t1 c1.
  Definition WD (d1 d2 : diag) : Prop := d1 = d2 /\ starts c0 d1.
  Lemma WC_tokenize : forall c1 c2, WC0 c1 c2 -> relres WD false (RT WC) (tokenize c1) (tokenize c2).
  Proof.
    intros c1 c2 (<- & B). pose proof (located_tokenize c0 c1 B) as L. pose proof (tokenize_outcomes c1) as O.
    destruct (tokenize c1) as [(t, c)|e|d|w|u|] eqn:E; cbn in *; auto; try contradiction.
    - split; [reflexivity|]. split; [reflexivity|exact L].
    - split; [reflexivity|exact L].
  Qed.
  Lemma table_where : forall e tbl t c op, fresh_token c0 t c ->
    located c0 (fun s => boundary c0 (s_cur s)) (parse_table e tbl t c op None).
  Proof.
    intros e tbl t c op (B & T).
    assert (H : relres WD false (RS WC) (parse_table e tbl t c op None) (parse_table e tbl t c op None)).
    { apply (sim_table WC0 WC WD false); auto using WC_tokenize.
      - intros c1 t1 c2 t2 (<- & _ & (X & _)) _. split; [reflexivity|exact X].
      - intros c1 t1 c2 t2 (_ & <- & _). reflexivity.
      - intros c1 t1 c2 t2 m (_ & <- & (_ & X)). split; [reflexivity|apply X].
      - intros i _ _. apply fits_all; [|reflexivity]. intros c1 t1 c2 t2 (<- & _ & (X & _)). split; [reflexivity|exact X].
      - intros m. split; [reflexivity|apply T].
      - split; [reflexivity|exact B].
      - exact I. }
    destruct (parse_table e tbl t c op None); cbn in *; auto; try apply H.
  Qed.

  Lemma option_int_where : forall c m, boundary c0 c -> located c0 (fun x => fresh_token c0 (snd (fst x)) (snd x)) (option_int c m).
  Proof.
    intros c m B. unfold option_int. eapply located_bind; [apply located_tokenize, B|]. intros (t, c') F. cbn [fst snd] in F.
    destruct (kind t); cbn; apply F.
  Qed.
  Lemma check_where : forall l t c, fresh_token c0 t c -> located c0 (fun _ => True) (check_option_line l t).
  Proof. intros l t c F. unfold check_option_line. destruct (_ =? _); cbn; [exact I|apply F]. Qed.
  Lemma parse_type_where : forall l t c o, fresh_token c0 t c -> located c0 (fun x => fresh_token c0 (fst (fst x)) (snd (fst x))) (parse_type l t c o).
  Proof.
    intros l t c o F. unfold parse_type. destruct (o_type o); [cbn; apply F|]. eapply located_bind; [apply located_tokenize, F|].
    intros (t1, c1) F1. cbn [fst snd] in F1. eapply located_bind; [eapply check_where; exact F1|]. intros _ _.
    destruct (program_type t1); cbn; [exact F1|]. destruct (string_is_active _); cbn; [apply F1|exact I].
  Qed.
  Lemma option_where : forall t c o, fresh_token c0 t c -> located c0 (fun x => fresh_token c0 (fst (fst x)) (snd (fst x))) (parse_option t c o).
  Proof.
    intros t c o F. unfold parse_option. apply (located_bind _ _ _ (fun x => fresh_token c0 (fst (fst x)) (snd (fst x)))).
    - destruct (equal t ".dksh"); [apply parse_type_where, F|]. destruct (equal t ".type"); [apply parse_type_where, F|].
      destruct (equal t ".num_gprs").
      { eapply located_bind; [apply located_tokenize, F|]. intros (t1, c1) F1. destruct (kind t1); cbn; try exact I. apply F1. }
      destruct (equal t ".workgroup_size").
      { eapply located_bind; [apply option_int_where, F|]. intros ((z1, t1), c1) F1. cbn [fst snd] in F1.
        eapply located_bind; [apply option_int_where, F1|]. intros ((z2, t2), c2) F2. cbn [fst snd] in F2.
        eapply located_bind; [apply option_int_where, F2|]. intros ((z3, t3), c3) F3. cbn [fst snd] in F3.
        eapply located_bind; [eapply check_where; exact F3|]. intros _ _. cbn. exact F3. }
      destruct (equal t ".shared_memory").
      { eapply located_bind; [apply option_int_where, F|]. intros ((z1, t1), c1) F1. cbn [fst snd] in F1. cbn. exact F1. }
      destruct (equal t ".local_memory").
      { eapply located_bind; [apply option_int_where, F|]. intros ((z1, t1), c1) F1. cbn [fst snd] in F1. cbn. exact F1. }
      cbn. exact F.
    - intros ((t1, c1), o1) F1. cbn [fst snd] in F1. eapply located_bind; [apply located_tokenize, F1|]. intros (t2, c2) F2. cbn [fst snd] in F2.
      destruct (_ =? _); cbn; [apply F2|exact F2].
  Qed.
  Lemma options_where : forall n t c o, fresh_token c0 t c -> located c0 (fun x => fresh_token c0 (fst (fst x)) (snd (fst x))) (parse_options n t c o).
  Proof.
    induction n as [|n IH]; intros t c o F; [exact I|]. cbn [parse_options]. destruct (is_option t); [|exact F].
    eapply located_bind; [apply option_where, F|]. intros ((t1, c1), o1) F1. apply IH, F1.
  Qed.
  Lemma instruction_where : forall tbl a ls x op, boundary c0 (c_cur x) ->
    located c0 (fun r => match r with Some (x', _) => boundary c0 (c_cur x') | None => True end) (parse_instruction_with tbl a ls x op).
  Proof.
    intros tbl a ls x op B. rewrite parse_instruction_eq. eapply located_bind; [apply located_tokenize, B|]. intros (t, c) F. cbn [fst snd] in F.
    destruct (ttype_eqb _ _); [exact I|]. unfold rest_of_instruction. eapply located_bind; [apply options_where, F|].
    intros ((t1, c1), o) F1. cbn [fst snd] in F1.
    apply (located_bind _ _ _ (fun x => fresh_token c0 (fst (fst x)) (snd (fst x)))).
    - destruct (ttype_eqb _ _).
      + eapply located_bind; [apply located_tokenize, F1|]. intros (t2, c2) F2. cbn [fst snd] in F2.
        apply (located_bind _ _ _ (fun _ => True)).
        * unfold assemble_predicate. destruct (kind t2); try (cbn; apply F2). destruct (_ && _); [cbn; apply F2|]. unfold add_bits. destruct (_ && _); cbn; exact I.
        * intros op1 _. eapply located_bind; [apply located_tokenize, F2|]. intros (t3, c3) F3. exact F3.
      + apply (located_bind _ _ _ (fun _ => True)); [unfold add_bits; destruct (_ && _); cbn; exact I|]. intros op1 _. exact F1.
    - intros ((t2, c2), op1) F2. cbn [fst snd] in F2. destruct (kind t2); try (cbn; apply F2).
      eapply located_bind; [apply table_where, F2|]. intros st HS. exact HS.
  Qed.
  Lemma decode_where : forall n a ls max idx x acc, boundary c0 (c_cur x) -> located c0 (fun _ => True) (decode_loop n a ls max idx x acc).
  Proof.
    induction n as [|n IH]; intros a ls max idx x acc B; [exact I|]. cbn [decode_loop]. destruct (Nat.leb _ _); [exact I|].
    eapply located_bind; [apply (instruction_where table), B|]. intros [(x', op)|] HB; [apply IH, HB|]. destruct (_ && _); exact I.
  Qed.
End Inv.

(** Newlines and columns, counted independently. *)
Definition newlines (p : text) : Z := Z.of_nat (List.length (filter (Ascii.eqb "010") p)).
(** The text behind the last newline. *)
Fixpoint last_line (p : text) : text :=
  match p with
  | [] => []
  | ch :: p' => if existsb (Ascii.eqb "010") p' then last_line p' else if Ascii.eqb ch "010" then p' else ch :: p'
  end.
Definition width (p : text) : Z := fold_right (fun ch n => (if Ascii.eqb ch "009" then 4 else 1) + n) 0 p.
Lemma lines_newlines : forall p l, lines p l = l + newlines p.
Proof.
  induction p as [|ch p IH]; intros l; [cbn; lia|]. cbn [lines]. rewrite IH. unfold newlines, adv_line. change LF with "010"%char. cbn [filter].
  rewrite (Ascii.eqb_sym "010" ch). destruct (Ascii.eqb ch "010"); cbn [List.length]; lia.
Qed.
Lemma cols_width : forall p o, cols p o = if existsb (Ascii.eqb "010") p then width (last_line p) else o + width p.
Proof.
  induction p as [|ch p IH]; intros o; [cbn; lia|]. cbn [cols existsb last_line]. rewrite IH. unfold adv_col. change LF with "010"%char. change TAB with "009"%char.
  rewrite (Ascii.eqb_sym "010" ch). destruct (existsb (Ascii.eqb "010") p) eqn:E; [rewrite orb_true_r; reflexivity|]. rewrite orb_false_r.
  destruct (Ascii.eqb_spec ch "010") as [->|N].
  - cbn. lia.
  - cbn [width fold_right]. destruct (Ascii.eqb ch "009"); fold (width p); lia.
Qed.
Lemma last_line_none : forall p, existsb (Ascii.eqb "010") p = false -> last_line p = p.
Proof.
  intros [|ch p] H; [reflexivity|]. cbn [existsb last_line] in *. apply orb_false_iff in H as (H1 & H2). rewrite H2, Ascii.eqb_sym, H1. reflexivity.
Qed.
Lemma cols_last : forall p, cols p 0 = width (last_line p).
Proof. intros p. rewrite cols_width. destruct (existsb _ p) eqn:E; [reflexivity|]. rewrite (last_line_none _ E). reflexivity. Qed.

(** The checks of the container are about the whole program. *)
Lemma dksh_where : forall ls o n d, write_dksh ls o n = Fatal d -> d_pos d = None.
Proof.
  intros ls o n d H. unfold write_dksh, fatal_plain in H. destruct (o_type o) as [ty|]; [|injection H as <-; reflexivity].
  destruct (find_label ls _) as [e|]; [|injection H as <-; reflexivity]. destruct (negb _); [injection H as <-; reflexivity|].
  unfold scratch_size in H. destruct (_ || _ || _); cbn [bind] in H; [discriminate|]. destruct (o_dims o) as [[? ?] ?]. discriminate.
Qed.
Lemma binary_where : forall ls o code d, binary ls o code = Fatal d -> d_pos d = None.
Proof.
  intros ls o code d H. unfold binary in H. cbv zeta in H.
  match type of H with context [if o_dksh o then write_dksh ls o ?k else _] => set (n := k) in H end.
  destruct (o_dksh o).
  - destruct (write_dksh ls o n) as [hd|e|d'|w|u|] eqn:W; cbn [bind] in H; try discriminate.
    + destruct (match o_type o with Some _ => _ | None => _ end); [|discriminate]. injection H as <-. reflexivity.
    + injection H as <-. eapply dksh_where, W.
  - cbn [bind] in H. destruct (match o_type o with Some _ => _ | None => _ end); [|discriminate]. injection H as <-. reflexivity.
Qed.

(** Where a rejected program is reported. *)
Theorem assemble_where : forall a code d l c, assemble a code = Fatal d -> d_pos d = Some (l, c) ->
  exists b g q, code = b ++ g ++ q /\ l = newlines (b ++ g) /\ c = width (last_line (b ++ g)) /\
    boundary (Cursor code 0 0) (Cursor (g ++ q) (newlines b) (width (last_line b))) /\ gap g q /\ token_start q.
Proof.
  intros a code d l c H P. unfold assemble in H. destruct (generate_labels code) as [ls| | | | |] eqn:G; cbn [bind] in H; try discriminate.
  2:{ pose proof (generate_labels_outcomes code) as O. rewrite G in O. contradiction. }
  pose proof (decode_where (Cursor code 0 0) (S (S (List.length code))) a ls (S (count_semi code)) 0 (Ctx (Cursor code 0 0) 0 options0) [] (boundary_refl _)) as W.
  destruct (decode_loop _ a ls _ _ _ _) as [(o, ops)| |d'| | |]; cbn [bind] in H; try discriminate.
  - apply binary_where in H. rewrite P in H. discriminate.
  - injection H as <-. destruct W as (cb & g & cs & B & M & GP & T & E). rewrite P in E. injection E as -> ->.
    destruct (boundary_moves _ _ B) as (b & MB). exists b, g, (rest cs). pose proof (moves_trans _ _ _ _ _ MB M) as MM.
    destruct MM as (R & L & C). cbn [rest line col] in *. split; [rewrite R, <- app_assoc; reflexivity|].
    rewrite L, lines_newlines, C, cols_last. split; [reflexivity|]. split; [reflexivity|]. split; [|split; assumption].
    destruct cb as [rb lb ob]. destruct MB as (R1 & L1 & C1). cbn [rest line col] in *. rewrite lines_newlines in L1. rewrite cols_last in C1.
    destruct M as (M & _). cbn [rest] in M. rewrite <- M, <- C1. replace (newlines b) with lb by (rewrite L1; lia). exact B.
Qed.
