(** * Reach: where the parser can be, and where its diagnostics point. *)
From Verif Require Import Base Float Lexer Operand Catalogue Table Parse LexFacts SchedFuel Param.
From Coq Require Import Lia.
Local Open Scope char_scope.
Open Scope Z_scope.

(** [at_token c0 d]: the position of [d] is one reached from [c0], and it is
    not a blank (it is where a token, or the end of the text, is). *)
Definition at_token (c0 : cursor) (d : diag) : Prop :=
  exists p cq, moves c0 p cq /\ d_pos d = Some (line cq, col cq) /\ is_blank (peek (rest cq)) = false.

Definition reached (c0 c : cursor) : Prop := exists p, moves c0 p c.
Lemma reached_trans : forall a b c, reached a b -> reached b c -> reached a c.
Proof. intros a b c (p & H) (q & K). exists (p ++ q). eapply moves_trans; eauto. Qed.

Lemma skip_blank_peek : forall c, is_blank (peek (rest (skipc is_blank c))) = false.
Proof.
  intros c. destruct (skipc_spec is_blank c) as (q & _ & _ & [-> | H]); [reflexivity|exact H].
Qed.

(** The position of tokens and of lexical errors. *)
Lemma lex_fatal : forall t c,
  (forall d, lex_predicate t c = Fatal d -> d_pos d = Some (t_line t, t_col t)) /\
  (forall d, lex_immediate t c = Fatal d -> d_pos d = Some (t_line t, t_col t)) /\
  (forall d, lex_register t c = Fatal d -> d_pos d = Some (t_line t, t_col t)).
Proof.
  assert (NX : forall c A (k : cursor -> res A) d, bind (next c) k = Fatal d -> exists c', next c = Ok c' /\ k c' = Fatal d).
  { intros c A k d H. destruct (next_cases c) as [(_ & E)|(ch & r & _ & E)]; rewrite E in *; [discriminate|eauto]. }
  intros t c. split; [|split]; intros d H.
  - unfold lex_predicate in H.
    assert (H1 : (exists c1, bind (next c1) (fun c2 : cursor =>
         let ch := peek (rest c2) in
         let is_true := is_contained "Tt" ch in
         let index := if is_true then Some 7%N
                      else if is_decimal ch then Some (N_of_ascii ch - 48)%N else None in
         match index with
         | Some i =>
             let* c3 := next c2 in
             (if is_separator (peek (rest c3))
              then if negb is_true && (6 <? i)%N then fatal_error t "out of range predicate"
                   else Ok (Some (TPred i (Ascii.eqb (peek (rest c)) "!")), c3)
              else Ok (None, c3))
         | None => Ok (None, c2)
         end) = Fatal d) \/ d_pos d = Some (t_line t, t_col t)).
    { destruct (Ascii.eqb (peek (rest c)) "!").
      - rewrite bind_assoc in H. apply NX in H as (c1 & _ & H).
        destruct (is_contained "Pp" (peek (rest c1))); [left; eauto|].
        right. cbn in H. injection H as <-. reflexivity.
      - left; eauto. }
    clear H. destruct H1 as [(c1 & H)|H]; [|exact H].
    apply NX in H as (c2 & _ & H). cbv zeta in H.
    match type of H with match ?x with _ => _ end = _ => destruct x; [|discriminate] end.
    apply NX in H as (c3 & _ & H).
    destruct (is_separator _); [|discriminate].
    destruct (_ && _); [|discriminate]. injection H as <-; reflexivity.
  - unfold lex_immediate in H. cbv zeta in H.
    set (c1 := skipc is_imm_char c) in *.
    destruct (Ascii.eqb (peek (rest c1)) ".").
    + destruct (existsb _ _); [injection H as <-; reflexivity|].
      rewrite bind_assoc in H. apply NX in H as (c2 & _ & H). cbn [bind] in H.
      destruct (negb _); [injection H as <-; reflexivity|].
      destruct (strtof _). destruct (negb _); [injection H as <-; reflexivity|discriminate].
    + cbn [bind] in H.
      destruct (negb _); [injection H as <-; reflexivity|].
      destruct (strtoll _ _). destruct (negb _); [injection H as <-; reflexivity|discriminate].
  - unfold lex_register in H. apply NX in H as (c1 & _ & H).
    destruct (Ascii.eqb _ _).
    + apply NX in H as (c2 & _ & H). destruct (negb _); [injection H as <-; reflexivity|discriminate].
    + cbv zeta in H. destruct (negb _); [discriminate|].
      destruct (strtoll _ _). destruct (negb _); [injection H as <-; reflexivity|].
      destruct (_ || _); [injection H as <-; reflexivity|discriminate].
Qed.

Lemma tokenize1_fatal : forall c d, tokenize1 c = Fatal d -> at_token c d.
Proof.
  intros c0 d H. unfold tokenize1 in H.
  destruct (skipc_spec is_blank c0) as (q & M0 & _).
  pose proof (skip_blank_peek c0) as B.
  set (c := skipc is_blank c0) in *. cbv zeta in H.
  assert (G : d_pos d = Some (line c, col c)); [|exists q, c; auto].
  destruct (Ascii.eqb _ NUL); [discriminate|].
  destruct (_ && _).
  { destruct (next_cases c) as [(_ & E)|(ch & r & _ & E)]; rewrite E in H; discriminate. }
  destruct (lex_fatal (Token TNone (line c) (col c)) c) as (F1 & F2 & F3). cbn [t_line t_col] in *.
  assert (P : forall c1, (forall d, lex_immediate (Token TNone (line c) (col c)) c1 = Fatal d -> d_pos d = Some (line c, col c)) /\
              (forall d, lex_register (Token TNone (line c) (col c)) c1 = Fatal d -> d_pos d = Some (line c, col c))).
  { intros c1. destruct (lex_fatal (Token TNone (line c) (col c)) c1) as (_ & G2 & G3). auto. }
  match type of H with bind ?m _ = _ => destruct m as [(pk, c1)|e|d'|w|u|] eqn:E1 end;
    cbn [bind] in H; try discriminate.
  2:{ injection H as <-. match type of E1 with (if ?b then _ else _) = _ => destruct b end; [apply F1; exact E1|discriminate]. }
  destruct pk; [discriminate|]. destruct (P c1) as (P2 & P3).
  destruct (_ && _).
  { destruct (lex_immediate _ c1) as [(k, c2)|e|d'|w|u|] eqn:E2; cbn [bind] in H; try discriminate.
    injection H as <-. auto. }
  match type of H with bind ?m _ = _ => destruct m as [(rk, c2)|e|d'|w|u|] eqn:E3 end;
    cbn [bind] in H; try discriminate.
  2:{ injection H as <-. match type of E3 with (if ?b then _ else _) = _ => destruct b end; [apply P3; exact E3|discriminate]. }
  destruct rk; [discriminate|].
  unfold lex_identifier in H.
  destruct (next_cases c2) as [(_ & E)|(ch & r & _ & E)]; rewrite E in H; cbn [bind] in H; try discriminate.
  cbv zeta in H. match type of H with (if ?b then _ else _) = _ => destruct b end; discriminate.
Qed.

Lemma at_token_reached : forall c c1 d, reached c c1 -> at_token c1 d -> at_token c d.
Proof.
  intros c c1 d (p & M) (q & cq & M' & E). exists (p ++ q), cq.
  split; [eapply moves_trans; eauto|exact E].
Qed.

(** A token read from [c]: the cursor is reached, and so is its position. *)
Lemma tokenize1_pos : forall c t c' m, tokenize1 c = Ok (Got t c') -> at_token c (diag_at t m).
Proof.
  intros c0 t c' m H. unfold tokenize1 in H.
  destruct (skipc_spec is_blank c0) as (q & M0 & _).
  pose proof (skip_blank_peek c0) as B.
  set (c := skipc is_blank c0) in *. cbv zeta in H.
  assert (G : t_line t = line c /\ t_col t = col c).
  { destruct (Ascii.eqb _ NUL); [injection H as <- <-; auto|].
    destruct (_ && _).
    { inv_bind H. injection H as <- _; auto. }
    inv_bind H. destruct x as (pk, c1). destruct pk; [injection H as <- _; auto|].
    destruct (_ && _).
    { inv_bind H. destruct x. injection H as <- _; auto. }
    inv_bind H. destruct x as (rk, c2). destruct rk; [injection H as <- _; auto|].
    unfold lex_identifier in H. inv_bind H. cbv zeta in H.
    match type of H with (if ?b then _ else _) = _ => destruct b end; [discriminate|]. injection H as <- _; auto. }
  destruct G as (G1 & G2). exists q, c. split; [exact M0|]. cbn. rewrite G1, G2. auto.
Qed.

Lemma tokenize_reach : forall c,
  (forall t c', tokenize c = Ok (t, c') -> reached c c' /\ forall m, at_token c (diag_at t m)) /\
  (forall d, tokenize c = Fatal d -> at_token c d).
Proof.
  assert (G : forall n c, (len c < n)%nat ->
    (forall t c', tokenize c = Ok (t, c') -> reached c c' /\ forall m, at_token c (diag_at t m)) /\
    (forall d, tokenize c = Fatal d -> at_token c d)).
  { induction n as [|n IH]; intros c Hn; [lia|].
    rewrite tokenize_step.
    pose proof (tokenize1_spec c) as P. pose proof (tokenize1_fatal c) as F.
    pose proof (tokenize1_pos c) as Q.
    destruct (tokenize1 c) as [r|e|d|w|u|]; cbn [bind]; try (split; discriminate).
    2:{ split; [discriminate|]. intros d' [= <-]. auto. }
    specialize (P _ eq_refl). destruct r as [t c1|c1].
    - split; [|discriminate]. intros t' c' [= <- <-]. split.
      + destruct P as (q & cq & b & M1 & M2 & _). exists (q ++ b). eapply moves_trans; eauto.
      + intros m; eapply Q; eauto.
    - destruct P as (p & M & Np).
      destruct (IH c1) as (I1 & I2).
      { apply moves_length in M. unfold len in *. destruct p; [congruence|]. cbn in M. lia. }
      assert (RR : reached c c1) by (exists p; exact M).
      split.
      + intros t c' H. apply I1 in H as (H1 & H2). split; [eapply reached_trans; eauto|].
        intros m. eapply at_token_reached; eauto.
      + intros d H. eapply at_token_reached; eauto. }
  intros c; apply (G (S (len c))); lia.
Qed.

(** The tokenizer has no other outcomes. *)
Definition lexical {A} (m : res A) : Prop :=
  match m with
  | Ok _ | Fatal _ => True
  | Undef u => u = UB_read_past_nul
  | _ => False
  end.
Lemma lexical_bind : forall A B (m : res A) (k : A -> res B),
  lexical m -> (forall a, lexical (k a)) -> lexical (bind m k).
Proof. intros A B [] k H K; cbn in *; auto. Qed.

Lemma tokenize1_outcomes : forall c, lexical (tokenize1 c).
Proof.
  assert (NX : forall c, lexical (next c)).
  { intros c. destruct (next_cases c) as [(_ & ->)|(ch & r & _ & ->)]; cbn; auto. }
  intros c0. unfold tokenize1. set (c := skipc is_blank c0). cbv zeta.
  unfold lex_predicate, lex_immediate, lex_register, lex_identifier.
  repeat match goal with
  | |- lexical (bind _ _) => apply lexical_bind; [|intros]
  | |- lexical (next _) => apply NX
  | |- lexical (Ok _) => exact I
  | |- lexical (fatal_error _ _) => exact I
  | x : (_ * _)%type |- _ => destruct x
  | |- lexical (if ?b then _ else _) => destruct b
  | |- lexical (match ?b with _ => _ end) => destruct b
  | |- lexical (let '(_, _) := ?x in _) => destruct x
  end.
Qed.

Lemma tokenize_outcomes : forall c, lexical (tokenize c).
Proof.
  assert (G : forall n c, (len c < n)%nat -> lexical (tokenize c)).
  { induction n as [|n IH]; intros c Hn; [lia|].
    rewrite tokenize_step. pose proof (tokenize1_outcomes c) as O. pose proof (tokenize1_spec c) as P.
    destruct (tokenize1 c) as [r|e|d|w|u|]; cbn [bind]; try contradiction; auto.
    specialize (P _ eq_refl). destruct r as [t c1|c1]; [exact I|].
    destruct P as (p & M & Np). apply IH. apply moves_length in M. unfold len in *.
    destruct p; [congruence|]. cbn in M. lia. }
  intros c; apply (G (S (len c))); lia.
Qed.

(** ** The parser *)

Section Inv.
  Variable c0 : cursor.
  Definition IC0 (c1 c2 : cursor) : Prop := c1 = c2 /\ reached c0 c1.
  Definition IC (c1 : cursor) (t1 : token) (c2 : cursor) (t2 : token) : Prop :=
    c1 = c2 /\ t1 = t2 /\ exists c, reached c0 c /\ tokenize c = Ok (t1, c1).
  Definition ID (d1 d2 : diag) : Prop := d1 = d2 /\ at_token c0 d1.

  Lemma IC_IC0 : forall c1 t1 c2 t2, IC c1 t1 c2 t2 -> IC0 c1 c2.
  Proof.
    intros c1 t1 c2 t2 (<- & <- & c & R & T). split; auto.
    apply tokenize_reach in T as (T & _). eapply reached_trans; eauto.
  Qed.
  Lemma IC_kind : forall c1 t1 c2 t2, IC c1 t1 c2 t2 -> kind t1 = kind t2.
  Proof. intros c1 t1 c2 t2 (_ & <- & _); reflexivity. Qed.
  Lemma IC_diag : forall c1 t1 c2 t2 m, IC c1 t1 c2 t2 -> ID (diag_at t1 m) (diag_at t2 m).
  Proof.
    intros c1 t1 c2 t2 m (_ & <- & c & R & T). split; auto.
    apply tokenize_reach in T as (_ & T). eapply at_token_reached; eauto.
  Qed.
  Lemma IC_tokenize : forall c1 c2, IC0 c1 c2 ->
    relres ID false (RT IC) (tokenize c1) (tokenize c2).
  Proof.
    intros c1 c2 (<- & R). destruct (tokenize_reach c1) as (_ & T).
    pose proof (tokenize_outcomes c1) as O.
    destruct (tokenize c1) as [(t, c)|e|d|w|u|] eqn:E; cbn; auto; try contradiction.
    - split; [reflexivity|split; [reflexivity|]]. exists c1; auto.
    - split; [reflexivity|]. eapply at_token_reached; eauto.
  Qed.

  Lemma insn_inv : forall e i c op, reached c0 c ->
    relres ID false (RA IC ID) (parse_insn e i c op) (parse_insn e i c op).
  Proof.
    intros e i c op R. apply (sim_insn IC0 IC ID false); auto using IC_tokenize.
    - intros c1 t1 c2 t2 X _. exact (IC_IC0 _ _ _ _ X).
    - exact IC_kind.
    - exact IC_diag.
    - apply fits_all; [exact IC_IC0|reflexivity].
    - split; auto.
  Qed.
  Lemma table_inv : forall e tbl t c op, reached c0 c -> (forall m, at_token c0 (diag_at t m)) ->
    relres ID false (RS IC) (parse_table e tbl t c op None) (parse_table e tbl t c op None).
  Proof.
    intros e tbl t c op R T. apply (sim_table IC0 IC ID false); auto using IC_tokenize.
    - intros c1 t1 c2 t2 X _. exact (IC_IC0 _ _ _ _ X).
    - exact IC_kind.
    - exact IC_diag.
    - intros i _ _. apply fits_all; [exact IC_IC0|reflexivity].
    - intros m; split; auto.
    - split; auto.
    - exact I.
  Qed.
End Inv.
