(** * Position: the tokenizer looks at characters only, never at positions. *)
From Verif Require Import Base Float Lexer Operand Catalogue Table Parse LexFacts SchedFuel Param Reach.
From Coq Require Import Lia.
Local Open Scope char_scope.
Local Open Scope list_scope.
Open Scope Z_scope.

(** Diagnostics that differ in their position only. *)
Definition same_msg (d1 d2 : diag) : Prop := d_msg d1 = d_msg d2.
(** Cursors at the same text, wherever it stands. *)
Definition same_rest (c1 c2 : cursor) : Prop := rest c1 = rest c2.
(** Cursors whose texts are the same after leading blanks. *)
Definition same_text (c1 c2 : cursor) : Prop := rest (skipc is_blank c1) = rest (skipc is_blank c2).

Lemma skip_while_rest : forall p l a b a' b', rest (skip_while p l a b) = rest (skip_while p l a' b').
Proof. intros p. induction l as [|ch l IH]; intros; cbn [skip_while]; [reflexivity|]. destruct (p ch); [apply IH|reflexivity]. Qed.
Lemma skipc_rest : forall p c1 c2, same_rest c1 c2 -> same_rest (skipc p c1) (skipc p c2).
Proof. intros p c1 c2 H. unfold same_rest, skipc in *. rewrite H. apply skip_while_rest. Qed.
Lemma same_rest_text : forall c1 c2, same_rest c1 c2 -> same_text c1 c2.
Proof. intros c1 c2 H. apply (skipc_rest _ _ _ H). Qed.
Lemma skip_blanks : forall ws l a b a' b', forallb is_blank ws = true ->
  rest (skip_while is_blank (ws ++ l) a b) = rest (skip_while is_blank l a' b').
Proof.
  induction ws as [|ch ws IH]; intros l a b a' b' H; cbn [app skip_while].
  - apply skip_while_rest.
  - cbn [forallb] in H. apply andb_true_iff in H as (-> & H). apply IH. exact H.
Qed.

Notation rel := (relres same_msg false).
Lemma next_rest : forall c1 c2, same_rest c1 c2 -> rel same_rest (next c1) (next c2).
Proof. intros [l1 a1 b1] [l2 a2 b2] H. unfold same_rest, next in *. cbn in *. subst. destruct l2; cbn; reflexivity. Qed.

Definition same_fst {A} (x y : A * cursor) : Prop := fst x = fst y /\ same_rest (snd x) (snd y).
Definition same_lexed (x y : lexed) : Prop :=
  match x, y with
  | Got t1 c1, Got t2 c2 => kind t1 = kind t2 /\ same_rest c1 c2
  | Skip c1, Skip c2 => same_rest c1 c2
  | _, _ => False
  end.
Lemma between_rest : forall a1 a2 b1 b2, same_rest a1 a2 -> same_rest b1 b2 -> between a1 b1 = between a2 b2.
Proof. intros a1 a2 b1 b2 H1 H2. unfold between. rewrite H1, H2. reflexivity. Qed.

Ltac here_rest :=
  repeat match goal with
  | H : same_rest ?a ?b |- context [peek (rest ?b)] => rewrite <- H
  | H : same_rest ?a ?b |- context [peek1 (rest ?b)] => rewrite <- H
  end.
Ltac rel1 :=
  lazymatch goal with
  | |- relres _ _ _ (bind (next _) _) (bind (next _) _) =>
      eapply relres_bind; [apply next_rest; assumption|intros ? ? ?; here_rest]
  | |- relres _ _ _ (Ok _) (Ok _) => cbn [relres]; first [split; [reflexivity|assumption] | assumption]
  | |- relres _ _ _ (fatal_error _ _) (fatal_error _ _) => reflexivity
  | |- relres _ _ _ (if ?b then _ else _) (if ?b then _ else _) => destruct b
  | |- relres _ _ _ (match ?b with _ => _ end) (match ?b with _ => _ end) => destruct b
  end.

Lemma predicate_rest : forall t1 t2 c1 c2, same_rest c1 c2 -> rel same_fst (lex_predicate t1 c1) (lex_predicate t2 c2).
Proof.
  intros t1 t2 c1 c2 H. unfold lex_predicate. here_rest. apply (relres_bind _ _ _ _ _ _ same_rest).
  - destruct (Ascii.eqb _ "!"); [|exact H]. repeat rel1.
  - intros a b HR. repeat rel1.
Qed.
Lemma immediate_rest : forall t1 t2 c1 c2, same_rest c1 c2 -> rel same_fst (lex_immediate t1 c1) (lex_immediate t2 c2).
Proof.
  intros t1 t2 c1 c2 H. unfold lex_immediate. pose proof (skipc_rest is_imm_char _ _ H) as H1.
  rewrite (between_rest _ _ _ _ H H1). here_rest.
  apply (relres_bind _ _ _ _ _ _ same_fst).
  - destruct (Ascii.eqb _ "."); [|split; [reflexivity|exact H1]]. destruct (existsb _ _); [reflexivity|].
    eapply relres_bind; [apply next_rest; exact H1|]. intros a b HR. split; [reflexivity|]. apply skipc_rest, HR.
  - intros (f1 & a) (f2 & b) (E & HR). cbn [fst snd] in *. subst f2. here_rest. unfold same_end. rewrite (between_rest _ _ _ _ H HR). try rewrite <- H.
    replace (List.length (rest b)) with (List.length (rest a)) by (rewrite HR; reflexivity).
    destruct (negb _); [reflexivity|]. destruct f1.
    + destruct (strtof (rest c1)) as (f & e). destruct (negb _); [reflexivity|]. split; [reflexivity|exact HR].
    + destruct (strtoll 0 (rest c1)) as (f & e). destruct (negb _); [reflexivity|]. split; [reflexivity|exact HR].
Qed.
Lemma register_rest : forall t1 t2 c1 c2, same_rest c1 c2 -> rel same_fst (lex_register t1 c1) (lex_register t2 c2).
Proof.
  intros t1 t2 c1 c2 H. unfold lex_register. rel1. destruct (Ascii.eqb _ "Z"); [repeat rel1|].
  pose proof (skipc_rest is_decimal _ _ H0) as H1. here_rest. destruct (negb _); [split; [reflexivity|exact H1]|].
  unfold same_end. replace (List.length (rest (skipc is_decimal b))) with (List.length (rest (skipc is_decimal a))) by (rewrite H1; reflexivity).
  rewrite (between_rest _ _ _ _ H H1). destruct (strtoll 10 (rest a)) as (v & e). repeat rel1.
Qed.
Lemma identifier_rest : forall t1 t2 a1 a2 c1 c2, same_rest a1 a2 -> same_rest c1 c2 ->
  rel same_lexed (lex_identifier t1 a1 c1) (lex_identifier t2 a2 c2).
Proof.
  intros t1 t2 a1 a2 c1 c2 HA H. unfold lex_identifier. rel1.
  pose proof (skipc_rest (fun ch => negb (is_separator ch)) _ _ H0) as H1.
  rewrite (between_rest _ _ _ _ HA H1). destruct (Ascii.eqb _ ":"); cbn; [exact H1|]. split; [reflexivity|exact H1].
Qed.
Lemma tokenize1_text : forall c1 c2, same_text c1 c2 -> rel same_lexed (tokenize1 c1) (tokenize1 c2).
Proof.
  intros c1 c2 H. unfold tokenize1. unfold same_text in H. set (a1 := skipc is_blank c1) in *. set (a2 := skipc is_blank c2) in *.
  cbv zeta. assert (HA : same_rest a1 a2) by exact H. here_rest.
  destruct (Ascii.eqb _ NUL); [split; [reflexivity|exact HA]|]. destruct (_ && _).
  { rel1. split; [reflexivity|exact H0]. }
  apply (relres_bind _ _ _ _ _ _ same_fst).
  { destruct (is_contained _ _); [apply predicate_rest; exact HA|split; [reflexivity|exact HA]]. }
  intros (p1 & b1) (p2 & b2) (E & HB). cbn [fst snd] in *. subst p2. destruct p1; [split; [reflexivity|exact HB]|].
  here_rest. destruct (_ && _).
  { eapply relres_bind; [apply immediate_rest; exact HB|]. intros (k1 & d1) (k2 & d2) (E & HD). cbn [fst snd] in *. subst k2.
    split; [reflexivity|exact HD]. }
  apply (relres_bind _ _ _ _ _ _ same_fst).
  { destruct (Ascii.eqb _ "R"); [apply register_rest; exact HB|split; [reflexivity|exact HB]]. }
  intros (p1 & d1) (p2 & d2) (E & HD). cbn [fst snd] in *. subst p2. destruct p1; [split; [reflexivity|exact HD]|].
  apply identifier_rest; assumption.
Qed.

Definition same_token (x y : token * cursor) : Prop := kind (fst x) = kind (fst y) /\ same_rest (snd x) (snd y).
Lemma skipc_len : forall p c, (len (skipc p c) <= len c)%nat.
Proof. intros p c. destruct (skipc_spec p c) as (q & M & _). apply moves_length in M. unfold len. lia. Qed.

(** The tokens read from two cursors at the same text, blanks in front aside,
    are the same, and so is the text left over. *)
Theorem tokenize_text : forall c1 c2, same_text c1 c2 -> rel same_token (tokenize c1) (tokenize c2).
Proof.
  assert (G : forall n c1 c2, (len c1 < n)%nat -> same_text c1 c2 -> rel same_token (tokenize c1) (tokenize c2)).
  { induction n as [|n IH]; intros c1 c2 L H; [lia|]. rewrite (tokenize_step c1), (tokenize_step c2).
    pose proof (tokenize1_spec c1) as S1.
    pose proof (tokenize1_text _ _ H) as T. destruct (tokenize1 c1) as [r1|e|d|w|u|], (tokenize1 c2) as [r2|e2|d2|w2|u2|];
      cbn [bind]; try exact T; try (exfalso; exact T); try discriminate T.
    specialize (S1 _ eq_refl). cbn in T. destruct r1 as [t1 b1|b1], r2 as [t2 b2|b2]; cbn in T; try contradiction; [exact T|].
    destruct S1 as (p & M & NE). apply moves_length in M. apply IH; [|apply same_rest_text, T].
    unfold len in *. destruct p; [congruence|]. cbn in M. lia. }
  intros c1 c2. apply (G (S (len c1))). lia.
Qed.
