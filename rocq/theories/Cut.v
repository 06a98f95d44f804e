(** * Cut: a NUL character ends the text. *)
From Verif Require Import Base Float Lexer Operand Catalogue Table Parse Assemble Spec LexFacts SchedFuel Param Reach ParseFacts
  Outcomes Decode Program SpecInsn Insn Stream Literals Modes.
From Coq Require Import Lia.
Local Open Scope char_scope.
Local Open Scope list_scope.
Open Scope Z_scope.

(** [c2] is where [c1] is, but its text goes on behind a NUL. *)
Definition cut (q : text) (c1 c2 : cursor) : Prop :=
  rest c2 = rest c1 ++ NUL :: q /\ line c2 = line c1 /\ col c2 = col c1.
(** Same outcome, unless the first one is undefined. *)
Definition crel {A B} (R : A -> B -> Prop) (m1 : res A) (m2 : res B) : Prop :=
  match m1 with Undef _ => True | _ => relres eq false R m1 m2 end.
Lemma crel_bind : forall A B C E (RA : A -> B -> Prop) (RB : C -> E -> Prop) m1 m2 k1 k2,
  crel RA m1 m2 -> (forall a b, RA a b -> crel RB (k1 a) (k2 b)) -> crel RB (bind m1 k1) (bind m2 k2).
Proof.
  intros A B C E RA RB m1 m2 k1 k2 H K. destruct m1, m2; cbn in *; try (exfalso; exact H); try discriminate H; try exact H; try exact I.
  apply K, H.
Qed.
Lemma crel_ok : forall A B (R : A -> B -> Prop) a b, R a b -> crel R (Ok a) (Ok b).
Proof. auto. Qed.

Lemma peek_cut : forall q c1 c2, cut q c1 c2 -> peek (rest c2) = peek (rest c1).
Proof. intros q [[|ch l] a b] c2 (-> & _); reflexivity. Qed.
Lemma peek1_cut : forall q c1 c2, cut q c1 c2 -> rest c1 <> [] -> peek1 (rest c2) = peek1 (rest c1).
Proof. intros q [[|ch [|ch2 l]] a b] c2 (-> & _) H; cbn in *; congruence. Qed.
Lemma next_cut : forall q c1 c2, cut q c1 c2 -> crel (cut q) (next c1) (next c2).
Proof.
  intros q [[|ch l] a b] [l2 a2 b2] (E & L & C); cbn in *; subst; [exact I|]. cbn. split; [reflexivity|split; reflexivity].
Qed.
Lemma skipc_cut : forall q p c1 c2, p NUL = false -> cut q c1 c2 -> cut q (skipc p c1) (skipc p c2).
Proof.
  intros q p [l a b] [l2 a2 b2] Z (E & L & C). cbn in *. subst. unfold skipc. cbn [rest line col].
  revert a b. induction l as [|ch l IH]; intros a b; cbn [skip_while app].
  - rewrite Z. split; [reflexivity|split; reflexivity].
  - destruct (p ch); [apply IH|]. split; [reflexivity|split; reflexivity].
Qed.
Lemma between_any : forall q a1 a2 b1 b2, cut q a1 a2 -> cut q b1 b2 -> between a2 b2 = between a1 b1.
Proof.
  intros q a1 a2 b1 b2 (E1 & _) (E2 & _). unfold between. rewrite E1, E2, !app_length.
  replace (_ + _ - (_ + _))%nat with (List.length (rest a1) - List.length (rest b1))%nat by lia.
  rewrite firstn_app. replace (_ - _ - List.length (rest a1))%nat with O by lia. cbn [firstn]. apply app_nil_r.
Qed.
Lemma between_cut : forall q a1 a2 b1 b2 p, moves a1 p b1 -> cut q a1 a2 -> cut q b1 b2 -> between a2 b2 = between a1 b1.
Proof.
  intros q a1 a2 b1 b2 p M (E1 & _) (E2 & _). rewrite (moves_between _ _ _ M). destruct M as (M & _).
  unfold between. rewrite E1, E2, M, !app_length. cbn [List.length].
  replace (_ - _)%nat with (List.length p) by lia. rewrite <- app_assoc, firstn_app, Nat.sub_diag, firstn_O, app_nil_r, firstn_all. reflexivity.
Qed.
Lemma skip_moves : forall p c, exists s, moves c s (skipc p c).
Proof. intros p c. destruct (skipc_spec p c) as (s & M & _). eauto. Qed.

(** libc stops at a NUL too. *)
Lemma digits_cut : forall q b l acc, b <= 36 -> exists e, digits b acc l = (fst (digits b acc l), e) /\
  digits b acc (l ++ NUL :: q) = (fst (digits b acc l), e ++ NUL :: q).
Proof.
  intros q b l. induction l as [|ch l IH]; intros acc B; cbn [digits app].
  - exists []. split; [reflexivity|]. destruct (Z.ltb_spec (digit_value NUL) b) as [X|X]; [exfalso; cbn in X; lia|reflexivity].
  - destruct (digit_value ch <? b); [apply IH, B|]. exists (ch :: l). split; reflexivity.
Qed.
Lemma starts_cut : forall q b l, b <= 36 -> starts_digit b (l ++ NUL :: q) = starts_digit b l.
Proof. intros q b [|ch l] B; cbn; [|reflexivity]. apply Z.ltb_ge. cbn. lia. Qed.
Lemma space_cut : forall q l, skip_space (l ++ NUL :: q) = skip_space l ++ NUL :: q.
Proof. intros q l. induction l as [|ch l IH]; cbn [skip_space app]; [reflexivity|]. destruct (is_space ch); [exact IH|reflexivity]. Qed.

Lemma sign_cut : forall q l, sign_part (l ++ NUL :: q) = (fst (sign_part l), snd (sign_part l) ++ NUL :: q).
Proof. intros q [|ch l]; [reflexivity|]. cbn [app sign_part]. destruct (Ascii.eqb ch "-"); [reflexivity|]. destruct (Ascii.eqb ch "+"); reflexivity. Qed.
Lemma base_cut : forall q b l, b = 0 \/ b = 10 -> fst (base_part b l) <= 36 /\
  base_part b (l ++ NUL :: q) = (fst (base_part b l), snd (base_part b l) ++ NUL :: q).
Proof.
  intros q b l B. unfold base_part. destruct (Z.eqb_spec b 0) as [->|NB]; [|cbn; split; [lia|reflexivity]].
  destruct l as [|ch l]; [split; [cbn; lia|reflexivity]|]. cbn [app].
  destruct (Ascii.eqb_spec ch "0") as [->|NC].
  - destruct l as [|x l]; cbn [app]; [split; [cbn; lia|reflexivity]|]. rewrite starts_cut by lia.
    destruct (_ && _); (split; [cbn; lia|reflexivity]).
  - destruct ch as [[] [] [] [] [] [] [] []]; try (split; [cbn; lia|reflexivity]). exfalso; apply NC; reflexivity.
Qed.
Lemma strtoll_cut : forall q b l, b = 0 \/ b = 10 ->
  strtoll b (l ++ NUL :: q) = (fst (strtoll b l), snd (strtoll b l) ++ NUL :: q).
Proof.
  intros q b l B. rewrite !strtoll_eq. cbv zeta. rewrite space_cut, sign_cut. cbn [fst snd].
  destruct (base_cut q b (snd (sign_part (skip_space l))) B) as (B' & ->). cbn [fst snd].
  set (bp := base_part b (snd (sign_part (skip_space l)))) in *. rewrite starts_cut by exact B'.
  destruct (starts_digit (fst bp) (snd bp)); [|reflexivity]. destruct (digits_cut q (fst bp) (snd bp) 0 B') as (e & D1 & D2).
  rewrite D2, D1. reflexivity.
Qed.
Lemma point_cut : forall q l, point_part (l ++ NUL :: q) = option_map (fun x => x ++ NUL :: q) (point_part l).
Proof. intros q [|ch l]; [reflexivity|]. cbn [app point_part]. destruct (Ascii.eqb ch "."); reflexivity. Qed.
Lemma strtof_cut : forall q l, strtof (l ++ NUL :: q) = (fst (strtof l), snd (strtof l) ++ NUL :: q).
Proof.
  intros q l. rewrite !strtof_eq. cbv zeta. rewrite space_cut, sign_cut. cbn [fst snd]. set (sp := sign_part (skip_space l)).
  rewrite starts_cut by lia. destruct (starts_digit 10 (snd sp)); [|reflexivity].
  destruct (digits_cut q 10 (snd sp) 0 ltac:(lia)) as (e & D1 & D2). rewrite D2, D1. cbn [fst snd]. rewrite point_cut.
  destruct (point_part e) as [l2|]; cbn [option_map]; [|reflexivity].
  destruct (digits_cut q 10 l2 (fst (digits 10 0 (snd sp))) ltac:(lia)) as (e2 & D3 & D4). rewrite D4, D3. cbn [fst snd].
  rewrite !app_length. do 4 f_equal. lia.
Qed.

(** ** Tokens *)

Definition ccut (q : text) {A} (x y : A * cursor) : Prop := fst x = fst y /\ cut q (snd x) (snd y).
Ltac peeks := repeat match goal with H : cut _ ?a ?b |- context [peek (rest ?b)] => rewrite (peek_cut _ _ _ H) end.
Ltac cr1 :=
  lazymatch goal with
  | |- crel _ (bind (next _) _) (bind (next _) _) => eapply crel_bind; [apply next_cut; eassumption|intros ? ? ?; peeks]
  | |- crel _ (Ok _) (Ok _) => cbn [crel relres]; first [split; [reflexivity|assumption] | assumption]
  | |- crel _ (fatal_error _ _) (fatal_error _ _) => reflexivity
  | |- crel _ (if ?b then _ else _) (if ?b then _ else _) => destruct b
  | |- crel _ (match ?b with _ => _ end) (match ?b with _ => _ end) => destruct b
  end.
Lemma predicate_cut : forall q t c1 c2, cut q c1 c2 -> crel (ccut q) (lex_predicate t c1) (lex_predicate t c2).
Proof.
  intros q t c1 c2 H. unfold lex_predicate. peeks. apply (crel_bind _ _ _ _ (cut q)).
  - destruct (Ascii.eqb _ "!"); [|exact H]. repeat cr1.
  - intros a b HR. repeat cr1.
Qed.
Lemma same_end_cut : forall q e c1 c2, cut q c1 c2 -> same_end (e ++ NUL :: q) c2 = same_end e c1.
Proof.
  intros q e c1 c2 (E & _). unfold same_end. rewrite E, !app_length. destruct (Nat.eqb_spec (List.length e) (List.length (rest c1))) as [->|N].
  - apply Nat.eqb_refl.
  - apply Nat.eqb_neq. lia.
Qed.
Lemma immediate_cut : forall q t c1 c2, cut q c1 c2 -> crel (ccut q) (lex_immediate t c1) (lex_immediate t c2).
Proof.
  intros q t c1 c2 H. unfold lex_immediate. pose proof (skipc_cut q is_imm_char _ _ eq_refl H) as H1.
  destruct (skip_moves is_imm_char c1) as (s & M). rewrite (between_cut _ _ _ _ _ _ M H H1). peeks.
  apply (crel_bind _ _ _ _ (ccut q)).
  - destruct (Ascii.eqb _ "."); [|split; [reflexivity|exact H1]]. destruct (existsb _ _); [reflexivity|].
    eapply crel_bind; [apply next_cut; exact H1|]. intros a b HR. split; [reflexivity|]. apply skipc_cut; [reflexivity|exact HR].
  - intros (f1 & a) (f2 & b) (E & HR). cbn [fst snd] in *. subst f2. peeks. rewrite (between_any _ _ _ _ _ H HR).
    destruct (negb _); [reflexivity|]. destruct H as (E & _). rewrite E. destruct f1.
    + rewrite strtof_cut. destruct (strtof (rest c1)) as (f & e). cbn [fst snd]. rewrite (same_end_cut _ _ _ _ HR).
      destruct (negb _); [reflexivity|]. split; [reflexivity|exact HR].
    + rewrite strtoll_cut by auto. destruct (strtoll 0 (rest c1)) as (f & e). cbn [fst snd]. rewrite (same_end_cut _ _ _ _ HR).
      destruct (negb _); [reflexivity|]. split; [reflexivity|exact HR].
Qed.
Lemma register_cut : forall q t c1 c2, cut q c1 c2 -> crel (ccut q) (lex_register t c1) (lex_register t c2).
Proof.
  intros q t c1 c2 H. unfold lex_register. cr1. destruct (Ascii.eqb _ "Z"); [repeat cr1|].
  pose proof (skipc_cut q is_decimal _ _ eq_refl H0) as H1. peeks. rewrite (between_any _ _ _ _ _ H H1). destruct (negb _); [split; [reflexivity|exact H1]|].
  destruct H0 as (E & _). rewrite E. rewrite strtoll_cut by auto. destruct (strtoll 10 (rest a)) as (v & e). cbn [fst snd].
  rewrite (same_end_cut _ _ _ _ H1). repeat cr1.
Qed.
Definition lcut (q : text) (x y : lexed) : Prop :=
  match x, y with
  | Got t1 c1, Got t2 c2 => t1 = t2 /\ cut q c1 c2
  | Skip c1, Skip c2 => cut q c1 c2
  | _, _ => False
  end.
Lemma identifier_cut : forall q t a1 a2 c1 c2 p, moves a1 p c1 -> cut q a1 a2 -> cut q c1 c2 ->
  crel (lcut q) (lex_identifier t a1 c1) (lex_identifier t a2 c2).
Proof.
  intros q t a1 a2 c1 c2 p M HA H. unfold lex_identifier. pose proof (next_moves c1) as N. pose proof (next_cut _ _ _ H) as X.
  destruct (next c1) as [d1| | | | |]; destruct (next c2) as [d2| | | | |]; cbn [bind crel relres] in *; try exact I; try contradiction; try discriminate X; try exact X.
  destruct (N _ eq_refl) as (ch & M1 & _).
  pose proof (skipc_cut q (fun ch => negb (is_separator ch)) _ _ eq_refl X) as H1.
  destruct (skip_moves (fun ch => negb (is_separator ch)) d1) as (s & M2).
  rewrite (between_cut _ _ _ _ _ _ (moves_trans _ _ _ _ _ (moves_trans _ _ _ _ _ M M1) M2) HA H1).
  destruct (Ascii.eqb _ ":"); cbn; [exact H1|]. split; [reflexivity|exact H1].
Qed.
Lemma tokenize1_cut : forall q c1 c2, cut q c1 c2 -> crel (lcut q) (tokenize1 c1) (tokenize1 c2).
Proof.
  intros q c1 c2 H. unfold tokenize1. pose proof (skipc_cut q is_blank _ _ eq_refl H) as HA.
  set (a1 := skipc is_blank c1) in *. set (a2 := skipc is_blank c2) in *. cbv zeta. peeks.
  replace (line a2) with (line a1) by (symmetry; apply HA). replace (col a2) with (col a1) by (symmetry; apply HA).
  destruct (Ascii.eqb_spec (peek (rest a1)) NUL) as [Z|Z]; [split; [reflexivity|exact HA]|].
  assert (NE : rest a1 <> []) by (intros E; rewrite E in Z; apply Z; reflexivity).
  rewrite (peek1_cut _ _ _ HA NE). destruct (is_operator _ && _).
  { cr1. split; [reflexivity|assumption]. }
  apply (crel_bind _ _ _ _ (fun x y => ccut q x y /\ (snd x = a1 \/ is_contained "!Pp" (peek (rest a1)) = true) /\ exists p, moves a1 p (snd x))).
  { destruct (is_contained _ _) eqn:PP.
    - pose proof (predicate_cut q (Token TNone (line a1) (col a1)) _ _ HA) as X.
      pose proof (lex_predicate_spec (Token TNone (line a1) (col a1)) a1) as Y.
      destruct (lex_predicate _ a1) as [(k, b)| | | | |]; [|exact X..]. destruct (lex_predicate _ a2) as [(k2, b2)| | | | |]; cbn [crel relres] in *; try exact X.
      destruct (Y _ _ eq_refl) as (p & M & _). split; [exact X|]. split; [right; reflexivity|]. exists p. exact M.
    - split; [split; [reflexivity|exact HA]|]. split; [left; reflexivity|]. exists []. apply moves_refl. }
  intros (p1 & b1) (p2 & b2) ((E & HB) & HC & (p & MV)). cbn [fst snd] in *. subst p2. destruct p1; [split; [reflexivity|exact HB]|].
  replace ((is_decimal (peek (rest a1)) || is_sign (peek (rest a1))) && negb (Ascii.eqb (peek1 (rest b2)) "D")) with
    ((is_decimal (peek (rest a1)) || is_sign (peek (rest a1))) && negb (Ascii.eqb (peek1 (rest b1)) "D")).
  2:{ destruct HC as [->|HC]; [rewrite (peek1_cut _ _ _ HB NE); reflexivity|].
      assert (X : is_decimal (peek (rest a1)) || is_sign (peek (rest a1)) = false); [|rewrite X; reflexivity].
      destruct (peek (rest a1)) as [[] [] [] [] [] [] [] []]; cbn in HC |- *; congruence. }
  destruct (_ && _).
  { eapply crel_bind; [apply immediate_cut; exact HB|]. intros (k1 & d1) (k2 & d2) (E & HD). cbn [fst snd] in *. subst k2.
    split; [reflexivity|exact HD]. }
  apply (crel_bind _ _ _ _ (fun x y => ccut q x y /\ exists p, moves a1 p (snd x))).
  { destruct (Ascii.eqb _ "R").
    - pose proof (register_cut q (Token TNone (line a1) (col a1)) _ _ HB) as X.
      pose proof (lex_register_spec (Token TNone (line a1) (col a1)) b1) as Y.
      destruct (lex_register _ b1) as [(k, b)| | | | |]; [|exact X..]. destruct (lex_register _ b2) as [(k2, b2')| | | | |]; cbn [crel relres] in *; try exact X.
      destruct (Y _ _ eq_refl) as (p' & M & _). split; [exact X|]. exists (p ++ p'). eapply moves_trans; eauto.
    - split; [split; [reflexivity|exact HB]|]. exists p. exact MV. }
  intros (p1 & d1) (p2 & d2) ((E & HD) & (p' & M')). cbn [fst snd] in *. subst p2. destruct p1; [split; [reflexivity|exact HD]|].
  apply (identifier_cut q _ a1 a2 d1 d2 p'); assumption.
Qed.
Definition tcut (q : text) (x y : token * cursor) : Prop := fst x = fst y /\ cut q (snd x) (snd y).
Lemma tokenize_cut : forall q c1 c2, cut q c1 c2 -> crel (tcut q) (tokenize c1) (tokenize c2).
Proof.
  intros q. assert (G : forall n c1 c2, (len c1 < n)%nat -> cut q c1 c2 -> crel (tcut q) (tokenize c1) (tokenize c2)).
  { induction n as [|n IH]; intros c1 c2 L H; [lia|]. rewrite (tokenize_step c1), (tokenize_step c2).
    pose proof (tokenize1_spec c1) as S1. pose proof (tokenize1_cut _ _ _ H) as T.
    destruct (tokenize1 c1) as [r1|e|d|w|u|]; [|destruct (tokenize1 c2); cbn in *; try exact I; try exact T; try contradiction; try discriminate..].
    destruct (tokenize1 c2) as [r2|e2|d2|w2|u2|]; cbn [bind crel relres] in *; try contradiction.
    specialize (S1 _ eq_refl). destruct r1 as [t1 b1|b1], r2 as [t2 b2|b2]; cbn in T; try contradiction; [exact T|].
    destruct S1 as (p & M & NE). apply moves_length in M. apply IH; [|exact T].
    unfold len in *. destruct p; [congruence|]. cbn in M. lia. }
  intros c1 c2. apply (G (S (len c1))). lia.
Qed.

(** ** Labels *)

Definition pcut (q : text) (x y : cursor * Z) : Prop := cut q (fst x) (fst y) /\ snd x = snd y.
Lemma advance_cut : forall q c1 c2 pc, cut q c1 c2 -> crel (pcut q) (advance (c1, pc)) (advance (c2, pc)).
Proof.
  intros q c1 c2 pc H. unfold advance. peeks. eapply crel_bind; [apply next_cut, H|]. intros a b X. split; [exact X|reflexivity].
Qed.
Lemma advance_shrinks : forall c pc c' pc', advance (c, pc) = Ok (c', pc') -> len c = S (len c').
Proof.
  intros c pc c' pc' H. unfold advance in H. inv_bind H. injection H as <- _. destruct (next_moves _ _ Hx) as (ch & M & _).
  apply moves_length in M. exact M.
Qed.
Lemma next_line_cut : forall q n1 n2 c1 c2 pc, (len c1 < n1)%nat -> (len c2 < n2)%nat -> cut q c1 c2 ->
  crel (pcut q) (next_line n1 (c1, pc)) (next_line n2 (c2, pc)).
Proof.
  intros q n1. induction n1 as [|n1 IH]; intros n2 c1 c2 pc L1 L2 H; [lia|]. destruct n2 as [|n2]; [lia|]. cbn [next_line].
  pose proof (advance_cut q c1 c2 pc H) as X.
  destruct (advance (c1, pc)) as [(a1, pa)| | | | |] eqn:E1, (advance (c2, pc)) as [(a2, pb)| | | | |] eqn:E2;
    cbn [bind crel relres] in *; try exact I; try contradiction; try discriminate X; try exact X.
  destruct X as (X & XP). cbn [fst snd] in *. subst pb. pose proof (advance_shrinks _ _ _ _ E1). pose proof (advance_shrinks _ _ _ _ E2).
  peeks. replace (col a2) with (col a1) by (symmetry; apply X). destruct (_ && _); [apply IH; [lia|lia|exact X]|].
  split; [exact X|reflexivity].
Qed.
Lemma skip_label_cut : forall q n1 n2 c1 c2 pc, (len c1 < n1)%nat -> (len c2 < n2)%nat -> cut q c1 c2 ->
  crel (pcut q) (skip_label n1 (c1, pc)) (skip_label n2 (c2, pc)).
Proof.
  intros q n1. induction n1 as [|n1 IH]; intros n2 c1 c2 pc L1 L2 H; [lia|]. destruct n2 as [|n2]; [lia|]. cbn [skip_label fst]. peeks.
  destruct (is_label_char _); [|split; [exact H|reflexivity]].
  pose proof (advance_cut q c1 c2 pc H) as X.
  destruct (advance (c1, pc)) as [(a1, pa)| | | | |] eqn:E1, (advance (c2, pc)) as [(a2, pb)| | | | |] eqn:E2;
    cbn [bind crel relres] in *; try exact I; try contradiction; try discriminate X; try exact X.
  destruct X as (X & XP). cbn [fst snd] in *. subst pb. pose proof (advance_shrinks _ _ _ _ E1). pose proof (advance_shrinks _ _ _ _ E2).
  apply IH; [lia|lia|exact X].
Qed.
Lemma skip_label_len : forall n c pc c' pc', skip_label n (c, pc) = Ok (c', pc') -> exists p, moves c p c'.
Proof.
  induction n as [|n IH]; intros c pc c' pc' H; [discriminate|]. cbn [skip_label fst] in H.
  destruct (is_label_char _); [|injection H as <- _; exists []; apply moves_refl].
  unfold advance in H. destruct (next c) as [a| | | | |] eqn:E; cbn [bind] in H; try discriminate.
  destruct (next_moves _ _ E) as (ch & M & _). apply IH in H as (p & H). exists ([ch] ++ p). eapply moves_trans; eauto.
Qed.
Lemma next_line_len : forall n c pc c' pc', next_line n (c, pc) = Ok (c', pc') -> (len c' < len c)%nat.
Proof.
  induction n as [|n IH]; intros c pc c' pc' H; [discriminate|]. cbn [next_line] in H. inv_bind H. destruct x as (a, pa).
  pose proof (advance_shrinks _ _ _ _ Hx). destruct (_ && _); [apply IH in H; lia|]. injection H as <- _. lia.
Qed.
Lemma labels_loop_cut : forall q n1 n2 c1 c2 pc ls, (len c1 < n1)%nat -> (len c2 < n2)%nat -> cut q c1 c2 ->
  crel eq (generate_labels_loop n1 (c1, pc) ls) (generate_labels_loop n2 (c2, pc) ls).
Proof.
  intros q n1. induction n1 as [|n1 IH]; intros n2 c1 c2 pc ls L1 L2 H; [lia|]. destruct n2 as [|n2]; [lia|]. cbn [generate_labels_loop fst]. peeks.
  destruct (Ascii.eqb _ NUL); [reflexivity|]. unfold len in L1, L2. destruct (negb _).
  { pose proof (next_line_cut q (S (List.length (rest c1))) (S (List.length (rest c2))) c1 c2 pc ltac:(unfold len; lia) ltac:(unfold len; lia) H) as X.
    destruct (next_line _ (c1, pc)) as [(a1, pa)| | | | |] eqn:E1, (next_line _ (c2, pc)) as [(a2, pb)| | | | |] eqn:E2;
      cbn [bind crel relres] in *; try exact I; try contradiction; try discriminate X; try exact X.
    destruct X as (X & XP). cbn [fst snd] in *. subst pb. apply next_line_len in E1, E2. unfold len in *. apply IH; unfold len; [lia|lia|exact X]. }
  pose proof (skip_label_cut q (S (List.length (rest c1))) (S (List.length (rest c2))) c1 c2 pc ltac:(unfold len; lia) ltac:(unfold len; lia) H) as X.
  destruct (skip_label _ (c1, pc)) as [(a1, pa)| | | | |] eqn:E1, (skip_label _ (c2, pc)) as [(a2, pb)| | | | |] eqn:E2;
    cbn [bind crel relres] in *; try exact I; try contradiction; try discriminate X; try exact X.
  destruct X as (X & XP). cbn [fst snd] in *. subst pb. apply skip_label_len in E1 as (p & M). apply skip_label_len in E2 as (p2 & M2).
  rewrite (between_cut _ _ _ _ _ _ M H X). peeks. apply moves_length in M, M2.
  match goal with |- context [generate_labels_loop _ _ (if ?b then ?x else ?y)] => set (ls' := if b then x else y) end.
  pose proof (next_line_cut q (S (List.length (rest c1))) (S (List.length (rest c2))) a1 a2 pa ltac:(unfold len; lia) ltac:(unfold len; lia) X) as Y.
  destruct (next_line _ (a1, pa)) as [(b1, pb)| | | | |] eqn:E3, (next_line _ (a2, pa)) as [(b2, pb2)| | | | |] eqn:E4;
    cbn [bind crel relres] in *; try exact I; try contradiction; try discriminate Y; try exact Y.
  destruct Y as (Y & YP). cbn [fst snd] in *. subst pb2. apply next_line_len in E3, E4. unfold len in *. apply IH; unfold len; [lia|lia|exact Y].
Qed.
Lemma labels_cut : forall q p, crel eq (generate_labels p) (generate_labels (p ++ NUL :: q)).
Proof. intros q p. apply (labels_loop_cut q); unfold len; cbn [rest]; [lia|lia|]. split; [reflexivity|split; reflexivity]. Qed.

(** ** Programs *)

Lemma none_again : forall c t c', tokenize c = Ok (t, c') -> kind t = TNone -> exists t', tokenize c' = Ok (t', c') /\ kind t' = TNone.
Proof.
  intros c t c' H K. apply tokenize_spec in H as (q & cq & b & _ & _ & _ & _ & Z & _). destruct (Z K) as (_ & P).
  exists (Token TNone (line c') (col c')). split; [|reflexivity]. rewrite tokenize_step. unfold tokenize1.
  assert (E : skipc is_blank c' = c').
  { unfold skipc. destruct c' as [[|ch l] a d]; [reflexivity|]. cbn [rest line col peek] in *. subst ch. reflexivity. }
  rewrite E, P. reflexivity.
Qed.
(** A text that can be read to its end. *)
Definition readable (c : cursor) : Prop := exists ks c', scan c (ks ++ [TNone]) c'.
Lemma readable_stream : forall ex c, readable c -> forall n u, ~ In (Crash u) (stream ex n c).
Proof.
  intros ex c (ks & c' & S). remember (ks ++ [TNone]) as l. revert ks Heql. induction S as [c|c t c1 l c' T S IH]; intros ks E n u I.
  - destruct ks; discriminate.
  - destruct n as [|n]; [exact I|]. cbn [stream] in I. rewrite T in I. destruct I as [I|I]; [discriminate|].
    destruct ks as [|k ks]; injection E as E1 E2; [|exact (IH ks E2 n u I)]. clear IH S. subst l.
    revert c t T E1 I. induction n as [|n IH]; intros c t T E1 I; [exact I|].
    destruct (none_again _ _ _ T E1) as (t' & T' & K'). cbn [stream] in I. rewrite T' in I. destruct I as [I|I]; [discriminate|].
    exact (IH _ _ T' K' I).
Qed.
Lemma cut_stream : forall q c1 c2, (forall n u, ~ In (Crash u) (stream true n c1)) -> cut q c1 c2 -> same_stream true c1 c2.
Proof.
  intros q c1 c2 N H n. revert c1 c2 N H. induction n as [|n IH]; intros c1 c2 N H; [reflexivity|]. cbn [stream].
  pose proof (tokenize_cut _ _ _ H) as T. pose proof (N 1%nat) as N1. cbn [stream] in N1.
  destruct (tokenize c1) as [(t1, b1)| | | | |] eqn:E1, (tokenize c2) as [(t2, b2)| | | | |]; cbn [crel relres] in T; try contradiction; try discriminate T;
    try reflexivity; try (exfalso; exact (N1 _ (or_introl eq_refl))).
  - destruct T as (T & HB). cbn [fst snd] in *. subst t2. f_equal. apply IH; [|exact HB]. intros m u I. apply (N (S m) u). cbn [stream]. rewrite E1. right. exact I.
  - rewrite T. reflexivity.
Qed.

Lemma relres_true_eq : forall A (m1 m2 : res A), relres (same_diag true) false eq m1 m2 -> m1 = m2.
Proof.
  intros A [] [] H; cbn in H; try contradiction; try discriminate; try congruence.
  - unfold same_diag, dview in H. destruct e, e0. cbn in H. congruence.
  - unfold same_diag, dview in H. destruct d, d0. cbn in H. congruence.
  - destruct H as [H|H]; congruence.
Qed.

(** Nothing behind a NUL between two tokens is assembled; in debug builds a ';'
    behind it makes the instruction count wrong. *)
Theorem nul_ends : forall a p q, ~ In NUL p -> readable (start p) -> ~ bare_last_line p ->
  (a = true -> semis q = O) -> assemble a (p ++ NUL :: q) = assemble a p.
Proof.
  intros a p q Z R B A. symmetry. apply relres_true_eq. apply stream_program.
  - apply (cut_stream q); [apply readable_stream, R|]. split; [reflexivity|split; reflexivity].
  - left. reflexivity.
  - pose proof (labels_cut q p) as L. destruct (generate_labels_spec p Z) as [(ls & E & _)|(_ & E)]; [|contradiction].
    rewrite E in *. destruct (generate_labels (p ++ NUL :: q)); cbn in L |- *; try contradiction. subst. intros name. reflexivity.
  - intros T. rewrite semis_app. change (NUL :: q) with ([NUL] ++ q). rewrite semis_app, (A T). cbn. lia.
Qed.
Lemma decodes_fun : forall a ls x l y, decodes a ls x l y -> forall l' y', decodes a ls x l' y' -> l' = l /\ y' = y.
Proof.
  intros a ls x l y D. induction D as [x E|x x' op l y E D IH]; intros l' y' D'; inversion D'; subst.
  - split; reflexivity.
  - rewrite E in H; discriminate.
  - rewrite E in H; discriminate.
  - rewrite E in H. injection H as <- <-. destruct (IH _ _ H0) as (-> & ->). split; reflexivity.
Qed.
Lemma stream_decodes : forall a ls x1 l1 y1, decodes a ls x1 l1 y1 -> forall x2, same_ctx true x1 x2 ->
  exists l2 y2, decodes a ls x2 l2 y2 /\ map snd l2 = map snd l1 /\ c_opts y2 = c_opts y1.
Proof.
  intros a ls x1 l1 y1 D. induction D as [x1 E|x1 x1' op l1 y1 E D IH]; intros x2 H.
  - pose proof (stream_instruction true ls ls (fun _ => eq_refl) table a x1 x2 opcode0 H (or_introl eq_refl)) as T.
    change (parse_instruction_with table) with parse_instruction in T. rewrite E in T.
    destruct (parse_instruction a ls x2 opcode0) as [[(x2', op2)|]| | | | |] eqn:E2; cbn in T; try contradiction.
    exists [], x2. split; [constructor; exact E2|]. split; [reflexivity|]. symmetry. apply H.
  - pose proof (stream_instruction true ls ls (fun _ => eq_refl) table a x1 x2 opcode0 H (or_introl eq_refl)) as T.
    change (parse_instruction_with table) with parse_instruction in T. rewrite E in T.
    destruct (parse_instruction a ls x2 opcode0) as [[(x2', op2)|]| | | | |] eqn:E2; cbn in T; try contradiction.
    destruct T as (HC & <-). destruct (IH _ HC) as (l2 & y2 & D2 & M & O).
    exists ((x2', op) :: l2), y2. split; [econstructor; eassumption|]. split; [cbn; rewrite M; reflexivity|exact O].
Qed.
Theorem nul_counts : forall p q w, ~ In NUL p -> readable (start p) -> ~ bare_last_line p ->
  semis q <> O -> assemble true p = Ok w -> exists why, assemble true (p ++ NUL :: q) = Abort why.
Proof.
  intros p q w Z R B Q E. destruct (modes_agree (p ++ NUL :: q)) as [A|A]; [exfalso|exact A].
  assert (F : assemble false (p ++ NUL :: q) = Ok w).
  { rewrite (nul_ends false p q Z R B) by discriminate. destruct (modes_agree p) as [P|(why & P)]; congruence. }
  rewrite F in A. apply assemble_ok in E as (ls & l & y & (G & D & N) & _). apply assemble_ok in A as (ls' & l' & y' & (G' & D' & N') & _).
  pose proof (labels_cut q p) as L. rewrite G, G' in L. cbn in L. subst ls'.
  assert (SC : same_ctx true (ctx0 p) (ctx0 (p ++ NUL :: q))).
  { split; [|split; reflexivity]. apply (cut_stream q); [apply readable_stream, R|]. split; [reflexivity|split; reflexivity]. }
  destruct (stream_decodes _ _ _ _ _ D _ SC) as (l2 & y2 & D2 & M & _). destruct (decodes_fun _ _ _ _ _ D' _ _ D2) as (-> & _).
  apply (f_equal (@List.length opcode)) in M. rewrite !map_length, (N eq_refl), (N' eq_refl), semis_app in M.
  change (NUL :: q) with ([NUL] ++ q) in M. rewrite semis_app in M. cbn in M. lia.
Qed.
