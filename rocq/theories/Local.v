(** * Local: an error is found whatever follows the statement it is in. *)
From Verif Require Import Base Float Lexer Operand Catalogue Table Parse Assemble Spec LexFacts SchedFuel Param Reach ParseFacts
  Outcomes Decode Program Modes Encode Emit Layout SpecInsn Insn Position Literals SpecLex Lexemes Stream Cut Where Text Compose SpecProgram Language Counters Run.
From Coq Require Import Lia.
Local Open Scope char_scope.
Local Open Scope list_scope.
Open Scope Z_scope.

(** ** The tokenizer in front of a ';' *)

(** [c2] is where [c1] is, but its text goes on with a ';'. *)
Definition scut (q : text) (c1 c2 : cursor) : Prop :=
  rest c2 = rest c1 ++ ";" :: q /\ line c2 = line c1 /\ col c2 = col c1.
Lemma peek_scut : forall A (f : ascii -> A) q c1 c2, f NUL = f ";" -> scut q c1 c2 -> f (peek (rest c2)) = f (peek (rest c1)).
Proof. intros A f q [[|ch l] a b] c2 E (-> & _); cbn; congruence. Qed.
Lemma peek1_scut : forall A (f : ascii -> A) q c1 c2, f NUL = f ";" -> scut q c1 c2 -> rest c1 <> [] -> f (peek1 (rest c2)) = f (peek1 (rest c1)).
Proof. intros A f q [[|ch [|ch2 l]] a b] c2 E (-> & _) H; cbn in *; congruence. Qed.
Lemma next_scut : forall q c1 c2, scut q c1 c2 -> crel (scut q) (next c1) (next c2).
Proof.
  intros q [[|ch l] a b] [l2 a2 b2] (E & L & C); cbn in *; subst; [exact I|]. cbn. split; [reflexivity|split; reflexivity].
Qed.
Lemma skipc_scut : forall q p c1 c2, p ";" = false -> scut q c1 c2 -> scut q (skipc p c1) (skipc p c2).
Proof.
  intros q p [l a b] [l2 a2 b2] Z (E & L & C). cbn in *. subst. unfold skipc. cbn [rest line col].
  revert a b. induction l as [|ch l IH]; intros a b; cbn [skip_while app].
  - rewrite Z. split; [reflexivity|split; reflexivity].
  - destruct (p ch); [apply IH|]. split; [reflexivity|split; reflexivity].
Qed.
Lemma between_scut : forall q a1 a2 b1 b2, scut q a1 a2 -> scut q b1 b2 -> between a2 b2 = between a1 b1.
Proof.
  intros q a1 a2 b1 b2 (E1 & _) (E2 & _). unfold between. rewrite E1, E2, !app_length.
  replace (_ + _ - (_ + _))%nat with (List.length (rest a1) - List.length (rest b1))%nat by lia.
  rewrite firstn_app. replace (_ - _ - List.length (rest a1))%nat with O by lia. cbn [firstn]. apply app_nil_r.
Qed.
Lemma digits_scut : forall q b l acc, b <= 36 -> exists e, digits b acc l = (fst (digits b acc l), e) /\
  digits b acc (l ++ ";" :: q) = (fst (digits b acc l), e ++ ";" :: q).
Proof.
  intros q b l. induction l as [|ch l IH]; intros acc B; cbn [digits app].
  - exists []. split; [reflexivity|]. destruct (Z.ltb_spec (digit_value ";") b) as [X|X]; [exfalso; cbn in X; lia|reflexivity].
  - destruct (digit_value ch <? b); [apply IH, B|]. exists (ch :: l). split; reflexivity.
Qed.
Lemma starts_scut : forall q b l, b <= 36 -> starts_digit b (l ++ ";" :: q) = starts_digit b l.
Proof. intros q b [|ch l] B; cbn; [|reflexivity]. apply Z.ltb_ge. cbn. lia. Qed.
Lemma space_scut : forall q l, skip_space (l ++ ";" :: q) = skip_space l ++ ";" :: q.
Proof. intros q l. induction l as [|ch l IH]; cbn [skip_space app]; [reflexivity|]. destruct (is_space ch); [exact IH|reflexivity]. Qed.
Lemma sign_scut : forall q l, sign_part (l ++ ";" :: q) = (fst (sign_part l), snd (sign_part l) ++ ";" :: q).
Proof. intros q [|ch l]; [reflexivity|]. cbn [app sign_part]. destruct (Ascii.eqb ch "-"); [reflexivity|]. destruct (Ascii.eqb ch "+"); reflexivity. Qed.
Lemma base_scut : forall q b l, b = 0 \/ b = 10 -> fst (base_part b l) <= 36 /\
  base_part b (l ++ ";" :: q) = (fst (base_part b l), snd (base_part b l) ++ ";" :: q).
Proof.
  intros q b l B. unfold base_part. destruct (Z.eqb_spec b 0) as [->|NB]; [|cbn; split; [lia|reflexivity]].
  destruct l as [|ch l]; [split; [cbn; lia|reflexivity]|]. cbn [app].
  destruct (Ascii.eqb_spec ch "0") as [->|NC].
  - destruct l as [|x l]; cbn [app]; [split; [cbn; lia|reflexivity]|]. rewrite starts_scut by lia.
    destruct (_ && _); (split; [cbn; lia|reflexivity]).
  - destruct ch as [[] [] [] [] [] [] [] []]; try (split; [cbn; lia|reflexivity]). exfalso; apply NC; reflexivity.
Qed.
Lemma strtoll_scut : forall q b l, b = 0 \/ b = 10 ->
  strtoll b (l ++ ";" :: q) = (fst (strtoll b l), snd (strtoll b l) ++ ";" :: q).
Proof.
  intros q b l B. rewrite !strtoll_eq. cbv zeta. rewrite space_scut, sign_scut. cbn [fst snd].
  destruct (base_scut q b (snd (sign_part (skip_space l))) B) as (B' & ->). cbn [fst snd].
  set (bp := base_part b (snd (sign_part (skip_space l)))) in *. rewrite starts_scut by exact B'.
  destruct (starts_digit (fst bp) (snd bp)); [|reflexivity]. destruct (digits_scut q (fst bp) (snd bp) 0 B') as (e & D1 & D2).
  rewrite D2, D1. reflexivity.
Qed.
Lemma point_scut : forall q l, point_part (l ++ ";" :: q) = option_map (fun x => x ++ ";" :: q) (point_part l).
Proof. intros q [|ch l]; [reflexivity|]. cbn [app point_part]. destruct (Ascii.eqb ch "."); reflexivity. Qed.
Lemma strtof_scut : forall q l, strtof (l ++ ";" :: q) = (fst (strtof l), snd (strtof l) ++ ";" :: q).
Proof.
  intros q l. rewrite !strtof_eq. cbv zeta. rewrite space_scut, sign_scut. cbn [fst snd]. set (sp := sign_part (skip_space l)).
  rewrite starts_scut by lia. destruct (starts_digit 10 (snd sp)); [|reflexivity].
  destruct (digits_scut q 10 (snd sp) 0 ltac:(lia)) as (e & D1 & D2). rewrite D2, D1. cbn [fst snd]. rewrite point_scut.
  destruct (point_part e) as [l2|]; cbn [option_map]; [|reflexivity].
  destruct (digits_scut q 10 l2 (fst (digits 10 0 (snd sp))) ltac:(lia)) as (e2 & D3 & D4). rewrite D4, D3. cbn [fst snd].
  rewrite !app_length. do 4 f_equal. lia.
Qed.

Definition cscut (q : text) {A} (x y : A * cursor) : Prop := fst x = fst y /\ scut q (snd x) (snd y).
Ltac same f := repeat match goal with H : scut _ ?a ?b |- context [peek (rest ?b)] =>
  let X := fresh in pose proof (peek_scut _ f _ _ _ eq_refl H) as X; cbv beta in X; progress rewrite X; clear X end.
Ltac sr1 :=
  lazymatch goal with
  | |- crel _ (bind (next _) _) (bind (next _) _) => eapply crel_bind; [apply next_scut; eassumption|intros ? ? ?]
  | |- crel _ (Ok _) (Ok _) => cbn [crel relres]; first [split; [reflexivity|assumption] | assumption]
  | |- crel _ (fatal_error _ _) (fatal_error _ _) => reflexivity
  | |- crel _ (if ?b then _ else _) (if ?b then _ else _) => destruct b
  | |- crel _ (match ?b with _ => _ end) (match ?b with _ => _ end) => destruct b
  end.
Lemma predicate_scut : forall q t c1 c2, scut q c1 c2 -> crel (cscut q) (lex_predicate t c1) (lex_predicate t c2).
Proof.
  intros q t c1 c2 H. unfold lex_predicate. same (fun ch => Ascii.eqb ch "!"). apply (crel_bind _ _ _ _ (scut q)).
  - destruct (Ascii.eqb _ "!"); [|exact H]. sr1. same (is_contained "Pp"). repeat sr1.
  - intros a b HR. sr1. cbv zeta.
    same (fun ch => if is_contained "Tt" ch then Some 7%N else if is_decimal ch then Some (N_of_ascii ch - 48)%N else None).
    same (is_contained "Tt"). destruct (if is_contained "Tt" (peek (rest _)) then _ else _) as [i|]; [|repeat sr1].
    sr1. same is_separator. repeat sr1.
Qed.
Lemma same_end_scut : forall q e c1 c2, scut q c1 c2 -> same_end (e ++ ";" :: q) c2 = same_end e c1.
Proof.
  intros q e c1 c2 (E & _). unfold same_end. rewrite E, !app_length. destruct (Nat.eqb_spec (List.length e) (List.length (rest c1))) as [->|N].
  - apply Nat.eqb_refl.
  - apply Nat.eqb_neq. lia.
Qed.
Lemma immediate_scut : forall q t c1 c2, scut q c1 c2 -> crel (cscut q) (lex_immediate t c1) (lex_immediate t c2).
Proof.
  intros q t c1 c2 H. unfold lex_immediate. pose proof (skipc_scut q is_imm_char _ _ eq_refl H) as H1.
  rewrite (between_scut _ _ _ _ _ H H1). same (fun ch => Ascii.eqb ch ".").
  apply (crel_bind _ _ _ _ (cscut q)).
  - destruct (Ascii.eqb _ "."); [|split; [reflexivity|exact H1]]. destruct (existsb _ _); [reflexivity|].
    eapply crel_bind; [apply next_scut; exact H1|]. intros a b HR. split; [reflexivity|]. apply skipc_scut; [reflexivity|exact HR].
  - intros (f1 & a) (f2 & b) (E & HR). cbn [fst snd] in *. subst f2. same is_separator. rewrite (between_scut _ _ _ _ _ H HR).
    destruct (negb _); [reflexivity|]. destruct H as (E & _). rewrite E. destruct f1.
    + rewrite strtof_scut. destruct (strtof (rest c1)) as (f & e). cbn [fst snd]. rewrite (same_end_scut _ _ _ _ HR).
      destruct (negb _); [reflexivity|]. split; [reflexivity|exact HR].
    + rewrite strtoll_scut by auto. destruct (strtoll 0 (rest c1)) as (f & e). cbn [fst snd]. rewrite (same_end_scut _ _ _ _ HR).
      destruct (negb _); [reflexivity|]. split; [reflexivity|exact HR].
Qed.
Lemma register_scut : forall q t c1 c2, scut q c1 c2 -> crel (cscut q) (lex_register t c1) (lex_register t c2).
Proof.
  intros q t c1 c2 H. unfold lex_register. sr1. same (fun ch => Ascii.eqb ch "Z"). destruct (Ascii.eqb _ "Z"); [sr1; same is_separator; repeat sr1|].
  pose proof (skipc_scut q is_decimal _ _ eq_refl H0) as H1. same is_separator. rewrite (between_scut _ _ _ _ _ H H1). destruct (negb _); [split; [reflexivity|exact H1]|].
  destruct H0 as (E & _). rewrite E. rewrite strtoll_scut by auto. destruct (strtoll 10 (rest a)) as (v & e). cbn [fst snd].
  rewrite (same_end_scut _ _ _ _ H1). repeat sr1.
Qed.
(** The same token; the end of the first text is the ';' of the second. *)
Definition token_scut (q : text) (t1 : token) (c1 : cursor) (t2 : token) (c2 : cursor) : Prop :=
  (t1 = t2 /\ scut q c1 c2) \/
  (kind t1 = TNone /\ rest c1 = [] /\ t2 = Token TSemi (t_line t1) (t_col t1) /\ rest c2 = q /\ line c2 = line c1 /\ col c2 = col c1 + 1).
Definition lscut (q : text) (x y : lexed) : Prop :=
  match x, y with
  | Got t1 c1, Got t2 c2 => token_scut q t1 c1 t2 c2
  | Skip c1, Skip c2 => scut q c1 c2
  | _, _ => False
  end.
Lemma identifier_scut : forall q t a1 a2 c1 c2, scut q a1 a2 -> scut q c1 c2 ->
  crel (lscut q) (lex_identifier t a1 c1) (lex_identifier t a2 c2).
Proof.
  intros q t a1 a2 c1 c2 HA H. unfold lex_identifier. pose proof (next_scut _ _ _ H) as X.
  destruct (next c1) as [d1| | | | |]; destruct (next c2) as [d2| | | | |]; cbn [bind crel relres] in *; try exact I; try contradiction; try discriminate X; try exact X.
  pose proof (skipc_scut q (fun ch => negb (is_separator ch)) _ _ eq_refl X) as H1.
  rewrite (between_scut _ _ _ _ _ HA H1).
  destruct (Ascii.eqb _ ":"); cbn; [exact H1|]. left. split; [reflexivity|exact H1].
Qed.
Lemma tokenize1_scut : forall q c1 c2, scut q c1 c2 -> crel (lscut q) (tokenize1 c1) (tokenize1 c2).
Proof.
  intros q c1 c2 H. unfold tokenize1. pose proof (skipc_scut q is_blank _ _ eq_refl H) as HA.
  set (a1 := skipc is_blank c1) in *. set (a2 := skipc is_blank c2) in *. cbv zeta.
  replace (line a2) with (line a1) by (symmetry; apply HA). replace (col a2) with (col a1) by (symmetry; apply HA).
  destruct (rest a1) as [|h0 l0] eqn:R1.
  { destruct HA as (E & L & C). rewrite R1 in E. cbn [app] in E. unfold next. rewrite E. cbn. right. rewrite R1, L, C. repeat split; reflexivity. }
  assert (NE : rest a1 <> []) by (rewrite R1; discriminate). rewrite <- R1. clear R1 h0 l0.
  assert (PE : peek (rest a2) = peek (rest a1)).
  { destruct HA as (E & _). rewrite E. destruct (rest a1); [contradiction|reflexivity]. }
  rewrite PE. destruct (Ascii.eqb_spec (peek (rest a1)) NUL) as [Z|Z]; [left; split; [reflexivity|exact HA]|].
  rewrite (peek1_scut _ is_decimal _ _ _ eq_refl HA NE). destruct (is_operator _ && _).
  { sr1. left. split; [reflexivity|assumption]. }
  apply (crel_bind _ _ _ _ (fun x y => cscut q x y /\ (snd x = a1 \/ is_contained "!Pp" (peek (rest a1)) = true))).
  { destruct (is_contained _ _) eqn:PP.
    - pose proof (predicate_scut q (Token TNone (line a1) (col a1)) _ _ HA) as X.
      destruct (lex_predicate _ a1) as [(k, b)| | | | |]; [|exact X..]. destruct (lex_predicate _ a2) as [(k2, b2)| | | | |]; cbn [crel relres] in *; try exact X.
      split; [exact X|]. right; reflexivity.
    - split; [split; [reflexivity|exact HA]|]. left; reflexivity. }
  intros (p1 & b1) (p2 & b2) ((E & HB) & HC). cbn [fst snd] in *. subst p2. destruct p1; [left; split; [reflexivity|exact HB]|].
  replace ((is_decimal (peek (rest a1)) || is_sign (peek (rest a1))) && negb (Ascii.eqb (peek1 (rest b2)) "D")) with
    ((is_decimal (peek (rest a1)) || is_sign (peek (rest a1))) && negb (Ascii.eqb (peek1 (rest b1)) "D")).
  2:{ destruct HC as [->|HC]; [pose proof (peek1_scut _ (fun ch => Ascii.eqb ch "D") _ _ _ eq_refl HB NE) as X; cbv beta in X; rewrite X; reflexivity|].
      assert (X : is_decimal (peek (rest a1)) || is_sign (peek (rest a1)) = false); [|rewrite X; reflexivity].
      destruct (peek (rest a1)) as [[] [] [] [] [] [] [] []]; cbn in HC |- *; congruence. }
  destruct (_ && _).
  { eapply crel_bind; [apply immediate_scut; exact HB|]. intros (k1 & d1) (k2 & d2) (E & HD). cbn [fst snd] in *. subst k2.
    left. split; [reflexivity|exact HD]. }
  apply (crel_bind _ _ _ _ (cscut q)).
  { destruct (Ascii.eqb _ "R"); [apply register_scut, HB|split; [reflexivity|exact HB]]. }
  intros (p1 & d1) (p2 & d2) (E & HD). cbn [fst snd] in *. subst p2. destruct p1; [left; split; [reflexivity|exact HD]|].
  apply identifier_scut; assumption.
Qed.
Definition tscut (q : text) (x y : token * cursor) : Prop := token_scut q (fst x) (snd x) (fst y) (snd y).
Lemma tokenize_scut : forall q c1 c2, scut q c1 c2 -> crel (tscut q) (tokenize c1) (tokenize c2).
Proof.
  intros q. assert (G : forall n c1 c2, (len c1 < n)%nat -> scut q c1 c2 -> crel (tscut q) (tokenize c1) (tokenize c2)).
  { induction n as [|n IH]; intros c1 c2 L H; [lia|]. rewrite (tokenize_step c1), (tokenize_step c2).
    pose proof (tokenize1_spec c1) as S1. pose proof (tokenize1_scut _ _ _ H) as T.
    destruct (tokenize1 c1) as [r1|e|d|w|u|]; [|destruct (tokenize1 c2); cbn in *; try exact I; try exact T; try contradiction; try discriminate..].
    destruct (tokenize1 c2) as [r2|e2|d2|w2|u2|]; cbn [bind crel relres] in *; try contradiction.
    specialize (S1 _ eq_refl). destruct r1 as [t1 b1|b1], r2 as [t2 b2|b2]; cbn in T; try contradiction; [exact T|].
    destruct S1 as (p & M & NE). apply moves_length in M. apply IH; [|exact T].
    unfold len in *. destruct p; [congruence|]. cbn in M. lia. }
  intros c1 c2. apply (G (S (len c1))). lia.
Qed.

(** ** Two texts with the same beginning *)

(** The text does not end with a 'P', which would swallow what follows. *)
Definition no_open_end (u : text) : Prop := forall u' p, u = u' ++ [p] -> ~ In p ["P"; "p"].
Lemma open_end_tail : forall u v, no_open_end (u ++ v) -> no_open_end v.
Proof. intros u v H v' p ->. apply (H (u ++ v')). apply app_assoc. Qed.

Lemma none_text : forall c t c', tokenize c = Ok (t, c') -> kind t = TNone -> rest c' = [] \/ begins [NUL] (rest c').
Proof.
  intros c t c' T K. apply tokenize_iff in T as (g & s & cs & _ & _ & _ & TT & _). rewrite K in TT.
  destruct TT as [L|(_ & _ & E)]; [|exact E]. exfalso. inversion L; subst.
  match goal with H : In (_, TNone) operators |- _ => cbn in H; repeat (destruct H as [H|H]; [discriminate H|]); contradiction end.
Qed.

Section Twins.
  Variables v1 v2 : text.
  Definition T0 (c1 c2 : cursor) : Prop := line c1 = line c2 /\ col c1 = col c2 /\
    exists u, no_open_end u /\ ~ In NUL u /\ rest c1 = u ++ ";" :: v1 /\ rest c2 = u ++ ";" :: v2.
  Definition T1 (c1 c2 : cursor) : Prop := line c1 = line c2 /\ col c1 = col c2 /\ rest c1 = v1 /\ rest c2 = v2.
  Definition TC (c1 : cursor) (t1 : token) (c2 : cursor) (t2 : token) : Prop :=
    t1 = t2 /\ kind t1 <> TNone /\ (T0 c1 c2 \/ kind t1 = TSemi /\ T1 c1 c2).
  Lemma TC_T0 : forall c1 t1 c2 t2, TC c1 t1 c2 t2 -> kind t1 <> TSemi -> T0 c1 c2.
  Proof. intros c1 t1 c2 t2 (_ & _ & [H|(H & _)]) N; [exact H|contradiction]. Qed.
  Lemma TC_kind : forall c1 t1 c2 t2, TC c1 t1 c2 t2 -> kind t1 = kind t2.
  Proof. intros c1 t1 c2 t2 (-> & _). reflexivity. Qed.
  Lemma TC_diag : forall c1 t1 c2 t2 m, TC c1 t1 c2 t2 -> diag_at t1 m = diag_at t2 m.
  Proof. intros c1 t1 c2 t2 m (-> & _). reflexivity. Qed.

  Lemma T0_tokenize : forall c1 c2, T0 c1 c2 -> relres eq false (RT TC) (tokenize c1) (tokenize c2).
  Proof.
    intros c1 c2 (L & C & u & O & N & R1 & R2). set (c := Cursor u (line c1) (col c1)).
    assert (S1 : scut v1 c c1) by (split; [exact R1|split; reflexivity]).
    assert (S2 : scut v2 c c2) by (split; [exact R2|split; symmetry; assumption]).
    pose proof (tokenize_scut _ _ _ S1) as X1. pose proof (tokenize_scut _ _ _ S2) as X2.
    pose proof (tokenize_outcomes c) as OC.
    destruct (tokenize c) as [(t, c')|d|d|w|x|] eqn:E; try contradiction.
    - destruct (tokenize c1) as [(t1, b1)| | | | |] eqn:E1; cbn [crel relres] in X1; try contradiction.
      destruct (tokenize c2) as [(t2, b2)| | | | |] eqn:E2; cbn [crel relres] in X2; try contradiction. cbn [relres].
      unfold RT. unfold tscut in X1, X2. cbn [fst snd] in *.
      apply tokenize_moves in E as MV. destruct MV as (p & (M & ML & MC)). cbn [c rest] in M.
      assert (NC : ~ In NUL (rest c')) by (intros I; apply N; rewrite M; apply in_or_app; right; exact I).
      assert (Q : forall v x b tt, scut v c x -> tokenize x = Ok (tt, b) -> token_scut v t c' tt b ->
        (kind t <> TNone /\ t = tt /\ scut v c' b) \/ (kind t = TNone /\ tt = Token TSemi (t_line t) (t_col t) /\ rest b = v /\ line b = line c' /\ col b = col c' + 1)).
      { intros v x b tt SX EX [(<- & SB)|(K & _ & A)]; [left|right; split; [exact K|exact A]]. split; [|split; [reflexivity|exact SB]].
        intros K. pose proof (none_text _ _ _ E K) as [Z|(ch & r & Z & [<-|[]])]; [|apply NC; rewrite Z; left; reflexivity].
        pose proof (none_text _ _ _ EX K) as Y. destruct SB as (SB & _). rewrite SB, Z in Y. cbn [app] in Y. destruct Y as [Y|(ch & r & Y & [<-|[]])]; discriminate. }
      destruct (Q _ _ _ _ S1 E1 X1) as [(K1 & <- & Y1)|(K1 & -> & Y1)], (Q _ _ _ _ S2 E2 X2) as [(K2 & <- & Y2)|(K2 & -> & Y2)]; try contradiction.
      + split; [reflexivity|]. split; [exact K1|]. left. destruct Y1 as (A1 & A2 & A3), Y2 as (B1 & B2 & B3). split; [congruence|]. split; [congruence|].
        exists (rest c'). split; [rewrite M in O; eapply open_end_tail, O|]. auto.
      + split; [reflexivity|]. split; [discriminate|]. right. split; [reflexivity|]. destruct Y1 as (A1 & A2 & A3), Y2 as (B1 & B2 & B3). repeat split; congruence.
    - destruct (tokenize c1), (tokenize c2); cbn in X1, X2 |- *; try contradiction. congruence.
    - exfalso. apply tokenize_undef_iff in E as (_ & g & cs & b & neg & p & (M & _) & _ & R & _ & I). cbn [c rest] in M. rewrite R, app_assoc in M.
      exact (O _ _ M I).
  Qed.

  Variables ls1 ls2 : labels.
  Hypothesis same_names : forall name, find_label ls1 name = find_label ls2 name.
  Notation rel := (relres eq false).

  Lemma local_table : forall a pc t c1 c2 op, T0 c1 c2 ->
    rel (RS TC) (parse_table (Env ls1 pc a) table t c1 op None) (parse_table (Env ls2 pc a) table t c2 op None).
  Proof.
    intros a pc t c1 c2 op H. apply (sim_table T0 TC eq false).
    - exact TC_T0.
    - exact TC_kind.
    - exact TC_diag.
    - exact T0_tokenize.
    - exact same_names.
    - left. reflexivity.
    - intros i Hi EQ o Ho. split; [left|right; reflexivity].
      pose proof (forallb_in _ _ _ _ Compose.table_semi_free Hi) as X. exact (forallb_in _ _ _ _ X Ho).
    - reflexivity.
    - intros m. reflexivity.
    - exact H.
    - exact I.
  Qed.

  (** A token that is no ';', and the text behind it. *)
  Definition TO (x y : token * cursor * options) : Prop :=
    TC (snd (fst x)) (fst (fst x)) (snd (fst y)) (fst (fst y)) /\ snd x = snd y.
  Definition TN (x y : token * cursor * options) : Prop :=
    fst (fst x) = fst (fst y) /\ T0 (snd (fst x)) (snd (fst y)) /\ snd x = snd y.
  Lemma local_check : forall l t, rel eq (check_option_line l t) (check_option_line l t).
  Proof. intros l t. apply relres_eq. reflexivity. Qed.
  Lemma local_type : forall l t c1 c2 o, T0 c1 c2 -> rel TN (parse_type l t c1 o) (parse_type l t c2 o).
  Proof.
    intros l t c1 c2 o H. unfold parse_type. destruct (o_type o); [reflexivity|].
    eapply relres_bind; [apply T0_tokenize, H|]. intros (k1, b1) (k2, b2) T. unfold RT in T. cbn [fst snd] in *. pose proof T as (<- & _).
    eapply relres_bind; [apply local_check|]. intros ? ? _. destruct (program_type k1) as [ty|] eqn:PT.
    - split; [reflexivity|]. split; [|reflexivity]. apply (TC_T0 _ _ _ _ T). intros K. unfold program_type, equal in PT. rewrite K in PT. discriminate.
    - destruct (string_is_active _); reflexivity.
  Qed.
  Definition TZ (x y : Z * token * cursor) : Prop := fst x = fst y /\ T0 (snd x) (snd y).
  Lemma local_int : forall c1 c2 m, T0 c1 c2 -> rel TZ (option_int c1 m) (option_int c2 m).
  Proof.
    intros c1 c2 m H. unfold option_int. eapply relres_bind; [apply T0_tokenize, H|]. intros (t1, b1) (t2, b2) T. unfold RT in T. cbn [fst snd] in *. pose proof T as (<- & _).
    destruct (kind t1) eqn:K; try reflexivity. split; [reflexivity|]. apply (TC_T0 _ _ _ _ T). congruence.
  Qed.
  Lemma local_option : forall t c1 c2 o, T0 c1 c2 -> rel TO (parse_option t c1 o) (parse_option t c2 o).
  Proof.
    intros t c1 c2 o H. unfold parse_option. apply (relres_bind _ _ _ _ _ _ TN).
    - destruct (equal t ".dksh"); [apply local_type, H|]. destruct (equal t ".type"); [apply local_type, H|].
      destruct (equal t ".num_gprs").
      { eapply relres_bind; [apply T0_tokenize, H|]. intros (k1, b1) (k2, b2) T. unfold RT in T. cbn [fst snd] in *. pose proof T as (<- & _). destruct (kind k1); reflexivity. }
      destruct (equal t ".workgroup_size").
      { eapply relres_bind; [apply local_int, H|]. intros ((x1, k1), b1) ((x2, k2), b2) (E & S1). cbn [fst snd] in *. injection E as <- <-.
        eapply relres_bind; [apply local_int, S1|]. intros ((y1, l1), d1) ((y2, l2), d2) (E & S2). cbn [fst snd] in *. injection E as <- <-.
        eapply relres_bind; [apply local_int, S2|]. intros ((z1, m1), e1) ((z2, m2), e2) (E & S3). cbn [fst snd] in *. injection E as <- <-.
        eapply relres_bind; [apply local_check|]. intros ? ? _. split; [reflexivity|]. split; [exact S3|reflexivity]. }
      destruct (equal t ".shared_memory").
      { eapply relres_bind; [apply local_int, H|]. intros ((x1, k1), b1) ((x2, k2), b2) (E & S1). cbn [fst snd] in *. injection E as <- <-.
        split; [reflexivity|]. split; [exact S1|reflexivity]. }
      destruct (equal t ".local_memory").
      { eapply relres_bind; [apply local_int, H|]. intros ((x1, k1), b1) ((x2, k2), b2) (E & S1). cbn [fst snd] in *. injection E as <- <-.
        split; [reflexivity|]. split; [exact S1|reflexivity]. }
      split; [reflexivity|]. split; [exact H|reflexivity].
    - intros ((k1, b1), o1) ((k2, b2), o2) (E1 & S1 & E2). cbn [fst snd] in *. subst k2 o2.
      eapply relres_bind; [apply T0_tokenize, S1|]. intros (l1, d1) (l2, d2) T. unfold RT in T. cbn [fst snd] in *. pose proof T as (<- & _).
      destruct (Z.eqb _ _); [reflexivity|]. split; [exact T|reflexivity].
  Qed.
  Lemma local_options_fuel : forall n t c1 c2 o, TC c1 t c2 t -> rel TO (parse_options n t c1 o) (parse_options n t c2 o).
  Proof.
    induction n as [|n IH]; intros t c1 c2 o T; [exact I|]. cbn [parse_options]. destruct (is_option t) eqn:O; [|split; [exact T|reflexivity]].
    eapply relres_bind; [apply local_option, (TC_T0 _ _ _ _ T); intros K; unfold is_option in O; rewrite K in O; discriminate|].
    intros ((k1, b1), o1) ((k2, b2), o2) (T' & E). cbn [fst snd] in *. subst o2. pose proof T' as (<- & _). apply IH, T'.
  Qed.
  Lemma local_options : forall t c1 c2 o, TC c1 t c2 t ->
    rel TO (parse_options (S (S (len c1))) t c1 o) (parse_options (S (S (len c2))) t c2 o).
  Proof.
    intros t c1 c2 o T. set (n := (2 + len c1 + len c2)%nat).
    assert (Q : ((if is_option t then 1 else 0) <= 1)%nat) by (destruct (is_option t); lia).
    rewrite (proj1 (parse_options_fuel (S (S (len c1))) n t c1 o ltac:(lia) ltac:(unfold n; lia))).
    rewrite (proj1 (parse_options_fuel (S (S (len c2))) n t c2 o ltac:(lia) ltac:(unfold n; lia))).
    apply local_options_fuel, T.
  Qed.

  Definition TR (r1 r2 : option (ctx * opcode)) : Prop :=
    match r1, r2 with
    | Some (y1, o1), Some (y2, o2) => o1 = o2 /\ c_pc y1 = c_pc y2 /\ c_opts y1 = c_opts y2 /\ (T0 (c_cur y1) (c_cur y2) \/ T1 (c_cur y1) (c_cur y2))
    | _, _ => False
    end.
  Definition TP (x y : token * cursor * opcode) : Prop :=
    TC (snd (fst x)) (fst (fst x)) (snd (fst y)) (fst (fst y)) /\ snd x = snd y.
  Lemma local_instruction : forall a x1 x2, T0 (c_cur x1) (c_cur x2) -> c_pc x1 = c_pc x2 -> c_opts x1 = c_opts x2 ->
    rel TR (parse_instruction a ls1 x1 opcode0) (parse_instruction a ls2 x2 opcode0).
  Proof.
    intros a x1 x2 H P O. change parse_instruction with (parse_instruction_with table). rewrite !parse_instruction_eq.
    eapply relres_bind; [apply T0_tokenize, H|]. intros (t1, c1) (t2, c2) T. unfold RT in T. cbn [fst snd] in *. pose proof T as (<- & NN & _).
    destruct (ttype_eqb (type_of (kind t1)) ty_none) eqn:TN; [destruct (kind t1); try discriminate; contradiction|].
    unfold rest_of_instruction. rewrite P, O.
    eapply relres_bind; [apply local_options, T|]. intros ((k1, b1), o1) ((k2, b2), o2) (T2 & E). cbn [fst snd] in *. subst o2. pose proof T2 as (<- & _).
    apply (relres_bind _ _ _ _ _ _ TP).
    - destruct (ttype_eqb (type_of (kind k1)) ty_at) eqn:AT.
      + eapply relres_bind; [apply T0_tokenize, (TC_T0 _ _ _ _ T2); intros K; rewrite K in AT; discriminate|].
        intros (l1, e1) (l2, e2) T3. unfold RT in T3. cbn [fst snd] in *. pose proof T3 as (<- & _).
        apply (relres_bind_eq _ _ _ _ _ _ eq).
        { apply relres_eq. reflexivity. }
        intros q ? Q2 <-. eapply relres_bind; [apply T0_tokenize, (TC_T0 _ _ _ _ T3)|].
        { intros K. unfold raise, assemble_predicate in Q2. rewrite K in Q2. discriminate. }
        intros (m1, f1) (m2, f2) T4. unfold RT in T4. cbn [fst snd] in *. split; [exact T4|reflexivity].
      + apply (relres_bind _ _ _ _ _ _ eq); [apply relres_eq; reflexivity|].
        intros q ? <-. split; [exact T2|reflexivity].
    - intros ((l1, e1), q1) ((l2, e2), q2) (T3 & E). cbn [fst snd] in *. subst q2. pose proof T3 as (<- & _).
      destruct (kind l1) eqn:K; try reflexivity.
      eapply relres_bind; [apply local_table, (TC_T0 _ _ _ _ T3); congruence|]. intros s1 s2 ((_ & _ & R) & OP).
      split; [exact OP|]. split; [reflexivity|]. split; [reflexivity|]. cbn [c_cur]. destruct R as [R|(_ & R)]; auto.
  Qed.

  (** Either both programs stop in the same way, or both go on behind the ';'. *)
  Lemma local_decode : forall a max1 max2 n1 n2 idx x1 x2 acc,
    T0 (c_cur x1) (c_cur x2) -> c_pc x1 = c_pc x2 -> c_opts x1 = c_opts x2 ->
    (len (c_cur x1) < n1)%nat -> (len (c_cur x2) < n2)%nat ->
    (idx + semis (rest (c_cur x1)) < max1)%nat -> (idx + semis (rest (c_cur x2)) < max2)%nat ->
    rel (fun _ _ => False) (decode_loop n1 a ls1 max1 idx x1 acc) (decode_loop n2 a ls2 max2 idx x2 acc) \/
    exists m1 m2 idx' y1 y2 acc', T1 (c_cur y1) (c_cur y2) /\ c_pc y1 = c_pc y2 /\ c_opts y1 = c_opts y2 /\
      (exists p, moves (c_cur x1) p (c_cur y1)) /\
      decode_loop n1 a ls1 max1 idx x1 acc = decode_loop m1 a ls1 max1 idx' y1 acc' /\
      decode_loop n2 a ls2 max2 idx x2 acc = decode_loop m2 a ls2 max2 idx' y2 acc'.
  Proof.
    intros a max1 max2 n1. induction n1 as [|n1 IH]; intros n2 idx x1 x2 acc H P O N1 N2 I1 I2; [lia|].
    destruct n2 as [|n2]; [lia|]. cbn [decode_loop].
    rewrite (proj2 (Nat.leb_gt max1 idx)), (proj2 (Nat.leb_gt max2 idx)) by lia.
    pose proof (local_instruction a x1 x2 H P O) as T.
    destruct (parse_instruction a ls1 x1 opcode0) as [r1|d1|d1|w1|u1|] eqn:E1, (parse_instruction a ls2 x2 opcode0) as [r2|d2|d2|w2|u2|] eqn:E2;
      cbn [bind]; try (left; exact T); try (exfalso; exact T); try discriminate T.
    destruct r1 as [(y1, o1)|], r2 as [(y2, o2)|]; cbn in T; try contradiction.
    destruct T as (<- & P' & O' & [T|T]); apply instruction_counts in E1 as C1; apply instruction_counts in E2 as C2; unfold len in *.
    - destruct (IH n2 (S idx) y1 y2 (o1 :: acc) T P' O') as [X|(m1 & m2 & i & z1 & z2 & acc' & X1 & X2 & X3 & (p & M) & X5)]; try lia; [left; exact X|].
      right. exists m1, m2, i, z1, z2, acc'. split; [exact X1|]. split; [exact X2|]. split; [exact X3|]. split; [|exact X5].
      apply instruction_semi in E1 as ((p0 & M0) & _). eexists. exact (moves_trans _ _ _ _ _ M0 M).
    - right. exists n1, n2, (S idx), y1, y2, (o1 :: acc). split; [exact T|]. split; [exact P'|]. split; [exact O'|]. split; [|split; reflexivity].
      apply instruction_semi in E1 as ((p0 & M0) & _). eexists. exact M0.
  Qed.
End Twins.

(** ** Programs *)

Lemma position_still : forall p0 p1, line_after (p0 ++ p1) = line_after p0 -> column_after (p0 ++ p1) = column_after p0 -> p1 = [].
Proof.
  intros p0 p1 L C. apply (still p1 (lines p0 0) (cols p0 0)).
  - rewrite <- lines_app, !lines_after. lia.
  - rewrite <- cols_app, !cols_after. exact C.
Qed.
(** An error in front of a ';' is reported whatever follows, as long as the same
    labels are defined. *)
Theorem local_error : forall a p q q' lab d p0 p1, ~ In NUL (p ++ ";" :: q) -> ~ In NUL (p ++ ";" :: q') -> no_open_end p ->
  labelled (p ++ ";" :: q) lab -> labelled (p ++ ";" :: q') lab -> ~ bare_last_line (p ++ ";" :: q') ->
  assemble a (p ++ ";" :: q) = Fatal d -> p = p0 ++ p1 -> d_pos d = Some (line_after p0, column_after p0) ->
  assemble a (p ++ ";" :: q') = Fatal d.
Proof.
  intros a p q q' lab d p0 p1 N N' O B B' BL H E P. unfold assemble in H |- *.
  destruct (generate_labels_spec _ N) as [(ls & G & _ & F)|(G & _)]; rewrite G in H; cbn [bind] in H; [|discriminate].
  destruct (generate_labels_spec _ N') as [(ls' & G' & _ & F')|(_ & X)]; [|contradiction]. rewrite G'. cbn [bind].
  assert (SN : forall name, find_label ls name = find_label ls' name).
  { intros name. destruct (find_label ls name) as [z|] eqn:Q.
    - apply F in Q. symmetry. apply F'. apply B' . apply B. exact Q.
    - destruct (find_label ls' name) as [z|] eqn:Q'; [|reflexivity]. apply F' in Q'. apply B' in Q'. apply B in Q'. apply F in Q'. congruence. }
  match type of H with bind (decode_loop ?n1 a ls ?m1 0 ?x1 []) _ = _ =>
    match goal with |- bind (decode_loop ?n2 a ls' ?m2 0 ?x2 []) _ = _ =>
      destruct (local_decode q q' ls ls' SN a m1 m2 n1 n2 0 x1 x2 []) as [R|(k1 & k2 & i & y1 & y2 & acc & T & _ & _ & (r & M) & D1 & D2)] end end.
  - split; [reflexivity|]. split; [reflexivity|]. exists p. split; [exact O|]. split; [intros I; apply N, in_or_app; left; exact I|split; reflexivity].
  - reflexivity.
  - reflexivity.
  - unfold len. cbn [c_cur rest]. lia.
  - unfold len. cbn [c_cur rest]. lia.
  - rewrite count_semi_semis. cbn [c_cur rest]. lia.
  - rewrite count_semi_semis. cbn [c_cur rest]. lia.
  - match type of R with relres _ _ _ ?m1 ?m2 => destruct m1 as [(?, ?)| | | | |], m2 as [(?, ?)| | | | |] end; cbn in R; try contradiction; cbn [bind] in H |- *; try discriminate. congruence.
  - exfalso. rewrite D1 in H. pose proof (decode_where (c_cur y1) k1 a ls (S (count_semi (p ++ ";" :: q))) i y1 acc (boundary_refl _)) as W.
    destruct (decode_loop k1 _ _ _ _ _ _) as [(o, l)| |d'| | |]; cbn [bind] in H; try discriminate.
    + apply binary_where in H. congruence.
    + injection H as ->. destruct W as (c & g & cs & BD & MG & _ & _ & PD). destruct (boundary_moves _ _ BD) as (b & MB).
      pose proof (moves_trans _ _ _ _ _ M (moves_trans _ _ _ _ _ MB MG)) as MM. destruct MM as (_ & ML & MC). cbn [c_cur line col] in ML, MC.
      destruct M as (M & _). cbn [c_cur rest] in M. destruct T as (_ & _ & T & _). rewrite T in M. change (p ++ ";" :: q) with (p ++ [";"] ++ q) in M. rewrite app_assoc in M. apply app_inv_tail in M. subst r.
      rewrite P in PD. injection PD as PL PC. rewrite lines_after in ML. rewrite cols_after in MC. rewrite E, <- !app_assoc in ML, MC.
      assert (X : p1 ++ [";"] ++ b ++ g = []) by (apply (position_still p0); [lia|]; unfold column_after in *; rewrite <- MC; symmetry; exact PC).
      apply app_eq_nil in X as (_ & X). discriminate.
Qed.
(** A text without ':' defines nothing. *)
Lemma defines_front : forall p q q' r name, ~ In ":" q -> defines (p ++ ";" :: q) r name -> defines (p ++ ";" :: q') r name.
Proof.
  intros p q q' r name C (LS & LN & s & E). split; [exact LS|]. split; [exact LN|].
  replace (p ++ ";" :: q) with ((p ++ [";"]) ++ q) in E by (rewrite <- app_assoc; reflexivity).
  replace (r ++ name ++ ":" :: s) with ((r ++ name ++ [":"]) ++ s) in E by (rewrite <- !app_assoc; reflexivity).
  replace (p ++ ";" :: q') with ((p ++ [";"]) ++ q') by (rewrite <- app_assoc; reflexivity).
  destruct (app_eq_split _ _ _ _ E) as [(m & -> & _)|(m & X & Y)].
  - exists (m ++ q'). rewrite <- !app_assoc. reflexivity.
  - destruct m as [|x m] using rev_ind.
    + rewrite app_nil_r in X. exists q'. rewrite <- X, <- !app_assoc. reflexivity.
    + exfalso. clear IHm. rewrite !app_assoc in X. apply app_inj_tail in X as (_ & <-). apply C. rewrite Y, !in_app_iff. left. right. left. reflexivity.
Qed.
Lemma labelled_front : forall p q q' lab, ~ In ":" q -> ~ In ":" q' -> labelled (p ++ ";" :: q) lab -> labelled (p ++ ";" :: q') lab.
Proof.
  intros p q q' lab C C' B name z. rewrite (B name z).
  assert (X : forall r, first_defines (p ++ ";" :: q) r name <-> first_defines (p ++ ";" :: q') r name).
  { intros r. split; intros (D & F); (split; [eapply defines_front; [|exact D]; assumption|]); intros r' D'; apply F; (eapply defines_front; [|exact D']; assumption). }
  split; intros (r & FD & ->); exists r; (split; [apply X, FD|reflexivity]).
Qed.
Theorem local_error_plain : forall a p q q' d p0 p1, ~ In NUL (p ++ ";" :: q) -> ~ In NUL (p ++ ";" :: q') -> no_open_end p ->
  ~ In ":" q -> ~ In ":" q' -> ~ bare_last_line (p ++ ";" :: q') ->
  assemble a (p ++ ";" :: q) = Fatal d -> p = p0 ++ p1 -> d_pos d = Some (line_after p0, column_after p0) ->
  assemble a (p ++ ";" :: q') = Fatal d.
Proof.
  intros a p q q' d p0 p1 N N' O C C' BL H E P.
  destruct (generate_labels_spec _ N) as [(ls & G & _ & F)|(G & _)]; [|unfold assemble in H; rewrite G in H; discriminate].
  apply (local_error a p q q' (find_label ls) d p0 p1); try assumption. exact (labelled_front p q q' _ C C' F).
Qed.
