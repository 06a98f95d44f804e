(** * Tidied: a tidied program has the same tokens, labels and words. *)
From Verif Require Import Base Float Lexer Operand Catalogue Table Parse Assemble Spec SpecOperand SpecInsn Bits LexFacts
  SchedFuel Param Reach ParseFacts Outcomes Decode Program Layout Safe Encode Operands Insn
  Position Literals SpecSafe SpecLex Lexemes Stream Cut Where Text SpecFloat Round Half Floats SpecProgram Language SpecLink Link SpecEdit Edit SpecRename Rename SpecOpts SpecWritable
  SpecAsserts Asserts SpecTidy Tidy.
From Coq Require Import Lia.
Local Open Scope char_scope.
Local Open Scope list_scope.
Open Scope Z_scope.

(** ** Labels at the beginnings of lines *)

Definition name_char (ch : ascii) : Prop := letter ch \/ Spec.digit ch \/ ch = "_".
Definition name_char_b (ch : ascii) : bool := letter_b ch || digit_b ch || Ascii.eqb ch "_".
Lemma letter_iff : forall ch, letter_b ch = true <-> letter ch.
Proof. intros ch. unfold letter_b, letter. rewrite orb_true_iff, !andb_true_iff, !N.leb_le. tauto. Qed.
Lemma digit_b_iff : forall ch, digit_b ch = true <-> Spec.digit ch.
Proof. intros ch. unfold digit_b, Spec.digit. rewrite andb_true_iff, !N.leb_le. tauto. Qed.
Lemma name_char_iff : forall ch, name_char_b ch = true <-> name_char ch.
Proof. intros ch. unfold name_char_b, name_char. rewrite !orb_true_iff, letter_iff, digit_b_iff, Ascii.eqb_eq. tauto. Qed.
Lemma name_char_inner : forall ch, name_char ch -> inner ch /\ ch <> ":".
Proof.
  intros ch H. apply name_char_iff in H. split.
  - unfold inner. intros I. assert (F : forallb (fun x => negb (name_char_b x)) separators = true) by reflexivity.
    pose proof (forallb_in _ _ _ _ F I) as X. cbv beta in X. rewrite H in X. discriminate.
  - intros ->. discriminate.
Qed.
Lemma upto_colon_spec : forall s l, upto_colon s = l -> l <> [] -> exists n x, Forall name_char n /\ l = n ++ [":"] /\ s = n ++ ":" :: x.
Proof.
  induction s as [|ch s IH]; intros l E NE; [subst; contradiction|]. cbn [upto_colon] in E. destruct (Ascii.eqb_spec ch ":") as [->|C].
  - exists [], s. subst l. repeat split. constructor.
  - fold (name_char_b ch) in E. destruct (name_char_b ch) eqn:B; [|subst; contradiction].
    destruct (upto_colon s) as [|x l'] eqn:U; [subst; contradiction|]. destruct (IH _ eq_refl ltac:(discriminate)) as (n & y & F & L & S0).
    exists (ch :: n), y. split; [constructor; [apply name_char_iff, B|exact F]|]. rewrite S0, <- E, L. split; reflexivity.
Qed.
Lemma upto_colon_name : forall n x, Forall name_char n -> upto_colon (n ++ ":" :: x) = n ++ [":"].
Proof.
  induction n as [|ch n IH]; intros x F; [reflexivity|]. inversion F as [|? ? C F']; subst. cbn [app upto_colon].
  destruct (Ascii.eqb_spec ch ":") as [->|N]; [destruct (name_char_inner _ C); contradiction|].
  fold (name_char_b ch). apply name_char_iff in C. rewrite C, IH by exact F'. destruct n; reflexivity.
Qed.
(** A colon or white space ends the search. *)
Definition stopper (ch : ascii) : Prop := ch = ":" \/ In ch blanks.
Lemma upto_colon_stop : forall v ch t, stopper ch -> upto_colon ((v ++ [ch]) ++ t) = upto_colon (v ++ [ch]).
Proof.
  induction v as [|x v IH]; intros ch t S0.
  - cbn [app upto_colon]. destruct S0 as [->|I]; [reflexivity|]. cbn in I. fin_in; reflexivity.
  - cbn [app upto_colon]. rewrite (IH ch t S0). reflexivity.
Qed.
Definition zero_name (n : text) : Prop := exists x, n = "R" :: "Z" :: x.
Lemma label_here_spec : forall s l, label_here s = l -> l <> [] -> exists n x, label_name n /\ ~ zero_name n /\ l = n ++ [":"] /\ s = n ++ ":" :: x.
Proof.
  intros s l E NE.
  assert (G : exists ch s', s = ch :: s' /\ letter_b ch = true /\ upto_colon s = l /\ ~ zero_name s).
  { destruct s as [|ch s]; [subst; destruct NE; reflexivity|]. exists ch, s. split; [reflexivity|]. unfold label_here in E.
    assert (D : (if letter_b ch then upto_colon (ch :: s) else []) = l -> letter_b ch = true /\ upto_colon (ch :: s) = l).
    { destruct (letter_b ch); intros X; [auto|exfalso; apply NE; symmetry; exact X]. }
    destruct (Ascii.eqb_spec ch "R") as [->|NR].
    - destruct s as [|c2 s]; [destruct (D E) as (A & B); split; [exact A|]; split; [exact B|]; intros (x & X); discriminate|].
      destruct (Ascii.eqb_spec c2 "Z") as [->|NZ]; [subst l; contradiction|].
      assert (X : letter_b "R" = true /\ upto_colon ("R" :: c2 :: s) = l).
      { apply D. rewrite <- E. destruct c2 as [[] [] [] [] [] [] [] []]; try reflexivity. contradiction. }
      destruct X as (A & B). split; [exact A|]. split; [exact B|]. intros (x & X). injection X as X _. contradiction.
    - assert (X : letter_b ch = true /\ upto_colon (ch :: s) = l).
      { apply D. rewrite <- E. destruct ch as [[] [] [] [] [] [] [] []]; try reflexivity. contradiction. }
      destruct X as (A & B). split; [exact A|]. split; [exact B|]. intros (x & X). injection X as X _. contradiction. }
  destruct G as (ch & s' & -> & LB & U & NZ). destruct (upto_colon_spec _ _ U NE) as (n & x & F & L & S0).
  destruct n as [|c n]; [cbn [app] in S0; injection S0 as -> ->; discriminate LB|]. cbn [app] in S0. injection S0 as -> S0.
  exists (c :: n), x. inversion F as [|? ? C F']; subst. split; [|split; [|split; [exact L|reflexivity]]].
  - exists c, n. split; [reflexivity|]. split; [apply letter_iff, LB|exact F'].
  - intros (y & Y). apply NZ. exists (y ++ ":" :: x). injection Y as -> ->. reflexivity.
Qed.
Lemma label_here_name : forall n x, label_name n -> ~ zero_name n -> label_here (n ++ ":" :: x) = n ++ [":"].
Proof.
  intros n x (ch & n' & -> & L & F) NZ.
  assert (U : upto_colon ((ch :: n') ++ ":" :: x) = (ch :: n') ++ [":"]).
  { apply upto_colon_name. constructor; [left; exact L|exact F]. }
  apply letter_iff in L. cbn [app] in *.
  assert (D : (if letter_b ch then upto_colon (ch :: n' ++ ":" :: x) else []) = ch :: n' ++ [":"]) by (rewrite L; exact U).
  rewrite <- D. unfold label_here. destruct (Ascii.eqb_spec ch "R") as [->|NR].
  - destruct (n' ++ ":" :: x) as [|c2 s] eqn:E2; [reflexivity|]. destruct (Ascii.eqb_spec c2 "Z") as [->|N2].
    + exfalso. destruct n' as [|c3 n']; [discriminate|]. injection E2 as -> _. apply NZ. exists n'. reflexivity.
    + destruct c2 as [[] [] [] [] [] [] [] []]; try reflexivity. contradiction.
  - destruct ch as [[] [] [] [] [] [] [] []]; try reflexivity. contradiction.
Qed.

(** Label definitions and the number of ';' in front, where [b] tells whether the
    text starts at the beginning of a line. *)
Inductive marked : bool -> text -> text -> nat -> Prop :=
| marked_here : forall n x, label_name n -> marked true (n ++ ":" :: x) n 0
| marked_later : forall b ch q n m, marked (Ascii.eqb ch "010") q n m -> marked b (ch :: q) n ((if Ascii.eqb ch ";" then 1 else 0) + m).
Lemma label_name_lf : forall n, label_name n -> ~ In "010" n.
Proof.
  intros n (ch & s & -> & L & F) [E|I].
  - subst ch. destruct L as [L|L]; vm_compute in L; destruct L as [A B]; auto; apply A; reflexivity.
  - rewrite Forall_forall in F. apply F in I. assert (X : name_char_b "010" = true) by (apply name_char_iff; exact I). discriminate.
Qed.
Lemma label_name_first : forall n, label_name n -> exists ch s, n = ch :: s /\ letter_b ch = true.
Proof. intros n (ch & s & -> & L & _). exists ch, s. split; [reflexivity|apply letter_iff, L]. Qed.

(** A text that starts with no label. *)
Definition unlabelled_start (q : text) (name : text) : Prop := forall x, label_name name -> q <> name ++ ":" :: x.
Lemma marked_cons : forall b ch q n m, marked b (ch :: q) n m <->
  (b = true /\ label_name n /\ m = O /\ exists x, ch :: q = n ++ ":" :: x) \/
  (exists m', marked (Ascii.eqb ch "010") q n m' /\ m = ((if Ascii.eqb ch ";" then 1 else 0) + m')%nat).
Proof.
  intros b ch q n m. split.
  - intros H. remember (ch :: q) as s eqn:E. destruct H as [n x L|b c r n m H].
    + left. repeat split; eauto.
    + injection E as -> ->. right. eauto.
  - intros [(-> & L & -> & x & E)|(m' & H & ->)]; [rewrite E; constructor; exact L|constructor; exact H].
Qed.
Lemma marked_nil : forall b n m, ~ marked b [] n m.
Proof. intros b n m H. remember [] as s eqn:E. destruct H as [n x L|]; [destruct n; discriminate|discriminate]. Qed.
Lemma marked_up : forall q n m, marked false q n m -> marked true q n m.
Proof. intros q n m H. inversion H; subst. constructor. assumption. Qed.
(** Characters of one line. *)
Lemma marked_line : forall s b q n m, ~ In "010" s -> s <> [] -> (b = true -> unlabelled_start (s ++ q) n) ->
  (marked b (s ++ q) n m <-> exists m', marked false q n m' /\ m = (semis s + m')%nat).
Proof.
  induction s as [|ch s IH]; intros b q n m NL NE U; [contradiction|]. cbn [app]. rewrite marked_cons.
  assert (CH : Ascii.eqb ch "010" = false) by (apply Ascii.eqb_neq; intros ->; apply NL; left; reflexivity). rewrite CH.
  assert (SE : semis (ch :: s) = ((if Ascii.eqb ch ";" then 1 else 0) + semis s)%nat) by (cbn [semis]; destruct (Ascii.eqb ch ";"); reflexivity). rewrite SE.
  assert (R : (exists m', marked false (s ++ q) n m' /\ m = ((if Ascii.eqb ch ";" then 1 else 0) + m')%nat) <->
              (exists m', marked false q n m' /\ m = ((if Ascii.eqb ch ";" then 1 else 0) + semis s + m')%nat)).
  { destruct s as [|c2 s].
    - cbn [app semis]. rewrite Nat.add_0_r. tauto.
    - split.
      + intros (m' & H & ->). apply IH in H as (m'' & H & ->); [|intros I; apply NL; right; exact I|discriminate|discriminate]. exists m''. split; [exact H|lia].
      + intros (m' & H & ->). exists (semis (c2 :: s) + m')%nat. split; [|lia]. apply IH; [intros I; apply NL; right; exact I|discriminate|discriminate|eauto]. }
  rewrite <- R. split; [|auto]. intros [(-> & L & _ & x & E)|H]; [|exact H]. destruct (U eq_refl x L E).
Qed.
Lemma marked_lf : forall b q n m, marked b ("010" :: q) n m <-> marked true q n m.
Proof.
  intros b q n m. rewrite marked_cons. split.
  - intros [(_ & L & _ & x & E)|(m' & H & ->)]; [|exact H]. destruct (label_name_first n L) as (ch & s & -> & C). injection E as <- _. discriminate.
  - intros H. right. exists m. split; [exact H|reflexivity].
Qed.
Lemma marked_blank : forall b q n m, marked b (" " :: q) n m <-> marked false q n m.
Proof.
  intros b q n m. rewrite marked_cons. split.
  - intros [(_ & L & _ & x & E)|(m' & H & ->)]; [|exact H]. destruct (label_name_first n L) as (ch & s & -> & C). injection E as <- _. discriminate.
  - intros H. right. exists m. split; [exact H|reflexivity].
Qed.

(** ** What is kept of the gaps *)

Lemma bare_false : forall g, bare false g = [] \/ exists r, bare false g = "010" :: r.
Proof.
  induction g as [|ch g IH]; [left; reflexivity|]. cbn [bare]. destruct (Ascii.eqb ch "010"); [right; eauto|exact IH].
Qed.
Definition stops (g : text) : Prop := g = [] \/ exists g' ch, g = g' ++ [ch] /\ stopper ch.
Lemma stops_tail : forall ch g, stops (ch :: g) -> stops g.
Proof.
  intros ch g [E|(g' & x & E & S0)]; [discriminate|]. destruct g' as [|y g']; [injection E as _ ->; left; reflexivity|].
  injection E as _ ->. right. eauto.
Qed.
Lemma stops_upto : forall g t, g <> [] -> stops g -> upto_colon (g ++ t) = upto_colon g.
Proof. intros g t NE [->|(g' & ch & -> & S0)]; [contradiction|]. apply upto_colon_stop, S0. Qed.
Lemma stops_starts : forall g t n, g <> [] -> stops g -> label_name n -> ~ zero_name n ->
  ((exists x, g ++ t = n ++ ":" :: x) <-> (exists x, g = n ++ ":" :: x)).
Proof.
  intros g t n NE ST L NZ. split; intros (x & E).
  - assert (F : Forall name_char n) by (destruct L as (ch & s & -> & LE & F); constructor; [left; exact LE|exact F]).
    pose proof (stops_upto g t NE ST) as U. rewrite E, (upto_colon_name n x F) in U. symmetry in U.
    destruct (upto_colon_spec _ _ U) as (n' & y & F' & E1 & E2); [destruct n; discriminate|]. apply app_inj_tail in E1 as (<- & _). eauto.
  - exists (x ++ t). rewrite E, <- app_assoc. reflexivity.
Qed.
Section Kept.
  Variables (tail tail' n : text) (T : nat -> Prop).
  Hypothesis named_n : ~ zero_name n.
  Hypothesis marked_tail : forall b m, marked b tail n m <-> T m.
  Hypothesis marked_tail' : forall b m, marked b tail' n m <-> T m.
  Lemma kept_flag : forall b g m, marked b (bare false g ++ tail') n m <-> marked false (bare false g ++ tail') n m.
  Proof.
    intros b g m. destruct (bare_false g) as [->|(r & ->)]; cbn [app]; [rewrite !marked_tail'; tauto|]. rewrite !marked_lf. tauto.
  Qed.
  Lemma kept_marks : forall g b m, stops g -> ~ In ";" g -> (marked b (g ++ tail) n m <-> marked b (bare b g ++ tail') n m).
  Proof.
    induction g as [|ch g IH]; intros b m ST NS; [cbn [bare app]; rewrite marked_tail, marked_tail'; tauto|].
    pose proof (stops_tail _ _ ST) as ST'. assert (NS' : ~ In ";" g) by (intros I; apply NS; right; exact I).
    cbn [bare]. destruct (Ascii.eqb_spec ch "010") as [->|NL].
    { cbn [app]. rewrite !marked_lf. apply IH; assumption. }
    assert (SC : Ascii.eqb ch ";" = false) by (apply Ascii.eqb_neq; intros ->; apply NS; left; reflexivity).
    assert (A : marked b ((ch :: g) ++ tail) n m <-> (b = true /\ label_name n /\ m = O /\ exists x, ch :: g = n ++ ":" :: x) \/ marked false (g ++ tail) n m).
    { cbn [app]. rewrite marked_cons, SC, (proj2 (Ascii.eqb_neq ch "010") NL). rewrite app_comm_cons. split.
      - intros [(-> & L & -> & E)|(m' & H & ->)]; [left|right; exact H]. apply (stops_starts (ch :: g) tail n) in E; [repeat split; auto|discriminate|exact ST|exact L|exact named_n].
      - intros [(-> & L & -> & E)|H]; [left|right; exists m; auto]. repeat split; auto. apply (stops_starts (ch :: g) tail n); [discriminate|exact ST|exact L|exact named_n|exact E]. }
    rewrite A. clear A.
    destruct b; [|cbn [app]; rewrite (IH false m ST' NS'); split; [intros [(X & _)|X]; [discriminate|exact X]|auto]].
    destruct (label_here (ch :: g)) as [|l0 l] eqn:LH.
    - cbn [app]. rewrite kept_flag, <- (IH false m ST' NS'). split; [|auto]. intros [(_ & L & _ & x & E)|X]; [|exact X].
      rewrite E, (label_here_name n x L named_n) in LH. destruct n; discriminate.
    - destruct (label_here_spec _ _ LH ltac:(discriminate)) as (n0 & x & L0 & NZ0 & EL & EG). rewrite EL, <- app_assoc.
      rewrite <- app_assoc. cbn [app]. clear LH EL l0 l.
      assert (LF0 : ~ In "010" (n0 ++ [":"])).
      { intros I. apply in_app_or in I as [I|[I|[]]]; [exact (label_name_lf _ L0 I)|discriminate]. }
      assert (S0 : semis (n0 ++ [":"]) = O).
      { apply semis_none. intros I. apply NS. rewrite EG. apply in_or_app. apply in_app_or in I as [I|[I|[]]]; [left; exact I|discriminate]. }
      assert (F0 : forall n1, label_name n1 -> Forall name_char n1) by (intros n1 (c & s & -> & LE & F); constructor; [left; exact LE|exact F]).
      destruct (list_eq_dec ascii_dec n0 n) as [E0|E0].
      + subst n0. change (n ++ ":" :: bare false g ++ tail') with (n ++ [":"] ++ (bare false g ++ tail')).
        split.
        * intros [(_ & _ & -> & _)|H]; [constructor; exact L0|].
          apply (IH false m ST' NS') in H. 
          assert (Y : marked false ((n ++ [":"]) ++ bare false g ++ tail') n m).
          { apply marked_line; [exact LF0|destruct n; discriminate|discriminate|]. exists m. rewrite S0. auto. }
          rewrite <- app_assoc in Y. exact (marked_up _ _ _ Y).
        * intros H. destruct (label_name_first n L0) as (c & s & En & C).
          assert (Z0 : (n ++ [":"] ++ bare false g ++ tail') = c :: (s ++ [":"] ++ bare false g ++ tail')) by (rewrite En; reflexivity). rewrite Z0 in H.
          apply marked_cons in H as [(_ & _ & -> & _)|(m' & H & ->)]; [left; repeat split; eauto|]. right.
          assert (Y : marked false ((n ++ [":"]) ++ bare false g ++ tail') n ((if Ascii.eqb c ";" then 1 else 0) + m')) by (rewrite <- app_assoc; rewrite Z0; constructor; exact H).
          apply marked_line in Y as (m'' & Y & ->); [|exact LF0|destruct n; discriminate|discriminate]. rewrite S0. apply (IH false _ ST' NS'). exact Y.
      + assert (U : unlabelled_start ((n0 ++ [":"]) ++ bare false g ++ tail') n).
        { intros y L E. rewrite <- app_assoc in E. cbn [app] in E. apply E0.
          pose proof (upto_colon_name n0 (bare false g ++ tail') (F0 _ L0)) as X1. pose proof (upto_colon_name n y (F0 _ L)) as X2.
          rewrite E, X2 in X1. apply app_inj_tail in X1 as (X1 & _). auto. }
        change (n0 ++ ":" :: bare false g ++ tail') with (n0 ++ [":"] ++ (bare false g ++ tail')). rewrite app_assoc.
        rewrite (marked_line (n0 ++ [":"]) true (bare false g ++ tail') n m LF0 ltac:(destruct n0; discriminate) (fun _ => U)). rewrite S0. cbn [plus]. split.
        * intros [(_ & L & -> & y & E)|H]; [|exists m; split; [apply (IH false m ST' NS'); exact H|reflexivity]].
          exfalso. apply E0. pose proof (upto_colon_name n0 x (F0 _ L0)) as X1. pose proof (upto_colon_name n y (F0 _ L)) as X2.
          rewrite <- EG, E, X2 in X1. apply app_inj_tail in X1 as (X1 & _). auto.
        * intros (m' & H & ->). right. apply (IH false _ ST' NS'). exact H.
  Qed.
End Kept.

(** ** Tokens *)

(** Words without characters that end lines or statements, and without colons unless they start with a dot. *)
Definition tidy_word (u : text) : Prop := (forall ch, In ch ["010"; ";"; NUL] -> ~ In ch u) /\ (~ In ":" u \/ begins ["."] u).
Definition tidy_kind (k : tkind) : Prop := forall u, k = TIdent u -> tidy_word u.

Lemma decimals_free : forall s ch, Forall (fun x => In x decimals) s -> ~ In ch decimals -> ~ In ch s.
Proof. intros s ch F N I. rewrite Forall_forall in F. exact (N (F _ I)). Qed.
Definition odd_chars : text := ["010"; ";"; NUL; ":"].
Lemma odd_decimals : forall ch, In ch odd_chars -> ~ In ch decimals.
Proof. intros ch I J. cbn in I, J. fin_in; discriminate. Qed.
Lemma is_decimal_free : forall s ch, forallb is_decimal s = true -> In ch odd_chars -> ~ In ch s.
Proof. intros s ch F I J. pose proof (forallb_in _ _ _ _ F J) as X. cbn in I. fin_in; discriminate. Qed.
Lemma sign_free : forall s b ch, sign s b -> In ch odd_chars -> ~ In ch s.
Proof. intros s b ch [] I J; cbn in I, J; fin_in; discriminate. Qed.
Lemma bang_free : forall s b ch, bang s b -> In ch odd_chars -> ~ In ch s.
Proof. intros s b ch [(-> & _)|(-> & _)] I J; cbn in I, J; fin_in; discriminate. Qed.
(** Such characters occur in names and in the token ';' only. *)
Lemma lexeme_free : forall s k q, lexeme s k q -> (forall u, k <> TIdent u) -> k <> TSemi -> forall ch, In ch odd_chars -> ~ In ch s.
Proof.
  intros s k q H NI NT ch I J. destruct H as [c k q O _|s i neg q P _ _|s v q V _|s neg v k q (sg & ip & fp & -> & SG & _ & D & _) _|q _|s n q D _ _ _|q _ _|w q N _ _].
  - destruct J as [->|[]]. unfold operators in O. cbn [In] in O. repeat (destruct O as [O|O]; [injection O as <- <-; cbn in I; try (fin_in; discriminate); destruct (NT eq_refl)|]). contradiction.
  - destruct P as (b & p & x & -> & B & P & X). apply in_app_iff in J as [J|[J|[J|[]]]].
    + exact (bang_free _ _ _ B I J).
    + subst p. cbn in I, P. fin_in; discriminate.
    + subst x. destruct X as [(d & D & _)|(X & _)]; [|cbn in I, X; fin_in; discriminate].
      apply digit10 in D as (D & _). cbn in I. fin_in; discriminate.
  - apply integer_imm in V. pose proof (forallb_in _ _ _ _ V J) as X. cbn in I. fin_in; discriminate.
  - apply decimals_iff in D. rewrite forallb_app in D. apply andb_true_iff in D as (D1 & D2).
    apply in_app_iff in J as [J|J]; [exact (sign_free _ _ _ SG I J)|]. apply in_app_iff in J as [J|[J|J]].
    + exact (is_decimal_free _ _ D1 I J).
    + subst ch. cbn in I. fin_in; discriminate.
    + exact (is_decimal_free _ _ D2 I J).
  - cbn in I, J. fin_in; discriminate.
  - destruct J as [J|J]; [subst ch; cbn in I; fin_in; discriminate|]. apply decimals_iff in D. exact (is_decimal_free _ _ D I J).
  - cbn in I, J. fin_in; discriminate.
  - exact (NI w eq_refl).
Qed.
Lemma kind_cases : forall k, (exists u, k = TIdent u) \/ k = TSemi \/ ((forall u, k <> TIdent u) /\ k <> TSemi).
Proof. intros []; try (right; right; split; [intros u E|intros E]; discriminate); [left; eauto|right; left; reflexivity]. Qed.
Lemma lexeme_ident : forall s u q, lexeme s (TIdent u) q -> s = u.
Proof.
  intros s u q H. remember (TIdent u) as k eqn:E. destruct H as [c k q O _| | | | | | |w q N _ _]; try discriminate; [|congruence].
  unfold operators in O. cbn [In] in O. subst k. repeat (destruct O as [O|O]; [discriminate O|]). contradiction.
Qed.
Lemma lexeme_semi : forall s q, lexeme s TSemi q -> s = [";"].
Proof.
  intros s q H. remember TSemi as k eqn:E. destruct H as [c k q O _| | | | | | |]; try discriminate.
  subst k. unfold operators in O. cbn [In] in O. repeat (destruct O as [O|O]; [try discriminate O; injection O as <-; reflexivity|]). contradiction.
Qed.
Lemma lexeme_clean : forall s k q, lexeme s k q -> tidy_kind k -> ~ In "010" s /\ ~ In NUL s /\ semis s = one_semi k /\ ends_read s.
Proof.
  intros s k q H K.
  assert (NS : forall x, ~ In ";" x -> semis x = O /\ ends_read x).
  { intros x X. split; [apply semis_none, X|]. intros a p b _ E. exfalso. apply X. rewrite E. apply in_or_app. right. right. left. reflexivity. }
  destruct (kind_cases k) as [(u & ->)|[->|(A & B)]].
  - apply lexeme_ident in H. subst s. destruct (K u eq_refl) as (F & _). split; [apply F; left; reflexivity|]. split; [apply F; right; right; left; reflexivity|].
    apply NS, F. right. left. reflexivity.
  - apply lexeme_semi in H. subst s. split; [intros [X|[]]; discriminate|]. split; [intros [X|[]]; discriminate|]. split; [reflexivity|].
    intros a p b I E. destruct a as [|y a]; [discriminate|]. destruct a; discriminate.
  - pose proof (lexeme_free s k q H A B) as F. split; [apply F; cbn; tauto|]. split; [apply F; cbn; tauto|].
    destruct (NS s) as (X & Y); [apply F; cbn; tauto|]. split; [|exact Y]. rewrite X. destruct k; try reflexivity. contradiction.
Qed.
Lemma spell_clean : forall k, possible k -> tidy_kind k -> ~ In "010" (spell k) /\ ~ In NUL (spell k) /\ semis (spell k) = one_semi k /\ ends_read (spell k).
Proof. intros k P K. apply (lexeme_clean (spell k) k []); [|exact K]. apply spelled; [exact P|left; reflexivity]. Qed.
(** No label starts where a token starts. *)
Lemma unlabelled_ends : forall s q n, ~ In ":" s -> ends q -> unlabelled_start (s ++ q) n.
Proof.
  intros s q n C E x L H.
  assert (F : Forall name_char n) by (destruct L as (c & t & -> & LE & F); constructor; [left; exact LE|exact F]).
  apply app_eq_app in H as (l & [(-> & H)|(-> & H)]).
  - destruct l as [|y l]; [cbn [app] in H; subst q|injection H as <- _; apply C; apply in_or_app; right; left; reflexivity].
    destruct E as [E|(ch & q' & E & I)]; [discriminate|]. injection E as <- _. cbn in I. fin_in; discriminate.
  - subst q. destruct E as [E|(ch & q' & E & I)]; [destruct l; discriminate|]. destruct l as [|y l].
    + injection E as <- _. cbn in I. fin_in; discriminate.
    + injection E as <- _. apply Forall_app in F as (_ & F). inversion F as [|? ? X _]; subst. exact (proj1 (name_char_inner _ X) I).
Qed.
Lemma unlabelled_first : forall ch q n, letter_b ch = false -> unlabelled_start (ch :: q) n.
Proof. intros ch q n B x L E. destruct (label_name_first n L) as (c & s & -> & C). injection E as -> _. congruence. Qed.
Lemma lexeme_unlabelled : forall s k q n, lexeme s k q -> tidy_kind k -> unlabelled_start (s ++ q) n.
Proof.
  intros s k q n H K. destruct (kind_cases k) as [(u & ->)|[->|(A & B)]].
  - pose proof (lexeme_ident _ _ _ H) as ->. destruct (K u eq_refl) as (_ & [C|(ch & t & -> & [<-|[]])]).
    + apply unlabelled_ends; [exact C|]. remember (TIdent u) as k eqn:E. clear - H E. destruct H as [c k q O _| | | | | | |w q N _ X]; try discriminate; [|exact X].
      unfold operators in O. cbn [In] in O. subst k. repeat (destruct O as [O|O]; [discriminate O|]). contradiction.
    + apply unlabelled_first. reflexivity.
  - apply lexeme_semi in H. subst s. apply unlabelled_first. reflexivity.
  - pose proof (lexeme_free s k q H A B ":" ltac:(cbn; tauto)) as C.
    destruct H as [c k q O _|s i neg q P _ E|s v q V (E & _)|s neg v k q _ E|q E|s x q D _ _ E|q E _|w q N _ E]; try (apply unlabelled_ends; assumption).
    apply unlabelled_first. unfold operators in O. cbn [In] in O. repeat (destruct O as [O|O]; [injection O as <- _; reflexivity|]). contradiction.
Qed.

(** ** Gaps *)

Lemma gap_stops : forall g q, gap g q -> stops g.
Proof.
  intros g q G. induction G as [ws q F|ws w g q F (N & (w' & ->) & _) G IH].
  - destruct ws as [|x ws _] using rev_ind; [left; reflexivity|]. right. exists ws, x. split; [reflexivity|]. right.
    apply Forall_app in F as (_ & F). inversion F; assumption.
  - right. destruct IH as [->|(g' & ch & -> & S0)].
    + exists (ws ++ w'), ":". split; [rewrite app_nil_r, app_assoc; reflexivity|left; reflexivity].
    + exists (ws ++ (w' ++ [":"]) ++ g'), ch. split; [rewrite <- !app_assoc; reflexivity|exact S0].
Qed.
Lemma label_word : forall n, label_name n -> ~ zero_name n -> name (n ++ [":"]).
Proof.
  intros n L NZ. assert (F : Forall name_char n) by (destruct L as (c & t & -> & LE & F); constructor; [left; exact LE|exact F]).
  destruct L as (h & t & -> & LE & FT). apply letter_iff in LE. left. exists h, (t ++ [":"]). split; [reflexivity|]. split; [|].
  { apply Forall_app. split; [eapply Forall_impl; [|exact FT]; intros c X; exact (proj1 (name_char_inner c X))|]. constructor; [|constructor].
    intros I. cbn in I. fin_in; discriminate. }
  assert (X : forall set, forallb (fun x => negb (letter_b x)) set = true -> ~ In h set).
  { intros set B I. pose proof (forallb_in _ _ _ _ B I) as Y. cbv beta in Y. rewrite LE in Y. discriminate. }
  split; [apply X; reflexivity|]. split; [intros ->; discriminate|]. split; [apply X; reflexivity|].
  split; [intros I; destruct (X decimals eq_refl I)|]. split; [intros ->; discriminate|].
  assert (NB : forall b neg, bang b neg -> forall p t', (h :: t) ++ [":"] = b ++ p :: t' -> b = [] /\ p = h /\ t' = t ++ [":"]).
  { intros b neg [(-> & _)|(-> & _)] p t' E; [cbn [app] in E; injection E as <- <-; auto|]. cbn [app] in E. injection E as -> _. discriminate. }
  split; [intros b neg p t' B P E ->; destruct (NB b neg B p [] E) as (_ & _ & Y); destruct t; discriminate|]. split.
  - intros i neg (b & p & x & E & B & _ & Y). destruct (NB b neg B p [x] E) as (-> & -> & Z0). destruct t as [|c t]; [|destruct t; discriminate].
    injection Z0 as ->. destruct Y as [(d & D & _)|(Y & _)]; [apply digit10 in D as (D & _); discriminate|cbn in Y; fin_in; discriminate].
  - intros ->. split.
    + intros (c & t' & E & [<-|[]]). apply NZ. destruct t as [|c t]; [discriminate|]. injection E as -> _. exists t. reflexivity.
    + exists ":". split; [apply in_or_app; right; left; reflexivity|]. intros I. cbn in I. fin_in; discriminate.
Qed.
Lemma gap_blank_cons : forall ch g q, In ch blanks -> gap g q -> gap (ch :: g) q.
Proof.
  intros ch g q I G. destruct G as [ws q F|ws w g q F L G]; [constructor; constructor; assumption|].
  change (ch :: ws ++ w ++ g) with ((ch :: ws) ++ w ++ g). constructor; [constructor; assumption|exact L|exact G].
Qed.
Lemma bare_gap : forall g b t q, Forall (fun ch => In ch blanks) t -> t <> [] \/ q = [] -> gap (bare b g ++ t) q.
Proof.
  induction g as [|ch g IH]; intros b t q F D; cbn [bare app]; [constructor; exact F|].
  destruct (Ascii.eqb_spec ch "010") as [->|NL]; [cbn [app]; apply gap_blank_cons; [cbn; tauto|apply IH; assumption]|].
  destruct b; [|apply IH; assumption]. destruct (label_here (ch :: g)) as [|l0 l] eqn:LH; [apply IH; assumption|].
  destruct (label_here_spec _ _ LH ltac:(discriminate)) as (n & x & L & NZ & EL & EG). rewrite EL, <- app_assoc.
  apply (gap_label [] (n ++ [":"]) (bare false g ++ t) q); [constructor| |apply IH; assumption].
  split; [apply label_word; assumption|]. split; [exists n; reflexivity|].
  destruct (bare_false g) as [->|(r & ->)]; cbn [app]; [|right; exists "010", ((r ++ t) ++ q); split; [reflexivity|cbn; tauto]].
  destruct t as [|c t]; [destruct D as [D|D]; [contradiction|subst q; left; reflexivity]|]. right. exists c, (t ++ q). split; [reflexivity|].
  apply blanks_separators. inversion F; assumption.
Qed.
Lemma label_here_chars : forall s ch, In ch (label_here s) -> name_char ch \/ ch = ":".
Proof.
  intros s ch I. destruct (label_here s) as [|l0 l] eqn:LH; [contradiction|].
  destruct (label_here_spec _ _ LH ltac:(discriminate)) as (n & x & (c & t & -> & LE & F) & _ & EL & _). rewrite EL in I.
  apply in_app_or in I as [[<-|I]|[<-|[]]]; [left; left; exact LE| |right; reflexivity]. left. rewrite Forall_forall in F. exact (F _ I).
Qed.
Lemma bare_chars : forall g b ch, In ch (bare b g) -> ch = "010" \/ name_char ch \/ ch = ":".
Proof.
  induction g as [|c g IH]; intros b ch I; [contradiction|]. cbn [bare] in I. destruct (Ascii.eqb c "010").
  - destruct I as [<-|I]; [left; reflexivity|exact (IH _ _ I)].
  - apply in_app_or in I as [I|I]; [|exact (IH _ _ I)]. destruct b; [|contradiction]. right. exact (label_here_chars _ _ I).
Qed.
Lemma newlines_none : forall s, ~ In "010" s -> newlines s = 0.
Proof.
  intros s N. unfold newlines. assert (E : filter (Ascii.eqb "010") s = []); [|rewrite E; reflexivity].
  induction s as [|ch s IH]; [reflexivity|]. cbn [filter]. destruct (Ascii.eqb_spec "010" ch) as [<-|]; [destruct N; left; reflexivity|].
  apply IH. intros I. apply N. right. exact I.
Qed.
Lemma bare_newlines : forall g b, newlines (bare b g) = newlines g.
Proof.
  induction g as [|ch g IH]; intros b; [reflexivity|]. cbn [bare]. destruct (Ascii.eqb_spec ch "010") as [->|NL].
  - change ("010" :: bare true g) with (["010"] ++ bare true g). change ("010" :: g) with (["010"] ++ g). rewrite !newlines_app, IH. reflexivity.
  - change (ch :: g) with ([ch] ++ g). rewrite !newlines_app, IH. f_equal. rewrite !newlines_none; [reflexivity|intros [->|[]]; contradiction|].
    destruct b; [|intros []]. intros I. apply label_here_chars in I as [I|I]; [|discriminate]. apply name_char_iff in I. discriminate.
Qed.
Lemma bare_last : forall g b p ch, bare b g = p ++ [ch] -> ch = "010" \/ ch = ":".
Proof.
  induction g as [|c g IH]; intros b p ch E; [destruct p; discriminate|]. cbn [bare] in E.
  assert (G : forall x y, x ++ y = p ++ [ch] -> (forall p', x = p' ++ [ch] -> ch = "010" \/ ch = ":") -> (forall p', y = p' ++ [ch] -> ch = "010" \/ ch = ":") -> ch = "010" \/ ch = ":").
  { intros x y E0 X Y. destruct y as [|d y _] using rev_ind; [rewrite app_nil_r in E0; exact (X _ E0)|]. rewrite app_assoc in E0.
    apply app_inj_tail in E0 as (_ & ->). exact (Y y eq_refl). }
  destruct (Ascii.eqb c "010").
  - apply (G ["010"] (bare true g) E); [|intros p'; apply IH]. intros p' X. destruct p' as [|? p']; [injection X as <-; left; reflexivity|destruct p'; discriminate].
  - apply (G _ _ E); [|intros p'; apply IH]. intros p' X. destruct b; [|destruct p'; discriminate].
    destruct (label_here_spec _ _ X ltac:(destruct p'; discriminate)) as (n & x & _ & _ & EL & _). apply app_inj_tail in EL as (_ & ->). right. reflexivity.
Qed.

(** ** Tidied texts *)

Lemma tidies_exist : forall q n ts, lexes q n ts -> forall b, exists r, tidies b q r.
Proof.
  intros q n ts H. induction H as [g n G|g s k q n ts G L H IH]; intros b; [eexists; constructor; exact G|].
  destruct (IH false) as (r & R). eexists. econstructor; eassumption.
Qed.
Lemma tidies_apart : forall q r, tidies false q r -> apart_from r.
Proof.
  intros q r H. remember false as b eqn:E. destruct H as [b g G|b g s k q r G L H]; subst b.
  - destruct (bare_false g) as [->|(r & ->)]; [left; reflexivity|right; exists "010", r; split; [reflexivity|cbn; tauto]].
  - right. destruct (bare_false g) as [->|(r' & ->)]; cbn [app]; eexists _, _; (split; [reflexivity|cbn; tauto]).
Qed.
Lemma ends_read_none : forall x, ~ In ";" x -> ends_read x.
Proof. intros x X a p b _ E. exfalso. apply X. rewrite E. apply in_or_app. right. right. left. reflexivity. Qed.
Lemma ends_read_join : forall x y, ends_read x -> ends_read y -> ~ begins [";"] y -> ends_read (x ++ y).
Proof.
  intros x y X Y B a p b I E. apply app_eq_app in E as (l & [(-> & E)|(-> & E)]).
  - destruct l as [|c l]; [cbn [app] in E; destruct (Y [] p b I (eq_sym E)) as (v & ch & Q & _); destruct v; discriminate|]. injection E as <- E. destruct l as [|c l].
    + exfalso. apply B. exists ";", b. split; [symmetry; exact E|left; reflexivity].
    + injection E as <- E. exact (X a p l I eq_refl).
  - destruct (Y l p b I E) as (a' & ch & -> & N). exists (x ++ a'), ch. rewrite <- app_assoc. auto.
Qed.
Lemma closed_join : forall x y, (y = [] -> closed x) -> closed y -> closed (x ++ y).
Proof.
  intros x y X Y p ch E. destruct y as [|d y _] using rev_ind; [rewrite app_nil_r in E; exact (X eq_refl p ch E)|].
  rewrite app_assoc in E. apply app_inj_tail in E as (_ & <-). exact (Y y d eq_refl).
Qed.
Lemma bare_closed : forall b g, closed (bare b g).
Proof.
  intros b g p ch E C. assert (X : name_char_b ch = true) by (apply name_char_iff; exact C). apply bare_last in E as [-> | ->]; discriminate.
Qed.
Lemma bare_clean : forall b g, ~ In ";" (bare b g) /\ ~ In NUL (bare b g).
Proof.
  intros b g. split; intros I; apply bare_chars in I as [I|[I|I]]; try discriminate; apply name_char_iff in I; discriminate.
Qed.

Lemma lexes_empty : forall n t ts, ~ lexes [] n (t :: ts).
Proof.
  intros n t ts H. remember [] as e eqn:Ee. remember (t :: ts) as l eqn:El. destruct H as [|g s k q n ts' _ L _]; [discriminate|].
  destruct (lexeme_first _ _ _ L) as (ch & x & -> & _). destruct g; discriminate.
Qed.
Lemma tidied_facts : forall b q r, tidies b q r -> forall n0, exists ts, lexes q n0 ts /\
  ((forall k, In k (map fst ts) -> tidy_kind k) -> ends_read q ->
    lexes r n0 ts /\ ~ In NUL r /\ (ends_read r /\ ~ begins [";"] r) /\ (ts = [] \/ last (map fst ts) TNone = TSemi -> closed r) /\
    forall n m, ~ zero_name n -> (marked b q n m <-> marked b r n m)).
Proof.
  intros b q r H. induction H as [b g G|b g s k q r G L H IH]; intros n0.
  - exists []. split; [constructor; exact G|]. intros _ ER. destruct (bare_clean b g) as (C1 & C2). split; [|split; [exact C2|]].
    { constructor. rewrite <- (app_nil_r (bare b g)). apply bare_gap; [constructor|right; reflexivity]. }
    split; [split; [apply ends_read_none, C1|intros (ch & x & E & [<-|[]]); apply C1; rewrite E; left; reflexivity]|].
    split; [intros _; apply bare_closed|]. intros n m NZ. rewrite <- (app_nil_r g) at 1. rewrite <- (app_nil_r (bare b g)).
    apply (kept_marks [] [] n (fun _ => False) NZ).
    + intros b' m'. split; [apply marked_nil|contradiction].
    + intros b' m'. split; [apply marked_nil|contradiction].
    + eapply gap_stops, G.
    + intros I. pose proof (gap_semis g [] G ER) as SG. clear - I SG. apply in_split in I as (x & y & ->). rewrite semis_app in SG. cbn in SG. lia.
  - destruct (IH (n0 + newlines (g ++ s))) as (ts & LX & F). exists ((k, n0 + newlines g) :: ts). split; [constructor; assumption|].
    intros K ER. pose proof (K k (or_introl eq_refl)) as K1. destruct (ends_read_token _ _ _ _ G L ER) as (EG & ES & EQ).
    destruct (F (fun k' I => K k' (or_intror I)) EQ) as (LR & NR & (RR & BR) & CR & MR). clear IH F.
    pose proof (lexeme_possible _ _ _ L) as P. destruct (lexeme_clean _ _ _ L K1) as (S1 & S2 & S3 & _). destruct (spell_clean k P K1) as (P1 & P2 & P3 & P4).
    pose proof (tidies_apart _ _ H) as AR. destruct (bare_clean b g) as (C1 & C2).
    assert (SN : spell k <> []) by (destruct (lexeme_first _ _ _ (spelled k r P AR)) as (ch & t & -> & _); discriminate).
    split; [|split; [|split; [|split]]].
    + replace (bare b g ++ " " :: spell k ++ r) with ((bare b g ++ [" "]) ++ spell k ++ r) by (rewrite <- app_assoc; reflexivity).
      replace (n0 + newlines g) with (n0 + newlines (bare b g ++ [" "])) by (rewrite newlines_app, bare_newlines; change (newlines [" "]) with 0; lia).
      constructor.
      * apply bare_gap; [constructor; [cbn; tauto|constructor]|left; discriminate].
      * apply spelled; assumption.
      * replace (newlines ((bare b g ++ [" "]) ++ spell k)) with (newlines (g ++ s)); [exact LR|].
        rewrite !newlines_app, bare_newlines, (newlines_none s S1), (newlines_none _ P1). change (newlines [" "]) with 0. lia.
    + intros I. apply in_app_or in I as [I|[I|I]]; [exact (C2 I)|discriminate|]. apply in_app_or in I as [I|I]; auto.
    + split.
      * apply ends_read_join; [apply ends_read_none, C1| |intros (ch & x & E & [<-|[]]); discriminate].
        change (" " :: spell k ++ r) with ((" " :: spell k) ++ r). apply ends_read_join; [|exact RR|exact BR].
        intros a p c I E. destruct a as [|y a]; [injection E as <- _; cbn in I; fin_in; discriminate|]. injection E as <- E.
        destruct (P4 a p c I E) as (a' & ch & -> & X). exists (" " :: a'), ch. split; [reflexivity|exact X].
      * intros (ch & x & E & [<-|[]]). destruct (bare b g) as [|y l] eqn:EB; [discriminate|]. injection E as -> _. apply C1. left. reflexivity.
    + intros [X|X]; [discriminate|]. apply closed_join; [discriminate|]. change (" " :: spell k ++ r) with ((" " :: spell k) ++ r).
      destruct ts as [|t ts].
      * cbn in X. subst k. apply closed_join; [|apply CR; left; reflexivity]. intros _ p ch E. destruct p as [|? p]; [discriminate|]. destruct p as [|? p]; [injection E as _ <-|destruct p; discriminate].
        intros C. apply name_char_iff in C. discriminate.
      * apply closed_join; [|apply CR; right; exact X]. intros ->. exfalso. exact (lexes_empty _ _ _ LR).
    + intros n m NZ. apply (kept_marks (s ++ q) (" " :: spell k ++ r) n (fun m => exists m', marked false q n m' /\ m = (one_semi k + m')%nat) NZ).
      * intros b' m'. rewrite marked_line; [rewrite S3; tauto|exact S1|destruct (lexeme_first _ _ _ L) as (ch & t & -> & _); discriminate|]. intros _. eapply lexeme_unlabelled; eassumption.
      * intros b' m'. rewrite marked_blank. rewrite marked_line; [|exact P1|exact SN|discriminate]. rewrite P3. split; intros (x & X & ->); exists x; (split; [|reflexivity]); apply MR; assumption.
      * eapply gap_stops, G.
      * intros I. pose proof (gap_semis g _ G EG) as SG. clear - I SG. apply in_split in I as (x & y & ->). rewrite semis_app in SG. cbn in SG. lia.
Qed.

(** ** Labels and places *)

Lemma marked_defines : forall q b n m, marked b q n m <->
  exists p x, q = p ++ n ++ ":" :: x /\ label_name n /\ semis p = m /\ ((p = [] /\ b = true) \/ exists p', p = p' ++ ["010"]).
Proof.
  intros q b n m. split.
  - intros H. induction H as [n x L|b ch q n m H (p & x & -> & L & <- & C)]; [exists [], x; auto 10|].
    exists (ch :: p), x. split; [reflexivity|]. split; [exact L|]. split; [cbn [semis]; destruct (Ascii.eqb ch ";"); reflexivity|].
    right. destruct C as [(-> & C)|(p' & ->)]; [apply Ascii.eqb_eq in C as ->; exists []; reflexivity|exists (ch :: p'); reflexivity].
  - intros (p & x & -> & L & <- & C). revert b C. induction p as [|ch p IH]; intros b C.
    + destruct C as [(_ & ->)|(p' & E)]; [constructor; exact L|destruct p'; discriminate].
    + replace (semis (ch :: p)) with ((if Ascii.eqb ch ";" then 1 else 0) + semis p)%nat by (cbn [semis]; destruct (Ascii.eqb ch ";"); reflexivity).
      cbn [app]. apply marked_later. apply IH. destruct C as [(E & _)|(p' & E)]; [discriminate|].
      destruct p' as [|c p']; injection E as -> ->; [left; auto|right; eauto].
Qed.
Lemma marked_true : forall code n m, marked true code n m <-> exists p, defines code p n /\ semis p = m.
Proof.
  intros code n m. rewrite marked_defines. split.
  - intros (p & x & E & L & S0 & C). exists p. split; [|exact S0]. split; [|split; [exact L|exists x; exact E]].
    destruct C as [(-> & _)|(p' & ->)]; [left; reflexivity|right; exists p'; reflexivity].
  - intros (p & (LS & L & x & E) & S0). exists p, x. repeat split; auto. destruct LS as [->|(p' & ->)]; [left; auto|right; exists p'; reflexivity].
Qed.
Lemma defines_ordered : forall code p p' n, defines code p n -> defines code p' n -> (List.length p <= List.length p')%nat -> (semis p <= semis p')%nat.
Proof.
  intros code p p' n (_ & _ & x & E) (_ & _ & x' & E') LE. rewrite E in E'. apply app_eq_app in E' as (l & [(-> & _)|(-> & _)]).
  - rewrite app_length in LE. assert (l = []) as -> by (destruct l; [reflexivity|cbn [List.length] in LE; lia]). rewrite app_nil_r. lia.
  - rewrite semis_app. lia.
Qed.
Lemma least_place : forall code lab n k, labelled code lab ->
  ((exists p, first_defines code p n /\ semis p = k) <-> marked true code n k /\ forall m, marked true code n m -> (k <= m)%nat).
Proof.
  intros code lab n k LB. split.
  - intros (p & (D & F) & S0). split; [apply marked_true; eauto|]. intros m M. apply marked_true in M as (p' & D' & <-). rewrite <- S0. eapply defines_ordered; eauto.
  - intros (M & F). apply marked_true in M as (p & D & S0). destruct (lab n) as [z|] eqn:E; [|destruct (undefined _ _ _ LB E); exists p; exact D].
    apply LB in E as (p' & (D' & F') & _). exists p'. split; [split; assumption|].
    assert (A : (semis p' <= semis p)%nat) by (eapply defines_ordered; eauto). assert (B : (k <= semis p')%nat) by (apply F, marked_true; eauto). lia.
Qed.
Lemma marked_places : forall code code' lab lab' n, labelled code lab -> labelled code' lab' ->
  (forall m, marked true code n m <-> marked true code' n m) -> same_place code code' n.
Proof.
  intros code code' lab lab' n L L' H k. rewrite (least_place _ _ n k L), (least_place _ _ n k L'), H. split; intros (A & B); (split; [exact A|]); intros m M; apply B, H, M.
Qed.

(** ** The words of a program *)

Lemma vocabulary_tidy : forallb (fun s => forallb (fun ch => negb (existsb (Ascii.eqb ch) ["010"; ";"; NUL; ":"])) (lit s)) vocabulary = true.
Proof. vm_compute. reflexivity. Qed.
Lemma dotted_word : forall n, name ("." :: n) -> Forall inner n.
Proof.
  intros n [(h & t & E & F & _)|(b & neg & p & x & t & E & B & P & _)].
  - injection E as _ ->. exact F.
  - exfalso. destruct B as [(-> & _)|(-> & _)]; cbn [app] in E; [|discriminate]. injection E as <- _. cbn in P. fin_in; discriminate.
Qed.
Lemma known_tidy : forall code u, name u ->
  In u (map lit vocabulary) \/ defined code u \/ (exists n, u = "." :: n /\ ~ In u (map lit known_options)) -> tidy_word u.
Proof.
  intros code u NU [I|[(p & _ & L & _)|(n & -> & _)]].
  - apply in_map_iff in I as (s & <- & I). pose proof (forallb_in _ _ _ _ vocabulary_tidy I) as F. cbv beta in F. rewrite forallb_forall in F.
    split; [intros ch C X|left; intros X]; specialize (F _ X); [|discriminate]. cbn in C. fin_in; discriminate.
  - assert (F : forall ch, In ch u -> name_char_b ch = true).
    { intros ch I. apply name_char_iff. destruct L as (c & s & -> & LE & F). destruct I as [<-|I]; [left; exact LE|]. rewrite Forall_forall in F. exact (F _ I). }
    split; [intros ch C X|left; intros X]; specialize (F _ X); [|discriminate]. cbn in C. fin_in; discriminate.
  - split; [|right; exists ".", n; split; [reflexivity|left; reflexivity]]. apply dotted_word in NU. rewrite Forall_forall in NU.
    intros ch C [X|X]; [subst ch; cbn in C; fin_in; discriminate|]. apply (NU _ X). cbn in C. fin_in; cbn; tauto.
Qed.
Lemma name_not_zero : forall u, name u -> ~ zero_name u.
Proof.
  intros u [(h & t & -> & _ & _ & _ & _ & _ & _ & _ & _ & Z0)|(b & neg & p & x & t & -> & B & P & _)] (y & E).
  - injection E as -> ->. destruct (Z0 eq_refl) as (C & _). apply C. exists "Z", y. split; [reflexivity|left; reflexivity].
  - destruct B as [(-> & _)|(-> & _)]; cbn [app] in E; [|discriminate]. injection E as -> _. cbn in P. fin_in; discriminate.
Qed.
Lemma last_behind : forall (A : Type) (d x : A) l l', last (l ++ x :: l') d = last (x :: l') d.
Proof. intros A d x l l'. induction l as [|y l IH]; [reflexivity|]. cbn [app]. rewrite <- IH. destruct l; reflexivity. Qed.
Lemma sentence_last : forall lab n ts ss ops, sentence lab n ts ss ops -> ts = [] \/ last (map fst ts) TNone = TSemi.
Proof.
  intros lab n ts ss ops H. induction H as [n|n s t us v ts ss ops W O N H IH|n pre i post gi gn kg kf us ts ss op ops T G F P M H IH].
  - left. reflexivity.
  - right. destruct IH as [IH|IH]; [discriminate|]. rewrite app_comm_cons, map_app. change (map fst (v :: ts)) with (fst v :: map fst ts). rewrite last_behind. exact IH.
  - right. destruct IH as [->|IH].
    + rewrite app_nil_r, M. destruct F as (ko & kn & notes & w & r & -> & _). rewrite app_comm_cons, !app_assoc. apply last_last.
    + destruct ts as [|t ts].
      * rewrite app_nil_r, M. destruct F as (ko & kn & notes & w & r & -> & _). rewrite app_comm_cons, !app_assoc. apply last_last.
      * rewrite map_app. change (map fst (t :: ts)) with (fst t :: map fst ts). rewrite last_behind. exact IH.
Qed.

(** ** The rules on tokens *)

Lemma lexes_scan : forall c ks c', scan c ks c' -> forall ts d, lexes (rest c) (line c) ts -> lexes (rest d) (line d) ts -> exists d', scan d ks d'.
Proof.
  intros c ks c' H. induction H as [c|c t c1 ks c' T H IH]; intros ts d L D; [exists d; constructor|].
  destruct (lexes_step _ _ L) as (t0 & c0 & T0 & C). rewrite T in T0. injection T0 as <- <-.
  destruct (lexes_step _ _ D) as (u & d1 & U & C'). assert (E : forall (q : text), q = [] -> forall n, lexes q n []) by (intros q -> n; constructor; constructor; constructor).
  destruct C as [(-> & K & R)|(us & -> & L1)]; destruct C' as [(E' & K' & R')|(us' & E' & L')]; try discriminate.
  - destruct (IH [] d1 (E _ R _) (E _ R' _)) as (d' & S0). exists d'. rewrite K, <- K'. econstructor; eassumption.
  - injection E' as E1 E2 E3. subst us'. destruct (IH us d1 L1 L') as (d' & S0). exists d'. rewrite E1. econstructor; eassumption.
Qed.
Lemma lexes_occurs : forall code code' ts ks, lexes code 0 ts -> lexes code' 0 ts -> occurs code ks -> occurs code' ks.
Proof.
  intros code code' ts ks L L' (pre & c & S0). destruct (lexes_scan _ _ _ S0 ts (Cursor code' 0 0) L L') as (d & D). exists pre, d. exact D.
Qed.
Lemma lexes_inside : forall code code' ts m ks k, lexes code 0 ts -> lexes code' 0 ts -> inside code m ks k -> inside code' m ks k.
Proof. intros code code' ts m ks k L L' (O & N). split; [exact (lexes_occurs _ _ _ _ L L' O)|exact N]. Qed.
Lemma lexes_tame : forall code code' ts, lexes code 0 ts -> lexes code' 0 ts -> closed code' -> tame code -> tame code'.
Proof.
  intros code code' ts L L' C T r I. assert (O : forall ks, occurs code' ks -> occurs code ks) by (intros ks; apply (lexes_occurs _ _ _ _ L' L)).
  assert (J : forall m ks k, inside code' m ks k -> inside code m ks k) by (intros m ks k; apply (lexes_inside _ _ _ _ _ _ L' L)).
  pose proof (T r I) as X. cbn [rules In] in I.
  destruct I as [<-|[<-|[<-|[<-|[<-|[<-|[<-|[<-|[]]]]]]]]].
  - exact C.
  - intros ks k H. eapply X, J, H.
  - intros e c n H1 H2 H3. eapply X; [exact H1|exact H2|apply J, H3].
  - intros m ks n H1 H2. eapply X; [exact H1|apply J, H2].
  - intros m ks z H1 H2. eapply X; [exact H1|apply J, H2].
  - intros m k H1 H2. eapply X; [exact H1|apply O, H2].
  - intros k H. eapply X, O, H.
  - intros z H. eapply X, O, H.
Qed.
Lemma lexes_free : forall code code' ts, lexes code 0 ts -> lexes code' 0 ts -> ends_read code' -> ~ In NUL code' -> assert_free code -> assert_free code'.
Proof.
  intros code code' ts L L' C N T r I.
  assert (J : forall m ks k, inside code' m ks k -> inside code m ks k) by (intros m ks k; apply (lexes_inside _ _ _ _ _ _ L' L)).
  pose proof (T r I) as X. cbn [assert_rules In] in I.
  destruct I as [<-|[<-|[<-|[<-|[<-|[<-|[<-|[]]]]]]]].
  - intros m l ks k H1 H2 H3. eapply X; [exact H1|apply J, H2|exact H3].
  - intros ks H. eapply X, J, H.
  - intros ks H1 H2. eapply X; [exact H1|apply J, H2].
  - intros m ks w H1 H2 H3. eapply X; [exact H1|exact H2|apply J, H3].
  - intros ks H. eapply X, J, H.
  - exact C.
  - exact N.
Qed.

(** ** Tidied programs *)

Section Tidied.
  Variables (a : bool) (code code' : text) (w : list N).
  Hypothesis no_nul : ~ In NUL code.
  Hypothesis tame_code : tame code.
  Hypothesis read_code : ends_read code.
  Hypothesis accepted : assemble a code = Ok w.
  Hypothesis tidied : tidies true code code'.

  Lemma tidied_tokens : exists ts lab ss ops, lexes code 0 ts /\ labelled code lab /\ sentence lab 0 ts ss ops /\ lexes code' 0 ts /\
    ~ In NUL code' /\ ends_read code' /\ closed code' /\ (forall n m, ~ zero_name n -> (marked true code n m <-> marked true code' n m)) /\
    forall u, In (TIdent u) (map fst ts) -> ~ zero_name u.
  Proof.
    destruct (accepted_means _ _ _ no_nul accepted) as (ts & lab & ss & ops & LX & LB & SE & FI).
    destruct (tidied_facts _ _ _ tidied 0) as (ts' & LX' & F). rewrite (lexes_same _ _ _ _ LX LX') in F.
    assert (NM : forall u, In (TIdent u) (map fst ts) -> name u).
    { intros u I. pose proof (lexes_possible _ _ _ LX) as P. rewrite Forall_forall in P. apply (P _ I). }
    destruct F as (L' & N' & (R' & _) & C' & M').
    { intros k I u ->. apply (known_tidy code u (NM u I)). eapply words_known; [exact no_nul|exact accepted|exact LX|exact I]. }
    { exact read_code. }
    exists ts, lab, ss, ops. do 6 (split; [assumption|]). split; [|split; [exact M'|intros u I; apply name_not_zero, NM, I]].
    apply C'. eapply sentence_last, SE.
  Qed.
  Theorem tidied_tame : ~ In NUL code' /\ tame code' /\ (assert_free code -> assert_free code').
  Proof.
    destruct tidied_tokens as (ts & lab & ss & ops & LX & LB & SE & LX' & N' & R' & C' & M' & Z').
    split; [exact N'|]. split; [exact (lexes_tame _ _ _ LX LX' C' tame_code)|]. intros F. exact (lexes_free _ _ _ LX LX' R' N' F).
  Qed.
  Theorem tidied_accepted : Z.of_nat (List.length code') <= 2 ^ 57 -> assemble false code' = Ok w.
  Proof.
    intros SH. destruct tidied_tame as (N' & T' & _).
    destruct tidied_tokens as (ts & lab & ss & ops & LX & LB & SE & LX' & _ & _ & _ & M' & Z').
    destruct (labels_here code' N' T' SH) as (ls & G & _).
    assert (LB' : labelled code' (find_label ls)) by (intros name z; apply (first_definition code' ls N' G)).
    assert (SP : forall n, ~ zero_name n -> same_place code code' n) by (intros n NZ; eapply marked_places; eauto).
    apply (renamed a code code' w ts ts ts); try assumption.
    - clear - SP Z'. induction ts as [|(k, l) ts IH]; [constructor|]. constructor; [intros n ->; apply SP, Z'; left; reflexivity|]. apply IH. intros u I. apply Z'. right. exact I.
    - exists (map (fun x => (fst x, (snd x, snd x))) ts). rewrite !map_map. cbn [fst snd].
      split; [|split]; try (rewrite <- (map_id ts) at 1; apply map_ext; intros (k, l); reflexivity).
      intros x y s I J _. apply in_map_iff in I as (x0 & <- & _). apply in_map_iff in J as (y0 & <- & _). cbn [fst snd]. tauto.
    - apply SP. intros (x & E). discriminate.
  Qed.
  Theorem tidied_builds : assert_free code -> Z.of_nat (List.length code') <= 2 ^ 57 -> assemble true code' = Ok w.
  Proof.
    intros F SH. destruct tidied_tame as (N' & T' & F'). rewrite (free_builds_agree code' (F' F)). exact (tidied_accepted SH).
  Qed.
End Tidied.

(** ** Tidying twice *)

Lemma bare_flag : forall g t, ~ In "010" t -> Forall (fun ch => In ch blanks) t -> bare true (bare false g ++ t) = bare false (bare false g ++ t).
Proof.
  intros g t NL BL. destruct (bare_false g) as [->|(r & ->)]; [|reflexivity]. cbn [app]. destruct t as [|ch t]; [reflexivity|].
  cbn [bare]. destruct (Ascii.eqb_spec ch "010") as [->|_]; [reflexivity|]. inversion BL as [|? ? B _]; subst. cbn in B. fin_in; reflexivity.
Qed.
Lemma bare_line : forall v x, ~ In "010" v -> bare false (v ++ x) = bare false x.
Proof.
  induction v as [|ch v IH]; intros x NL; [reflexivity|]. cbn [app bare]. destruct (Ascii.eqb_spec ch "010") as [->|_]; [destruct NL; left; reflexivity|].
  cbn [app]. apply IH. intros I. apply NL. right. exact I.
Qed.
Lemma bare_start : forall v x, v <> [] -> ~ In "010" v -> bare true (v ++ x) = label_here (v ++ x) ++ bare false x.
Proof.
  intros [|ch v] x NE NL; [contradiction|]. cbn [app]. cbn [bare]. destruct (Ascii.eqb_spec ch "010") as [->|_]; [destruct NL; left; reflexivity|].
  rewrite bare_line; [reflexivity|intros I; apply NL; right; exact I].
Qed.
Lemma bare_bare : forall g b t, ~ In "010" t -> Forall (fun ch => In ch blanks) t -> bare b (bare b g ++ t) = bare b g.
Proof.
  induction g as [|ch g IH]; intros b t NL BL.
  - cbn [bare app]. destruct b; [|rewrite <- (app_nil_r t), bare_line by exact NL; reflexivity].
    destruct t as [|ch t]; [reflexivity|]. rewrite <- (app_nil_r (ch :: t)), bare_start; [|discriminate|exact NL].
    inversion BL as [|? ? B _]; subst. cbn in B. fin_in; reflexivity.
  - cbn [bare]. destruct (Ascii.eqb_spec ch "010") as [->|NC]; [cbn [app bare]; rewrite Ascii.eqb_refl, IH by assumption; reflexivity|].
    destruct b; [|cbn [app]; apply IH; assumption]. destruct (label_here (ch :: g)) as [|l0 l] eqn:LH.
    + cbn [app]. rewrite bare_flag, IH by assumption. reflexivity.
    + destruct (label_here_spec _ _ LH ltac:(discriminate)) as (n & x & L & NZ & -> & _).
      rewrite <- app_assoc, bare_start; [|destruct n; discriminate|intros I; apply in_app_or in I as [I|[I|[]]]; [exact (label_name_lf _ L I)|discriminate]].
      rewrite <- app_assoc. cbn [app]. rewrite (label_here_name n _ L NZ), IH by assumption. rewrite <- app_assoc. reflexivity.
Qed.
(** A tidied text is left as it is. *)
Theorem tidied_again : forall b q r, tidies b q r -> tidies b r r.
Proof.
  intros b q r H. induction H as [b g G|b g s k q r G L H IH].
  - pose proof (bare_bare g b [] (fun I => I) (Forall_nil _)) as E. rewrite app_nil_r in E. rewrite <- E at 2. constructor.
    rewrite <- (app_nil_r (bare b g)). apply bare_gap; [constructor|right; reflexivity].
  - pose proof (bare_bare g b [" "]) as E. rewrite <- E at 2; [|intros [X|[]]; discriminate|constructor; [cbn; tauto|constructor]].
    replace (bare b g ++ " " :: spell k ++ r) with ((bare b g ++ [" "]) ++ spell k ++ r) by (rewrite <- app_assoc; reflexivity).
    constructor; [apply bare_gap; [constructor; [cbn; tauto|constructor]|left; discriminate]| |exact IH].
    apply spelled; [eapply lexeme_possible, L|eapply tidies_apart, H].
Qed.

(** ** There is one way to tidy a text *)

Lemma place_moves : forall d l c, l <= lines d l /\ (lines d l = l -> c <= cols d c /\ (cols d c = c -> d = [])).
Proof.
  induction d as [|ch d IH]; intros l c; [cbn; split; [lia|]; intros _; split; [lia|reflexivity]|].
  cbn [lines cols]. destruct (IH (adv_line ch l) (adv_col ch c)) as (A & B). unfold adv_line, adv_col in *.
  destruct (Ascii.eqb_spec ch LF) as [->|N]; [split; [lia|intros; lia]|]. split; [exact A|]. intros E. destruct (B E) as (C & _).
  destruct (Ascii.eqb ch TAB); split; intros; lia.
Qed.
Lemma places_apart : forall p p' q q' l c, p ++ q = p' ++ q' -> lines p l = lines p' l -> cols p c = cols p' c -> p = p'.
Proof.
  intros p p' q q' l c E EL EC. apply app_eq_app in E as (d & [(-> & _)|(-> & _)]); rewrite lines_app in EL; rewrite cols_app in EC.
  - destruct (place_moves d (lines p' l) (cols p' c)) as (_ & X). destruct (X EL) as (_ & Y). rewrite (Y EC), app_nil_r. reflexivity.
  - symmetry in EL, EC. destruct (place_moves d (lines p l) (cols p c)) as (_ & X). destruct (X EL) as (_ & Y). rewrite (Y EC), app_nil_r. reflexivity.
Qed.
Lemma token_split : forall g s k q g' s' k' q', g ++ s ++ q = g' ++ s' ++ q' -> gap g (s ++ q) -> lexeme s k q -> gap g' (s' ++ q') -> lexeme s' k' q' ->
  g = g' /\ k = k' /\ q = q'.
Proof.
  intros g s k q g' s' k' q' E G L G' L'.
  assert (T : forall g s k q, gap g (s ++ q) -> lexeme s k q ->
    tokenize (Cursor (g ++ s ++ q) 0 0) = Ok (Token k (lines g 0) (cols g 0), Cursor q (lines s (lines g 0)) (cols s (cols g 0)))).
  { clear. intros g s k q G L. apply tokenize_iff. exists g, s, (Cursor (s ++ q) (lines g 0) (cols g 0)).
    split; [repeat split|]. split; [exact G|]. split; [repeat split|]. split; [left; exact L|]. split; reflexivity. }
  pose proof (T _ _ _ _ G L) as T1. pose proof (T _ _ _ _ G' L') as T2. rewrite E, T2 in T1. injection T1 as E1 E2 E3 E4 _ _. repeat split; auto.
  eapply places_apart; [exact E|symmetry; exact E2|symmetry; exact E3].
Qed.
Theorem tidies_unique : forall b q r r', tidies b q r -> tidies b q r' -> r = r'.
Proof.
  intros b q r r' H. revert r'. induction H as [b g G|b g s k q r G L H IH]; intros r' H'.
  - remember g as c eqn:E in H' at 1. destruct H' as [b g' G'|b g' s' k' q' r' G' L' H']; [rewrite E; reflexivity|]. exfalso.
    destruct (tidied_facts _ _ _ H' (0 + newlines (g' ++ s'))) as (ts & LX & _). pose proof (lexes_token g' s' k' q' 0 ts G' L' LX) as A. rewrite E in A.
    pose proof (lexes_end g 0 G) as B. pose proof (lexes_same _ _ _ _ B A). discriminate.
  - remember (g ++ s ++ q) as c eqn:E in H'. destruct H' as [b g' G'|b g' s' k' q' r' G' L' H'].
    + exfalso. destruct (tidied_facts _ _ _ H (0 + newlines (g ++ s))) as (ts & LX & _). pose proof (lexes_token g s k q 0 ts G L LX) as A. rewrite <- E in A.
      pose proof (lexes_end g' 0 G') as B. pose proof (lexes_same _ _ _ _ B A). discriminate.
    + destruct (token_split _ _ _ _ _ _ _ _ E G' L' G L) as (-> & -> & ->). rewrite (IH _ H'). reflexivity.
Qed.

(** A tidied text, computed. *)
Fixpoint skipped (x y l c : Z) (s : text) : text :=
  if (l =? x) && (c =? y) then []
  else match s with [] => [] | ch :: s' => ch :: skipped x y (adv_line ch l) (adv_col ch c) s' end.
Lemma skipped_gap : forall g q l c, skipped (lines g l) (cols g c) l c (g ++ q) = g.
Proof.
  induction g as [|ch g IH]; intros q l c; [destruct q; cbn [app lines cols skipped]; rewrite !Z.eqb_refl; reflexivity|].
  cbn [app skipped]. destruct ((l =? lines (ch :: g) l) && (c =? cols (ch :: g) c)) eqn:B; [|cbn [lines cols]; rewrite IH; reflexivity].
  apply andb_true_iff in B as (B1 & B2). apply Z.eqb_eq in B1, B2. destruct (place_moves (ch :: g) l c) as (_ & X). destruct (X (eq_sym B1)) as (_ & Y).
  discriminate (Y (eq_sym B2)).
Qed.
Fixpoint tidied_text (n : nat) (b : bool) (c : cursor) : option text :=
  match n with
  | O => None
  | S n =>
      match tokenize c with
      | Ok (t, c') =>
          if match kind t with TNone => true | _ => false end then Some (bare b (rest c))
          else
            match tidied_text n false c' with
            | Some r => Some (bare b (skipped (t_line t) (t_col t) (line c) (col c) (rest c)) ++ " " :: spell (kind t) ++ r)
            | None => None
            end
      | _ => None
      end
  end.
Lemma tidied_decided : forall n b c r, ~ In NUL (rest c) -> tidied_text n b c = Some r -> tidies b (rest c) r.
Proof.
  induction n as [|n IH]; intros b c r NN H; [discriminate|]. cbn [tidied_text] in H. destruct (tokenize c) as [(t & c')|d|d|w|u|] eqn:T; try discriminate.
  assert (D : kind t = TNone \/ (kind t <> TNone /\ match tidied_text n false c' with
            | Some r => Some (bare b (skipped (t_line t) (t_col t) (line c) (col c) (rest c)) ++ " " :: spell (kind t) ++ r)
            | None => None end = Some r)).
  { destruct (kind t); auto; right; (split; [discriminate|exact H]). }
  destruct D as [K|(K & D)].
  - rewrite K in H. injection H as <-. assert (LX : lexes (rest c) (line c) []) by (apply end_lexes; [exact NN|exists t, c'; auto]).
    inversion LX; subst. constructor. assumption.
  - clear H. destruct (tidied_text n false c') as [r'|] eqn:R; [|discriminate]. assert (EQ : forall A (x y : A), Some x = Some y -> x = y) by (intros A x y E; congruence). apply EQ in D. subst r.
    apply tokenize_iff in T as (g & s & cs & (R1 & L1 & C1) & G & (R2 & L2 & C2) & TT & TL & TC).
    destruct TT as [L|(_ & K' & _)]; [|contradiction]. rewrite TL, TC, L1, C1. rewrite R1 at 2. rewrite skipped_gap. rewrite R1, R2. rewrite R2 in G. constructor; [exact G|exact L|].
    apply IH; [|exact R]. intros I. apply NN. rewrite R1, R2. apply in_or_app. right. apply in_or_app. right. exact I.
Qed.

(** ** Token streams *)

Lemma listed_lexes : forall ks n, Forall possible ks -> exists ts, lexes (flat_map (fun k => " " :: spell k) ks) n ts /\ map fst ts = ks.
Proof.
  induction ks as [|k ks IH]; intros n F; [exists []; split; [constructor; constructor; constructor|reflexivity]|]. inversion F as [|? ? P F']; subst.
  destruct (IH (n + newlines ([" "] ++ spell k)) F') as (ts & L & E). exists ((k, n + newlines [" "]) :: ts). split; [|cbn [map fst]; rewrite E; reflexivity].
  change (flat_map (fun k => " " :: spell k) (k :: ks)) with ([" "] ++ spell k ++ flat_map (fun k => " " :: spell k) ks).
  constructor; [constructor; constructor; [cbn; tauto|constructor]| |exact L].
  apply spelled; [exact P|]. destruct ks as [|k' ks]; [left; reflexivity|right]. eexists _, _. split; [reflexivity|cbn; tauto].
Qed.
Theorem streams_iff : forall ks, (exists code ts, lexes code 0 ts /\ map fst ts = ks) <-> Forall possible ks.
Proof.
  intros ks. split; [intros (code & ts & L & <-); eapply lexes_possible, L|]. intros F. destruct (listed_lexes ks 0 F) as (ts & X). eauto.
Qed.
Theorem tokenized_possible : forall c t c', tokenize c = Ok (t, c') -> kind t = TNone \/ possible (kind t).
Proof.
  intros c t c' T. apply tokenize_iff in T as (g & s & cs & _ & _ & _ & [L|(_ & K & _)] & _); [right; eapply lexeme_possible, L|left; exact K].
Qed.
Theorem spelled_read : forall k q l c, possible k -> apart_from q -> tokenize (Cursor (spell k ++ q) l c) =
  Ok (Token k l c, Cursor q (lines (spell k) l) (cols (spell k) c)).
Proof.
  intros k q l c P A. apply tokenize_iff. exists [], (spell k), (Cursor (spell k ++ q) l c). split; [repeat split|]. split; [constructor; constructor|].
  split; [repeat split|]. split; [left; apply spelled; assumption|]. split; reflexivity.
Qed.
