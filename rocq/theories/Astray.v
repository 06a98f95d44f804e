(** * Astray: messages of several lines, and messages that point at what they ask for. *)
From Verif Require Import Encode Base Float Lexer Operand Catalogue Table Parse Assemble Diag Spec LexFacts Reach Decode Insn Program SpecInsn SpecLex Lexemes Where SpecProgram SpecLink SpecCli SpecDiag
  Cli Message Report Run.
From Coq Require Import Lia.
Local Open Scope string_scope.
Local Open Scope list_scope.
Open Scope Z_scope.

(** ** Several lines *)

(** A message with a line break in it quotes a word with a line break. *)
Lemma says_quotes : forall known df k s, says known df k s -> lined s -> exists w v x y, k = TIdent w /\ shown w v /\ lined v /\ s = x ++ v ++ y.
Proof.
  assert (Q : forall k v x y s, shown (quoted k) v -> lined v -> s = x ++ v ++ y -> exists w v x y, k = TIdent w /\ shown w v /\ lined v /\ s = x ++ v ++ y).
  { intros k v x y s SH H ->. pose proof (lined_shown _ _ SH H) as W. destruct k; try destruct W. eauto 10. }
  intros known df k s H L. destruct H as [k s p I _|ty I|k ty w I NK ND SH|v z lo hi dz dlo dhi R LH D1 D2 D3|w s ND SH|w s SH|k s QK SH|k s QK NT SH|w s NK SH].
  - exfalso. exact (lined_no _ (forallb_in _ _ _ _ lined_sentences I) L).
  - exfalso. apply lined_app in L as [L|L]; [exact (unlined _ L eq_refl)|]. apply lined_strong in L. exact (lined_no _ (forallb_in _ _ _ _ lined_descriptions I) L).
  - assert (LW : lined w).
    { apply lined_app in L as [L|L]; [destruct (unlined _ L eq_refl)|]. apply lined_app in L as [L|L].
      { apply lined_strong in L. destruct (lined_no _ (forallb_in _ _ _ _ lined_descriptions I) L). }
      apply lined_app in L as [L|L]; [destruct (unlined _ L eq_refl)|]. apply lined_strong in L. apply lined_app in L as [L|L]; [destruct k; destruct (unlined _ L eq_refl)|].
      apply lined_app in L as [L|L]; [destruct (unlined _ L eq_refl)|]. exact L. }
    apply (Q k w (lit "expected " ++ strong (lit ty) ++ lit " and got " ++ escape "[1m" ++ lit (described k) ++ lit " ") (escape "[0m")); [exact SH|exact LW|].
    unfold strong. rewrite <- !app_assoc. reflexivity.
  - exfalso. apply lined_app in L as [L|L]; [exact (unlined _ L eq_refl)|]. apply lined_app in L as [L|L]; [apply lined_strong in L; exact (lined_numeral _ _ D1 L)|].
    apply lined_app in L as [L|L]; [exact (unlined _ L eq_refl)|]. apply lined_app in L as [L|L]; [exact (lined_numeral _ _ D2 L)|].
    apply lined_app in L as [L|L]; [exact (unlined _ L eq_refl)|]. apply lined_app in L as [L|L]; [exact (lined_numeral _ _ D3 L)|exact (unlined _ L eq_refl)].
  - apply lined_app in L as [L|L]; [destruct (unlined _ L eq_refl)|]. apply lined_app in L as [L|L]; [apply lined_strong in L|destruct (unlined _ L eq_refl)].
    apply (Q (TIdent w) s (lit "label " ++ escape "[1m") (escape "[0m" ++ lit " not defined")); [exact SH|exact L|]. unfold strong. rewrite <- !app_assoc. reflexivity.
  - apply lined_app in L as [L|L]; [destruct (unlined _ L eq_refl)|]. apply (Q (TIdent w) s (lit "unexpected test ") []); [exact SH|exact L|]. rewrite app_nil_r. reflexivity.
  - apply lined_app in L as [L|L]; [destruct (unlined _ L eq_refl)|]. apply lined_strong in L.
    apply (Q k s (lit "invalid system register " ++ escape "[1m") (escape "[0m")); [exact SH|exact L|]. unfold strong. rewrite <- !app_assoc. reflexivity.
  - apply lined_app in L as [L|L]; [destruct (unlined _ L eq_refl)|]. apply lined_strong in L.
    apply (Q k s (lit "invalid program type " ++ escape "[1m") (escape "[0m")); [exact SH|exact L|]. unfold strong. rewrite <- !app_assoc. reflexivity.
  - apply lined_app in L as [L|L]; [destruct (unlined _ L eq_refl)|]. apply lined_strong in L.
    apply (Q (TIdent w) s (lit "unknown mnemonic " ++ escape "[1m") (escape "[0m")); [exact SH|exact L|]. unfold strong. rewrite <- !app_assoc. reflexivity.
Qed.
(** A word with a line break is a lone 'P' with the line break behind it. *)
Lemma lined_name : forall w, name w -> lined w -> exists bg neg p t, w = bg ++ p :: "010"%char :: t /\ bang bg neg /\ In p (lit "Pp") /\ Forall inner t.
Proof.
  intros w NM LW. destruct NM as [(h & t & E & F & NB & _)|(bg & neg & p & x & t & E & BG & IP & IX & F)]; subst w.
  - exfalso. destruct LW as [->|LW]; [apply NB; cbn; tauto|]. rewrite Forall_forall in F. apply (F _ LW). cbn. tauto.
  - exists bg, neg, p, t. assert (x = "010"%char) as ->; [|auto].
    apply lined_app in LW as [LW|LW]; [destruct BG as [(-> & _)|(-> & _)]; cbn in LW; intuition discriminate|].
    destruct LW as [->|[E|LW]]; [cbn in IP; intuition discriminate|exact E|]. exfalso. rewrite Forall_forall in F. apply (F _ LW). cbn. tauto.
Qed.
(** The messages of several lines: the one about a '!', and those that quote a
    lone 'P' in front of a line break. *)
Definition bang_message : text := lit "fatal: invalid usage of '!'" ++ ["010"%char].
Definition quotes_break (q body : text) : Prop :=
  exists bg neg p t r v x y, q = (bg ++ p :: "010"%char :: t) ++ r /\ bang bg neg /\ In p (lit "Pp") /\ Forall inner t /\ ends r /\
    shown (bg ++ p :: "010"%char :: t) v /\ body = x ++ v ++ y.
Theorem several_lines : forall code b g q body, about code b g q body ->
  (lined body <-> (body = bang_message /\ exists r, q = "!"%char :: r /\ ~ begins (lit "Pp") r) \/ quotes_break q body).
Proof.
  intros code b g q body (_ & _ & _ & H). split.
  - intros L. destruct H as [(w & k & r & E & TT & SY)|(_ & CM)].
    + right. destruct (says_quotes _ _ _ _ SY L) as (w' & v & x & y & -> & SH & LV & EB). pose proof (lined_shown _ _ SH LV) as LW.
      destruct TT as [TT|(_ & X & _)]; [|discriminate]. inversion TT as [ch k q' IO _ E1 E2| | | | | | |w0 q' NM _ EN E1 E2]; subst.
      { cbn in IO. repeat (destruct IO as [IO|IO]; [discriminate|]). destruct IO. }
      destruct (lined_name _ NM LW) as (bg & neg & p & t & -> & BG & IP & F). exists bg, neg, p, t, r, v, x, y. auto 10.
    + left. destruct CM as [r N|s i neg r _ _ _ _|s r _ CH _ _|s r _ CH _|s r _ CH _|r _|s n r D _ _ _|r _ _]; try (exfalso; exact (unlined _ L eq_refl)).
      * split; [reflexivity|eauto].
      * exfalso. apply lined_app in L as [L|L]; [exact (unlined _ L eq_refl)|]. apply lined_red in L. exact (lined_chunk _ CH L).
      * exfalso. apply lined_app in L as [L|L]; [exact (unlined _ L eq_refl)|]. apply lined_app in L as [L|L]; [|exact (unlined _ L eq_refl)].
        apply lined_red in L as [L|L]; [discriminate|]. exact (lined_denotes _ _ D L).
  - intros [(-> & _)|(bg & neg & p & t & r & v & x & y & _ & BG & IP & _ & _ & SH & ->)].
    + apply in_or_app. right. left. reflexivity.
    + apply in_or_app. right. apply in_or_app. left. destruct SH as [(-> & _)|(r' & E & N)]; [apply in_or_app; right; right; left; reflexivity|].
      assert (BN : Forall (fun ch => ch <> "000"%char) (bg ++ [p; "010"%char])).
      { apply Forall_app. split; [destruct BG as [(-> & _)|(-> & _)]; repeat constructor; discriminate|]. cbn in IP. constructor; [intuition congruence|]. repeat constructor; discriminate. }
      assert (P : exists v', v = (bg ++ [p; "010"%char]) ++ v').
      { change (bg ++ p :: "010"%char :: t) with (bg ++ [p; "010"%char] ++ t) in E. rewrite app_assoc in E. revert E BN. generalize (bg ++ [p; "010"%char]). clear.
        intros l. revert v. induction l as [|ch l IH]; intros v E F; [exists v; reflexivity|]. inversion F; subst.
        destruct v as [|ch' v]; cbn in E; [congruence|]. assert (ch = ch') as -> by congruence. destruct (IH v) as (v' & ->); [congruence|assumption|]. exists v'. reflexivity. }
      destruct P as (v' & ->). apply in_or_app. left. apply in_or_app. right. right. left. reflexivity.
Qed.

(** ** What is pointed at *)

(** [s] is printed about a token [k] of some program. *)
Definition printed_about (s : string) (k : tkind) : Prop :=
  exists code d b g w r, assemble false code = Fatal d /\ ~ In NUL code /\ small code /\ prints (d_msg d) (lit s) /\
    about code b g (w ++ r) (lit s) /\ token_text w k r /\ d_pos d = Some (Where.newlines (b ++ g), width (last_line (b ++ g))).
Definition shows_word (s : string) (l : list string) : Prop := exists x, In x l /\ printed_about s (TIdent (lit x)).
Definition shows_kind (s : string) (f : tkind -> bool) : Prop := exists k, f k = true /\ printed_about s k.

(** Both are decided by running the program. *)
Fixpoint steps (n : nat) (c : cursor) : option cursor :=
  match n with
  | O => Some c
  | S n' => match tokenize c with Ok (_, c') => steps n' c' | _ => None end
  end.
Lemma steps_scan : forall n c c', steps n c = Some c' -> exists ks, scan c ks c'.
Proof.
  induction n as [|n IH]; intros c c' H; cbn [steps] in H; [injection H as <-; exists []; apply scan_nil|].
  destruct (tokenize c) as [(t, c1)| | | | |] eqn:T; try discriminate. destruct (IH _ _ H) as (ks & SC). exists (kind t :: ks). eapply scan_cons; eassumption.
Qed.
Lemma printed_decided : forall s p k n b g w r d, In (s, p) sentences -> p k = true ->
  steps n (Cursor (b ++ g ++ w ++ r) 0 0) = Some (Cursor (g ++ w ++ r) (Where.newlines b) (width (last_line b))) ->
  Forall (fun ch => In ch blanks) g -> token_text w k r -> existsb (Ascii.eqb NUL) (b ++ g ++ w ++ r) = false -> small (b ++ g ++ w ++ r) ->
  assemble false (b ++ g ++ w ++ r) = Fatal d -> d_pos d = Some (Where.newlines (b ++ g), width (last_line (b ++ g))) -> prints (d_msg d) (lit s) -> printed_about s k.
Proof.
  intros s p k n b g w r d I PK ST F TT NN SM A DP PR. exists (b ++ g ++ w ++ r), d, b, g, w, r. split; [exact A|].
  split. { intros H. assert (X : existsb (Ascii.eqb NUL) (b ++ g ++ w ++ r) = true) by (apply existsb_exists; exists NUL; split; [exact H|reflexivity]). congruence. }
  split; [exact SM|]. split; [exact PR|]. split; [|split; [exact TT|exact DP]].
  split; [reflexivity|]. split; [apply (steps_scan n), ST|]. split; [apply gap_blank, F|]. left. exists w, k, r. split; [reflexivity|]. split; [exact TT|]. eapply says_sentence; eassumption.
Qed.
Ltac runs s p n b g w r :=
  eapply (printed_decided s p _ n (lit b) (lit g) (lit w) (lit r));
    [cbn; tauto|reflexivity|vm_compute; reflexivity|vm_compute; repeat (constructor; [tauto|]); constructor|apply token_decided; vm_compute; split; reflexivity
    |vm_compute; reflexivity|vm_compute; reflexivity|vm_compute; reflexivity|vm_compute; reflexivity|split; vm_compute; reflexivity].
Theorem astray_words_exact : forall s l, In (s, l) (named_words ++ astray_words) -> (shows_word s l <-> In (s, l) astray_words).
Proof.
  intros s l I. split.
  - intros (x & IX & code & d & b & g & w & r & _ & _ & _ & _ & A & TT & _). apply in_app_or in I as [I|I]; [|exact I].
    destruct (words_expected _ _ _ _ _ _ _ _ _ A I IX eq_refl TT).
  - clear I. intros I. cbn in I. destruct I as [E|[E|[E|[]]]]; injection E as <- <-.
    + exists ".B". split; [cbn; tauto|]. runs "expected .P or .B" any 1%nat "SUST" "" ".B" " R1;".
    + exists ".U8". split; [cbn; tauto|]. runs "expected .U8, .S8, .U16, .S16, .32, .64, .128 or .U.128" (none_of [".128"]) 2%nat "LDG.U" "" ".U8" " R0, [R1];".
    + exists ".S32". split; [cbn; tauto|]. runs "expected .U32, .S32, .U64, .S64, .F32.FTZ.RN, .F16x2.RN or .S64" any 2%nat "RED.F32" "" ".S32" " [R1], R2;".
Qed.
Theorem astray_kinds_exact : forall s f, In (s, f) (named_kinds ++ astray_kinds) -> (shows_kind s f <-> In (s, f) astray_kinds).
Proof.
  intros s f I. split.
  - intros (k & FK & code & d & b & g & w & r & _ & _ & _ & _ & A & TT & _). apply in_app_or in I as [I|I]; [|exact I].
    rewrite (kinds_expected _ _ _ _ _ _ _ _ _ A I eq_refl TT) in FK. discriminate.
  - clear I. intros I. cbn in I. destruct I as [E|[E|[]]]; injection E as <- <-.
    + exists (TImm 5). split; [reflexivity|]. runs "expected number of general purpose registers" number 1%nat ".num_gprs" " " "5" ";".
    + eexists (TFloat _). split; [reflexivity|]. runs "expected floating-point literal, QNAN, or INF" (none_of ["QNAN"; "INF"]) 6%nat "FADD32I R0, R1, -" " " "1.5" ";".
Qed.
