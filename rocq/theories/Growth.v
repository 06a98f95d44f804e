(** * Growth: what is written behind a program does not change it. *)
From Verif Require Import Base Float Lexer Operand Catalogue Table Parse Assemble Spec LexFacts SchedFuel Param Reach ParseFacts
  Outcomes Decode Program Encode Emit Layout SpecOperand SpecInsn SpecOpts SpecSafe Insn Position Literals SpecLex Lexemes Stream
  Opts SpecContainer Container Text Compose Safe SpecProgram Language SpecLink Link Operands Fields2 SpecEdit Edit.
From Coq Require Import Lia.
Local Open Scope string_scope.
Local Open Scope list_scope.
Open Scope Z_scope.

(** ** One way to read a text *)

Lemma instruction_undotted : forall lab pc ks op s ks', instruction lab pc ks op -> ks <> TIdent ("."%char :: s) :: ks'.
Proof.
  intros lab pc ks op s ks' (pre & i & post & gi & gn & kg & kf & T & G & _ & _ & ->) E.
  assert (I : In i table) by (rewrite T; apply in_elt).
  destruct G as [(-> & _)| ->]; cbn [app] in E; [|discriminate]. pose proof (forallb_in _ _ _ _ table_plain I) as X. cbv beta in X.
  unfold id in E. destruct (i_mnemonic i) as [|ch m]; [discriminate|]. cbn [lit list_ascii_of_string] in E. injection E as -> _. discriminate.
Qed.
Lemma semi_cut : forall (x y : list (tkind * Z)) l l' r r', count_semis x = 0%nat -> count_semis y = 0%nat ->
  x ++ (TSemi, l) :: r = y ++ (TSemi, l') :: r' -> x = y /\ l = l' /\ r = r'.
Proof.
  induction x as [|(k, i) x IH]; intros [|(k', i') y] l l' r r' CX CY E; cbn [app] in E; injection E.
  - auto.
  - intros _ _ <-. discriminate.
  - intros _ _ ->. discriminate.
  - intros E' -> ->. assert (CX' : count_semis x = 0%nat) by (unfold count_semis in *; cbn [filter fst] in CX; destruct k'; cbn in CX; try discriminate; exact CX).
    assert (CY' : count_semis y = 0%nat) by (unfold count_semis in *; cbn [filter fst] in CY; destruct k'; cbn in CY; try discriminate; exact CY).
    destruct (IH y l l' r r' CX' CY' E') as (-> & -> & ->). auto.
Qed.
Lemma first_form : forall lab pc pre i post pre' i' post' gi gn kf op op', table = pre ++ i :: post -> table = pre' ++ i' :: post' -> i_mnemonic i = i_mnemonic i' ->
  form_spells lab pc i gi gn kf op -> form_spells lab pc i' gi gn kf op' ->
  (forall j op', In j pre -> i_mnemonic j = i_mnemonic i -> ~ form_spells lab pc j gi gn kf op') ->
  (forall j op', In j pre' -> i_mnemonic j = i_mnemonic i' -> ~ form_spells lab pc j gi gn kf op') -> i = i'.
Proof.
  intros lab pc pre i post pre' i' post' gi gn kf op op' T T' M F F' P P'. rewrite T in T'.
  change (i :: post) with ([i] ++ post) in T'. change (i' :: post') with ([i'] ++ post') in T'.
  destruct (app_compare _ _ _ _ _ T') as [(y & ->)|(y & ->)].
  - destruct y as [|j y].
    + rewrite app_nil_r in T'. apply app_inv_head in T'. cbn [app] in T'. congruence.
    + exfalso. rewrite <- app_assoc in T'. apply app_inv_head in T'. cbn [app] in T'. injection T' as <- _. apply (P' i op); [apply in_elt|congruence|exact F].
  - destruct y as [|j y].
    + rewrite app_nil_r in T'. apply app_inv_head in T'. cbn [app] in T'. congruence.
    + exfalso. rewrite <- app_assoc in T'. apply app_inv_head in T'. cbn [app] in T'. injection T' as -> _. apply (P i' op'); [apply in_elt|congruence|exact F'].
Qed.
Lemma scan_ok : forall c ks c', scan c ks c' -> Forall kind_ok ks.
Proof. intros c ks c' SC. induction SC as [c|c t c1 ks c' T SC IH]; [constructor|]. constructor; [eapply token_ok; exact T|exact IH]. Qed.
Lemma instruction_unique : forall ls pc c ks c' op op', scan c ks c' ->
  instruction (find_label ls) pc ks op -> instruction (find_label ls) pc ks op' -> op = op'.
Proof.
  intros ls pc c ks c' op op' SC (pre & i & post & gi & gn & kg & kf & T & G & F & P & ->) (pre' & i' & post' & gi' & gn' & kg' & kf' & T' & G' & F' & P' & E).
  destruct (guard_split _ _ _ _ _ _ _ _ _ _ G G' E) as (<- & <- & <- & M & <-).
  assert (X : i = i') by (eapply first_form; eassumption). subst i'.
  assert (I : In i table) by (rewrite T; apply in_elt).
  apply scan_split in SC as (c1 & S1 & S2). change (id (i_mnemonic i) :: kf) with ([id (i_mnemonic i)] ++ kf) in S2. apply scan_split in S2 as (c2 & S2 & S3).
  eapply form_unique; [exact I| |exact S3|exact F|exact F'].
  eapply guard_small; [exact G|]. eapply scan_ok, S1.
Qed.

Lemma sentence_prefix : forall ls n ts ss ops, sentence (find_label ls) n ts ss ops -> forall c tk c' us ss' ops', tokens c tk c' ->
  map Language.lined tk = ts ++ us -> sentence (find_label ls) n (ts ++ us) ss' ops' ->
  exists ss2 ops2, ss' = ss ++ ss2 /\ ops' = ops ++ ops2 /\ sentence (find_label ls) (n + List.length ops) us ss2 ops2.
Proof.
  intros ls n ts ss ops SE. induction SE as [n|n s t u0 v ts ss ops W O NL SE IH|n pre i post gi gn kg kf u0 ts ss op ops T G F P M SE IH]; intros c tk c' us ss' ops' TK ML S2.
  - exists ss', ops'. rewrite Nat.add_0_r. auto.
  - remember ((t :: u0 ++ v :: ts) ++ us) as all eqn:E1. destruct S2 as [n|n s2 t2 u2 v2 ts2 ss2 ops2 W2 O2 NL2 SE2|n pre2 i2 post2 gi2 gn2 kg2 kf2 u2 ts2 ss2 op2 ops2 T2 G2 F2 P2 M2 SE2];
      [discriminate| |]; rewrite E1 in ML.
    + cbn [app] in E1. injection E1 as -> E1. rewrite <- app_assoc in E1. cbn [map] in W, W2.
      pose proof (written_len _ _ _ _ _ W W2) as LN. rewrite !map_length in LN.
      assert (EU : u0 = u2 /\ v2 :: ts2 = (v :: ts) ++ us).
      { clear - E1 LN. revert u2 LN E1. induction u0 as [|x u0 IH]; intros [|y u2] LN E1; try discriminate; [cbn [app] in *; auto|].
        cbn [app] in E1. injection E1 as -> E1. destruct (IH u2) as (-> & E); [cbn in LN; lia|exact E1|]. auto. }
      destruct EU as (<- & EU). assert (s = s2) by (eapply written_det; eassumption). subst s2.
      destruct (map_split _ _ _ _ _ _ ML) as (tk1 & tk2 & -> & M1 & M2').
      clear M1 M2'.
      change ((t :: u0 ++ v :: ts) ++ us) with ((t :: u0 ++ (v :: ts)) ++ us) in ML.
      replace ((t :: u0 ++ v :: ts) ++ us) with ((t :: u0) ++ ((v :: ts) ++ us)) in ML by (cbn [app]; rewrite <- app_assoc; reflexivity).
      destruct (map_split _ _ _ _ _ _ ML) as (tk3 & tk4 & E4 & M3 & M4). rewrite E4 in TK. apply tokens_split in TK as (c1 & _ & TK).
      rewrite EU in SE2. destruct (IH _ _ _ us ss2 ops2 TK M4 SE2) as (ss3 & ops3 & -> & -> & S3). exists ss3, ops3. auto.
    + exfalso. assert (IN : instruction (find_label ls) (addr n) (map fst u2) op2) by (exists pre2, i2, post2, gi2, gn2, kg2, kf2; auto).
      destruct (instruction_some _ _ _ _ IN) as (x & xs & ->). cbn [app] in E1. injection E1 as -> _.
      cbn [map] in W. destruct (written_dot _ _ _ W) as (nm & D). cbn [map] in IN. rewrite D in IN. exact (instruction_undotted _ _ _ _ _ _ IN eq_refl).
  - assert (IN : instruction (find_label ls) (addr n) (map fst u0) op) by (exists pre, i, post, gi, gn, kg, kf; auto).
    remember ((u0 ++ ts) ++ us) as all eqn:E1. destruct S2 as [n|n s2 t2 u2 v2 ts2 ss2 ops2 W2 O2 NL2 SE2|n pre2 i2 post2 gi2 gn2 kg2 kf2 u2 ts2 ss2 op2 ops2 T2 G2 F2 P2 M2 SE2]; rewrite E1 in ML.
    + exfalso. destruct (instruction_some _ _ _ _ IN) as (x & xs & ->). discriminate.
    + exfalso. destruct (instruction_some _ _ _ _ IN) as (x & xs & ->). cbn [app] in E1. injection E1 as <- _.
      cbn [map] in W2. destruct (written_dot _ _ _ W2) as (nm & D). cbn [map] in IN. rewrite D in IN. exact (instruction_undotted _ _ _ _ _ _ IN eq_refl).
    + assert (IN2 : instruction (find_label ls) (addr n) (map fst u2) op2) by (exists pre2, i2, post2, gi2, gn2, kg2, kf2; auto).
      destruct (instruction_close _ _ _ _ IN) as (x & l & EX & CX). destruct (instruction_close _ _ _ _ IN2) as (y & l2 & EY & CY).
      assert (EU : u0 = u2 /\ ts2 = ts ++ us).
      { subst u0 u2. rewrite <- !app_assoc in E1. cbn [app] in E1. destruct (semi_cut _ _ _ _ _ _ CY CX E1) as (-> & -> & ->). auto. }
      destruct EU as (<- & ->). rewrite <- app_assoc in ML. destruct (map_split _ _ _ _ _ _ ML) as (tk1 & tk2 & -> & M3 & M4). apply tokens_split in TK as (c1 & TK1 & TK2).
      assert (op = op2).
      { eapply instruction_unique; [|exact IN|exact IN2]. rewrite <- M3, fst_lined. eapply tokens_scan, TK1. }
      subst op2. destruct (IH _ _ _ us ss2 ops2 TK2 M4 SE2) as (ss3 & ops3 & -> & -> & S3). exists ss3, ops3. cbn [List.length]. rewrite <- plus_n_Sm. auto.
Qed.

Lemma labels_of : forall a code w, ~ In NUL code -> assemble a code = Ok w -> exists ls, labelled code (find_label ls).
Proof.
  intros a code w NN A. apply assemble_ok in A as (ls & l & y & (G & _) & _). exists ls. intros name z. apply (first_definition code ls NN G).
Qed.
Lemma sentence_nil : forall lab n ts ss ops, sentence lab n ts ss ops -> ts = [] -> ss = [] /\ ops = [].
Proof.
  intros lab n ts ss ops SE. destruct SE as [n|n s t us v ts ss ops W O NL SE|n pre i post gi gn kg kf us ts ss op ops T G F P M SE]; intros E; [auto|discriminate|].
  apply app_eq_nil in E as (-> & _). destruct kg; discriminate.
Qed.
Lemma first_same : forall code p p' name, first_defines code p name -> first_defines code p' name -> p = p'.
Proof.
  intros code p p' name (D & M) (D' & M'). pose proof (M _ D') as L. pose proof (M' _ D) as L'.
  destruct D as (_ & _ & q & E), D' as (_ & _ & q' & E'). rewrite E in E'.
  assert (X : firstn (List.length p) (p ++ name ++ ":"%char :: q) = firstn (List.length p) (p' ++ name ++ ":"%char :: q')) by (rewrite E'; reflexivity).
  rewrite firstn_app, Nat.sub_diag, firstn_all, app_nil_r in X. replace (List.length p) with (List.length p') in X by lia.
  rewrite firstn_app, Nat.sub_diag, firstn_all, app_nil_r in X. exact X.
Qed.
Lemma file_unique : forall code ss out w w', file code ss out w -> file code ss out w' -> w = w'.
Proof.
  intros code ss out w w' F F'. destruct F as [H|p head T C FD M SF P], F' as [H'|p' head' T' C' FD' M' SF' P']; [reflexivity| | |].
  - exfalso. destruct H as [H|(_ & H)]; [congruence|contradiction].
  - exfalso. destruct H' as [H'|(_ & H')]; [congruence|contradiction].
  - assert (E : p = p') by (eapply first_same; eassumption). subst p'. f_equal. eapply packed_unique; eassumption.
Qed.
(** What an accepted text means is unique. *)
Theorem reading_unique : forall a code w ts lab lab' ss ops ss' ops', ~ In NUL code -> assemble a code = Ok w -> lexes code 0 ts ->
  labelled code lab -> labelled code lab' -> sentence lab 0 ts ss ops -> sentence lab' 0 ts ss' ops' -> ss = ss' /\ ops = ops'.
Proof.
  intros a code w ts lab lab' ss ops ss' ops' NN A L B B' S1 S2. destruct (labels_of _ _ _ NN A) as (ls & LB).
  apply (sentence_ext _ _ (labelled_unique _ _ _ B LB)) in S1. apply (sentence_ext _ _ (labelled_unique _ _ _ B' LB)) in S2.
  destruct (lexes_tokens ts (Cursor code 0 0) L) as (tk & c' & TK & ML & _).
  rewrite <- (app_nil_r ts) in ML, S2. destruct (sentence_prefix _ _ _ _ _ S1 _ _ _ _ _ _ TK ML S2) as (ss2 & ops2 & -> & -> & S3).
  destruct (sentence_nil _ _ _ _ _ S3 eq_refl) as (-> & ->). rewrite !app_nil_r. auto.
Qed.
Theorem accepted_only : forall a code w w', ~ In NUL code -> assemble a code = Ok w -> means code w' -> w' = w.
Proof.
  intros a code w w' NN A (ts & lab & ss & ops & L & B & SE & F).
  destruct (accepted_means a code w NN A) as (ts2 & lab2 & ss2 & ops2 & L2 & B2 & SE2 & F2).
  pose proof (lexes_same _ _ _ _ L L2) as E. subst ts2.
  destruct (reading_unique _ _ _ _ _ _ _ _ _ _ NN A L B B2 SE SE2) as (<- & <-). eapply file_unique; eassumption.
Qed.

(** ** Texts side by side *)

Lemma gap_tokenize_any : forall g q c cs, gap g q -> moves c g cs -> rest cs = q -> tokenize c = tokenize cs.
Proof.
  intros g q c cs G M R.
  assert (W : exists ws q', q = ws ++ q' /\ Forall (fun ch => In ch blanks) ws /\ is_blank (peek q') = false).
  { clear. induction q as [|ch q (ws & q' & -> & W & B)]; [exists [], []; auto|]. destruct (is_blank ch) eqn:E.
    - exists (ch :: ws), q'. split; [reflexivity|]. split; [|exact B]. constructor; [apply blank_in; exact E|exact W].
    - exists [], (ch :: ws ++ q'). auto. }
  destruct W as (ws & q' & -> & W & B). destruct cs as [r l o]. cbn [rest] in R. subst r. destruct (moves_along ws q' l o) as (c1 & M1 & R1).
  rewrite (gap_tokenize (g ++ ws) q' c c1); [|apply gap_app; [exact G|constructor; exact W]|eapply moves_trans; eassumption|exact R1|exact B].
  symmetry. apply (gap_tokenize ws q'); [constructor; exact W|exact M1|exact R1|exact B].
Qed.
Lemma lexes_gap : forall g q n ts, ~ In NUL (g ++ q) -> gap g q -> lexes (g ++ q) n ts -> lexes q (n + newlines g) ts.
Proof.
  intros g q n ts NN G L. destruct (moves_along g q n 0) as (cs & M & R). pose proof (gap_tokenize_any _ _ _ _ G M R) as T.
  assert (NQ : ~ In NUL (rest cs)) by (rewrite R; intros I; apply NN, in_or_app; right; exact I).
  replace (n + newlines g) with (line cs) by (destruct M as (_ & -> & _); apply lines_newlines). rewrite <- R.
  destruct (lexes_step (Cursor (g ++ q) n 0) ts L) as (t & c' & T' & [(-> & K & _)|(us & -> & L')]); rewrite T in T'.
  - apply end_lexes; [exact NQ|]. exists t, c'. auto.
  - eapply step_lexes; [exact NQ|exact T'| |exact L']. apply (lexes_some _ _ _ L (Language.lined t)). left. reflexivity.
Qed.
Lemma lexes_token_inv : forall g s k r n ts, gap g (s ++ r) -> lexeme s k r -> lexes (g ++ s ++ r) n ts ->
  exists us, ts = (k, n + newlines g) :: us /\ lexes r (n + newlines (g ++ s)) us.
Proof.
  intros g s k r n ts G X L. destruct (moves_along g (s ++ r) n 0) as (cs & M & R). destruct cs as [r1 l1 k1]. cbn [rest] in R. subst r1.
  destruct (moves_along s r l1 k1) as (c' & M2 & R2).
  assert (T : tokenize (Cursor (g ++ s ++ r) n 0) = Ok (Token k l1 k1, c')).
  { apply tokenize_iff. exists g, s, (Cursor (s ++ r) l1 k1). split; [exact M|]. split; [exact G|]. split; [exact M2|]. split; [left; rewrite R2; exact X|]. split; reflexivity. }
  destruct (lexes_step (Cursor (g ++ s ++ r) n 0) ts L) as (t & c2 & T' & H). rewrite T in T'. injection T' as <- <-.
  destruct H as [(_ & K & _)|(us & -> & L')]; [destruct (lexeme_some _ _ _ X K)|].
  destruct M as (_ & ML & _), M2 as (_ & ML2 & _). cbn [line] in *. rewrite lines_newlines in ML, ML2. subst l1. exists us. split; [reflexivity|].
  rewrite <- R2. replace (n + newlines (g ++ s)) with (line c') by (rewrite ML2, newlines_app; lia). exact L'.
Qed.
(** The tokens of a text of whole statements are the first ones of any longer text. *)
Lemma lexes_rest : forall p n ts, lexes p n ts -> semi_last (map fst ts) -> line_start p -> forall q all, ~ In NUL (p ++ q) -> lexes (p ++ q) n all ->
  exists us, all = ts ++ us /\ lexes q (n + newlines p) us.
Proof.
  intros p n ts L. induction L as [g n G|g s k p n ts G X L IH]; intros SL LS q all NN A.
  - exists all. split; [reflexivity|]. apply lexes_gap; [exact NN| |exact A]. rewrite <- (app_nil_r g). eapply gap_join; [exact G|reflexivity|exact LS|]. apply (gap_blank []). constructor.
  - cbn [map fst] in SL. rewrite <- !app_assoc in A, NN.
    assert (LS' : line_start p) by (rewrite app_assoc in LS; eapply line_start_tail, LS).
    assert (H : lexeme s k (p ++ q) /\ s ++ p <> []).
    { destruct (semi_last_tail _ _ SL) as [(E & ->)|(_ & I)].
      - assert (ES : s = [";"%char]) by (apply (semi_text s p); left; exact X). subst s. split; [|discriminate].
        constructor; [cbn; auto 12|]. intros [B|[B|[]]]; discriminate.
      - destruct (lexes_semi _ _ _ L I) as (u & v & ->). split; [|destruct s, u; discriminate]. rewrite <- app_assoc. eapply lexeme_beyond, X. }
    destruct H as (X' & NE). assert (G' : gap g (s ++ p ++ q)) by (rewrite app_assoc; eapply gap_ext; [exact G|]; intros E; apply ends_more; assumption).
    destruct (lexes_token_inv _ _ _ _ _ _ G' X' A) as (us & -> & A2).
    destruct IH with (q := q) (all := us) as (vs & -> & V); [|exact LS'| |exact A2|].
    + destruct (semi_last_tail _ _ SL) as [(E & _)|(S & _)]; [left; exact E|exact S].
    + intros I. apply NN. apply in_or_app. right. apply in_or_app. right. exact I.
    + exists vs. split; [reflexivity|]. replace (n + newlines (g ++ s ++ p)) with (n + newlines (g ++ s) + newlines p) by (rewrite !newlines_app; lia). exact V.
Qed.

(** ** Appending *)

Theorem appended : forall a a' p q w w', ~ In NUL (p ++ q) -> line_start p -> assemble a p = Ok w -> assemble a' (p ++ q) = Ok w' ->
  exists ss1 ss2 ops1 ops2, file p ss1 (code_words ops1) w /\ file (p ++ q) (ss1 ++ ss2) (code_words (ops1 ++ ops2)) w'.
Proof.
  intros a a' p q w w' NN LS A A'. assert (NP : ~ In NUL p) by (intros I; apply NN, in_or_app; left; exact I).
  destruct (accepted_means _ _ _ NP A) as (ts & lab & ss & ops & L & B & SE & F).
  destruct (accepted_means _ _ _ NN A') as (all & lab' & ss' & ops' & L' & B' & SE' & F').
  destruct (lexes_rest _ _ _ L (sentence_semi _ _ _ _ _ SE) LS q all NN L') as (us & -> & _).
  destruct (labels_of _ _ _ NN A') as (ls & LB).
  apply (sentence_ext _ _ (labelled_unique _ _ _ B' LB)) in SE'.
  assert (S1 : sentence (find_label ls) (0 + 0) ts ss ops).
  { apply (sentence_moved lab _ 0); [|intros n; cbn; lia|exact SE|left; reflexivity].
    intros name z E. rewrite Z.add_0_r. apply LB. apply B in E as (r & FD & ->). exists r. split; [apply first_app; auto|reflexivity]. }
  destruct (lexes_tokens _ (Cursor (p ++ q) 0 0) L') as (tk & c' & TK & ML & _).
  destruct (sentence_prefix _ _ _ _ _ S1 _ _ _ _ _ _ TK ML SE') as (ss2 & ops2 & -> & -> & _).
  exists ss, ss2, ops, ops2. auto.
Qed.

(** ** Cutting off *)

Section Agree.
  Variables (lab lab' : text -> option Z).
  Lemma jump_agree : forall pc nx ops w ks w' r, forallb jump_operand ops = true -> (forall name, In (TIdent name) ks -> lab' name = lab name) ->
    spell_list lab pc nx ops w ks w' r -> spell_list lab' pc nx ops w ks w' r.
  Proof.
    intros pc nx ops w ks w' r E A H. induction H as [w|o ops w ks1 ks2 b r1 r2 w' S H IH]; [constructor|].
    cbn [forallb] in E. apply andb_true_iff in E as (E1 & E2). econstructor; [|apply IH; [exact E2|intros name I; apply A, in_or_app; right; exact I]].
    destruct o; try discriminate E1; try exact S. cbn [spells] in S |- *. destruct S as (t & K & RR). exists t. split; [|exact RR].
    destruct K as [(nm & -> & L)| ->]; [|right; reflexivity]. left. exists nm. split; [reflexivity|]. rewrite A; [exact L|left; reflexivity].
  Qed.
  Lemma form_agree : forall pc i gi gn kf op, In i table -> (forall name, In (TIdent name) kf -> lab' name = lab name) ->
    form_spells lab pc i gi gn kf op -> form_spells lab' pc i gi gn kf op.
  Proof.
    intros pc i gi gn kf op I A F. destruct (place_bound i) eqn:PB.
    2:{ eapply form_place; [|exact F]. unfold place_bound in PB. apply negb_false_iff in PB. exact PB. }
    pose proof (forallb_in _ _ _ _ jump_forms I) as X. cbv beta in X. rewrite PB in X. apply andb_true_iff in X as (_ & JO).
    destruct F as (ko & kn & notes & w & r & E & NP & S & N). exists ko, kn, notes, w, r. split; [exact E|]. split; [exact NP|]. split; [|exact N].
    apply jump_agree; [exact JO| |exact S]. intros name J. apply A. rewrite E. apply in_or_app. left. exact J.
  Qed.
  Lemma sentence_agree : forall n ts ss ops, sentence lab n ts ss ops -> (forall name, In (TIdent name) (map fst ts) -> lab' name = lab name) ->
    sentence lab' n ts ss ops.
  Proof.
    intros n ts ss ops S. induction S as [n|n s t us v ts ss ops W O N S IH|n pre i post gi gn kg kf us ts ss op ops T G F P M S IH]; intros A.
    - constructor.
    - apply sentence_option; auto. apply IH. intros name I. apply A. change (t :: us ++ v :: ts) with ((t :: us) ++ v :: ts). rewrite map_app. apply in_or_app. right. exact I.
    - assert (IT : In i table) by (rewrite T; apply in_elt). rewrite map_app, M in A.
      eapply sentence_instruction; try eassumption.
      + eapply form_agree; [exact IT| |exact F]. intros name I. apply A. apply in_or_app. left. apply in_or_app. right. right. exact I.
      + intros j op' J MN FS. destruct (place_bound j) eqn:PB.
        * destruct (commas_split _ _ table_commas _ _ _ T _ J MN PB) as (C1 & C2). eapply form_comma; eassumption.
        * apply (P j op' J MN). eapply form_place; [|exact FS]. unfold place_bound in PB. apply negb_false_iff in PB. exact PB.
      + apply IH. intros name I. apply A. apply in_or_app. right. exact I.
  Qed.
End Agree.
Lemma sentence_cut : forall lab n all ss ops, sentence lab n all ss ops -> forall ts us, all = ts ++ us -> semi_last (map fst ts) ->
  exists ss1 ss2 ops1 ops2, ss = ss1 ++ ss2 /\ ops = ops1 ++ ops2 /\ sentence lab n ts ss1 ops1 /\ sentence lab (n + List.length ops1) us ss2 ops2.
Proof.
  intros lab n all ss ops SE. induction SE as [n|n s t u0 v ts0 ss ops W O NL SE IH|n pre i post gi gn kg kf u0 ts0 ss op ops T G F P M SE IH]; intros ts us E SL.
  - symmetry in E. apply app_eq_nil in E as (-> & ->). exists [], [], [], []. repeat split; constructor.
  - destruct ts as [|x ts].
    + exists [], (s :: ss), [], ops. rewrite Nat.add_0_r. cbn [app] in E. subst us. split; [reflexivity|]. split; [reflexivity|]. split; [constructor|]. apply sentence_option; assumption.
    + assert (X : exists y, x :: ts = t :: u0 ++ v :: y /\ ts0 = y ++ us).
      { cbn [app] in E. injection E as -> E.
        assert (NS : ~ In TSemi (map fst (x :: u0))) by (exact (written_no_semi _ _ W)).
        destruct SL as [SL|(k & SL)]; [discriminate|]. destruct (app_compare _ _ _ _ _ E) as [(y & ->)|(y & ->)].
        - destruct y as [|v' y].
          + exfalso. rewrite app_nil_r in SL. apply NS. rewrite SL. apply in_or_app. right. left. reflexivity.
          + rewrite <- app_assoc in E. apply app_inv_head in E. cbn [app] in E. injection E as <- ->. exists y. auto.
        - exfalso. apply NS. change (map fst (x :: ts ++ y)) with (map fst ((x :: ts) ++ y)). rewrite map_app. apply in_or_app. left. rewrite SL. apply in_or_app. right. left. reflexivity. }
      destruct X as (y & EX & ->). rewrite EX in SL |- *. destruct (IH (v :: y) us eq_refl) as (ss1 & ss2 & ops1 & ops2 & -> & -> & S1 & S2).
      { destruct SL as [SL|(k & SL)]; [discriminate|]. change (t :: u0 ++ v :: y) with ((t :: u0) ++ v :: y) in SL. rewrite map_app in SL.
        right. destruct y as [|z y] using rev_ind.
        - exists []. cbn [map app]. cbn [map] in SL. apply app_inj_tail in SL as (_ & ->). reflexivity.
        - clear IHy. change (v :: y ++ [z]) with ((v :: y) ++ [z]) in SL |- *. rewrite (map_app fst (v :: y)) in SL. rewrite app_assoc in SL. cbn [map] in SL.
          apply app_inj_tail in SL as (_ & EZ). exists (map fst (v :: y)). rewrite map_app. cbn [map]. rewrite EZ. reflexivity. }
      exists (s :: ss1), ss2, ops1, ops2. split; [reflexivity|]. split; [reflexivity|]. split; [apply sentence_option; assumption|exact S2].
  - assert (IN : instruction lab (addr n) (map fst u0) op) by (exists pre, i, post, gi, gn, kg, kf; auto).
    destruct ts as [|x0 ts'] eqn:ET.
    + exists [], ss, [], (op :: ops). rewrite Nat.add_0_r. cbn [app] in E. subst us. split; [reflexivity|]. split; [reflexivity|]. split; [constructor|].
      apply sentence_of_instruction; assumption.
    + rewrite <- ET in *. assert (X : exists y, ts = u0 ++ y /\ ts0 = y ++ us /\ semi_last (map fst y)).
      { destruct (instruction_close _ _ _ _ IN) as (x & l & EU & CX). destruct (app_compare _ _ _ _ _ E) as [(y & ->)|(y & EY)].
        - exists y. rewrite <- app_assoc in E. apply app_inv_head in E. split; [reflexivity|]. split; [exact E|].
          destruct y as [|z y] using rev_ind; [left; reflexivity|]. clear IHy. right. rewrite map_app, map_app, app_assoc in SL. cbn [map] in SL.
          destruct SL as [SL|(k & SL)]; [apply app_eq_nil in SL as (_ & SL); discriminate|]. apply app_inj_tail in SL as (_ & EZ).
          exists (map fst y). rewrite map_app. cbn [map]. rewrite EZ. reflexivity.
        - assert (y = []) as ->.
          { destruct y as [|z y] using rev_ind; [reflexivity|]. clear IHy. exfalso. rewrite EU, app_assoc in EY. apply app_inj_tail in EY as (EY & _).
            destruct SL as [SL|(k & SL)]; [rewrite ET in SL; discriminate|].
            assert (IS : In TSemi (map fst x)) by (rewrite EY, map_app; apply in_or_app; left; rewrite SL; apply in_or_app; right; left; reflexivity).
            apply in_map_iff in IS as ((k0, l0) & EK & IS). cbn [fst] in EK. subst k0. apply in_split in IS as (x1 & x2 & EX). rewrite EX, count_app in CX.
            unfold count_semis in CX. cbn in CX. lia. }
          rewrite app_nil_r in EY. exists []. rewrite EY, app_nil_r. split; [reflexivity|]. rewrite <- EY in E. apply app_inv_head in E. split; [exact E|left; reflexivity]. }
      destruct X as (y & EY & -> & SY). rewrite EY. destruct (IH y us eq_refl SY) as (ss1 & ss2 & ops1 & ops2 & -> & -> & S1 & S2).
      exists ss1, ss2, (op :: ops1), ops2. split; [reflexivity|]. split; [reflexivity|]. split; [apply sentence_of_instruction; assumption|].
      cbn [List.length]. rewrite <- plus_n_Sm. exact S2.
Qed.

Lemma labels_exist : forall p, ~ In NUL p -> line_start p -> exists lab, labelled p lab.
Proof.
  intros p NN LS. destruct (generate_labels_spec p NN) as [(ls & _ & _ & H)|(_ & (r & name & E & _ & LN))].
  - exists (find_label ls). exact H.
  - exfalso. destruct (label_plain _ LN) as (NL & NE). subst p. apply line_start_tail in LS. destruct LS as [-> |(x & ->)]; [contradiction|].
    apply NL, in_or_app. right. left. reflexivity.
Qed.
(** The first statements of a program are a program, unless they use labels that
    are cut off. *)
Theorem cut_off : forall a p q w ts, ~ In NUL (p ++ q) -> line_start p -> optionless (p ++ q) -> assemble a (p ++ q) = Ok w ->
  lexes p 0 ts -> last (map fst ts) TSemi = TSemi ->
  (forall name, In (TIdent name) (map fst ts) -> defined q name -> defined p name) ->
  exists ops1 ops2, means p (code_words ops1) /\ w = code_words (ops1 ++ ops2).
Proof.
  intros a p q w ts NN LS OL A L LA U.
  destruct (accepted_means _ _ _ NN A) as (all & lab' & ss & ops & L' & B' & SE & F).
  assert (SL : semi_last (map fst ts)).
  { destruct (map fst ts) as [|k ks] using rev_ind; [left; reflexivity|]. right. exists ks. rewrite last_last in LA. rewrite LA. reflexivity. }
  destruct (lexes_rest _ _ _ L SL LS q all NN L') as (us & -> & _).
  assert (SO : ss = []) by (eapply optionless_sentence; [exact SE|]; intros pre s post E; eapply OL; eassumption). subst ss.
  destruct (sentence_cut _ _ _ _ _ SE ts us eq_refl SL) as (ss1 & ss2 & ops1 & ops2 & ES & -> & S1 & _). symmetry in ES. apply app_eq_nil in ES as (-> & ->).
  exists ops1, ops2. split.
  - assert (NP : ~ In NUL p) by (intros I; apply NN, in_or_app; left; exact I).
    destruct (labels_exist p NP LS) as (lab & B).
    exists ts, lab, [], ops1. split; [exact L|]. split; [exact B|]. split; [|constructor; left; reflexivity].
    eapply sentence_agree; [exact S1|]. intros name I. destruct (lab' name) as [z|] eqn:E'.
    + pose proof E' as E2. apply B' in E' as (r & FD & ->). apply first_app in FD; [|exact LS]. destruct FD as [FD|(N & r' & -> & FD)]; [apply B; eauto|].
      destruct N. apply U; [exact I|]. exists r'. exact (proj1 FD).
    + destruct (lab name) as [z|] eqn:E; [|reflexivity]. apply B in E as (r & FD & ->). 
      assert (X : lab' name = Some (addr (semis r))) by (apply B'; exists r; split; [apply first_app; auto|reflexivity]). congruence.
  - destruct F as [_|p0 head T _ _ _ _ _]; [reflexivity|discriminate].
Qed.
Theorem cut_off_accepted : forall a p q w ts, ~ In NUL (p ++ q) -> line_start p -> optionless (p ++ q) -> assemble a (p ++ q) = Ok w ->
  lexes p 0 ts -> last (map fst ts) TSemi = TSemi ->
  (forall name, In (TIdent name) (map fst ts) -> defined q name -> defined p name) -> tame p -> Z.of_nat (List.length p) <= 2 ^ 57 ->
  exists ops1 ops2, assemble false p = Ok (code_words ops1) /\ w = code_words (ops1 ++ ops2).
Proof.
  intros a p q w ts NN LS OL A L LA U T SH. destruct (cut_off _ _ _ _ _ NN LS OL A L LA U) as (ops1 & ops2 & M & E). exists ops1, ops2. split; [|exact E].
  apply means_accepted; [intros I; apply NN, in_or_app; left; exact I|exact T|exact SH|exact M].
Qed.

(** ** Words of a longer list of instructions *)

Theorem groups_kept : forall ops1 ops2, exists x y z, code_words ops1 = x ++ y /\ code_words (ops1 ++ ops2) = x ++ z /\
  List.length x = (4 * (List.length ops1 / 3))%nat.
Proof.
  intros ops1 ops2. set (k := (3 * (List.length ops1 / 3))%nat).
  assert (LK : (k <= List.length ops1)%nat) by (unfold k; lia).
  assert (LF : List.length (firstn k ops1) = k) by (apply firstn_length_le; exact LK).
  exists (code_words (firstn k ops1)), (code_words (skipn k ops1)), (code_words (skipn k ops1 ++ ops2)).
  split; [rewrite <- code_words_app; [rewrite firstn_skipn; reflexivity|rewrite LF; unfold k; lia]|].
  split; [rewrite <- code_words_app; [rewrite app_assoc, firstn_skipn; reflexivity|rewrite LF; unfold k; lia]|].
  unfold code_words. unfold layout. rewrite map_length, seq_length, map_length, LF. unfold k. lia.
Qed.
Theorem words_kept : forall ops1 ops2 n op, nth_error ops1 n = Some op ->
  nth_error (code_words ops1) (word_at n) = Some (value op) /\ nth_error (code_words (ops1 ++ ops2)) (word_at n) = Some (value op).
Proof.
  assert (H : forall ops n op, nth_error ops n = Some op -> nth_error (code_words ops) (word_at n) = Some (value op)).
  { intros ops n op E. apply nth_error_split in E as (l1 & l2 & -> & <-). destruct (code_words_word l1 op op l2 eq_refl eq_refl) as (p & q & EW & _ & <-).
    rewrite EW. apply nth_error_here. }
  intros ops1 ops2 n op E. split; [apply H, E|]. apply H. rewrite nth_error_app1; [exact E|]. apply nth_error_Some. congruence.
Qed.
(** The labels of a text, for the examples. *)
Lemma defined_in : forall q ls name, ~ In NUL q -> generate_labels q = Ok ls -> defined q name -> In name (map fst ls).
Proof.
  intros q ls name N G D. assert (L : labelled q (find_label ls)) by (intros nm z; apply (first_definition q ls N G)).
  destruct (find_label ls name) as [z|] eqn:E; [|destruct (undefined _ _ _ L E D)]. clear - E.
  induction ls as [|(k, v) ls IH]; [discriminate|]. cbn [find_label] in E. cbn [map fst]. destruct (text_eqb k name) eqn:X; [left; apply text_eqb_eq, X|right; apply IH, E].
Qed.
