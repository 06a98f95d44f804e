(** * Compose: one program after another. *)
From Verif Require Import Base Float Lexer Operand Catalogue Table Parse Assemble Spec LexFacts SchedFuel Param Reach ParseFacts
  Outcomes Decode Program Modes Encode Emit Layout SpecInsn Insn Position Literals SpecLex Lexemes Stream Cut Where Text.
From Coq Require Import Lia.
Local Open Scope char_scope.
Local Open Scope list_scope.
Open Scope Z_scope.

(** ** Related instructions *)

Definition anything (d1 d2 : diag) : Prop := True.
(** The mnemonics of the instructions whose operand is relative to their address. *)
Definition relative_names : list string := ["BRA"; "PBK"; "SSY"; "CAL"; "PCNT"]%string.
(** None of them is read from [c] on. *)
Definition straight (c : cursor) : Prop :=
  forall ks c' m, scan c ks c' -> In m relative_names -> ~ In (TIdent (lit m)) ks.

Lemma table_semi_free : forallb (fun i => forallb semi_free (i_operands i)) table = true.
Proof. vm_compute. reflexivity. Qed.
Lemma table_place_free : forallb (fun i => forallb place_free (i_operands i) ||
  existsb (fun m => text_eqb (lit (i_mnemonic i)) (lit m)) relative_names) table = true.
Proof. vm_compute. reflexivity. Qed.

Section Related.
  Variable R0 : cursor -> cursor -> Prop.
  Variable RC : cursor -> token -> cursor -> token -> Prop.
  Hypothesis RC_R0 : forall c1 t1 c2 t2, RC c1 t1 c2 t2 -> kind t1 <> TSemi -> R0 c1 c2.
  Hypothesis RC_kind : forall c1 t1 c2 t2, RC c1 t1 c2 t2 -> kind t1 = kind t2.
  Hypothesis R0_tokenize : forall c1 c2, R0 c1 c2 -> relres anything false (RT RC) (tokenize c1) (tokenize c2).
  Variables ls1 ls2 : labels.
  Hypothesis same_labels : forall name, find_label ls1 name = find_label ls2 name.
  Notation rel := (relres anything false).

  Definition RI (x1 x2 : ctx) (r1 r2 : option (ctx * opcode)) : Prop :=
    match r1, r2 with
    | None, None => True
    | Some (y1, o1), Some (y2, o2) => o1 = o2 /\ (exists t1 t2, RC (c_cur y1) t1 (c_cur y2) t2) /\
        c_pc y1 = bump (c_pc x1) + 8 /\ c_pc y2 = bump (c_pc x2) + 8 /\ c_opts y1 = c_opts x1 /\ c_opts y2 = c_opts x2
    | _, _ => False
    end.

  Lemma related_table : forall a pc1 pc2 t1 t2 c1 c2 op, kind t1 = kind t2 -> R0 c1 c2 ->
    (pc1 = pc2 \/ forall m, In m relative_names -> kind t1 <> TIdent (lit m)) ->
    rel (RS RC) (parse_table (Env ls1 pc1 a) table t1 c1 op None) (parse_table (Env ls2 pc2 a) table t2 c2 op None).
  Proof.
    intros a pc1 pc2 t1 t2 c1 c2 op K H P. apply (sim_table R0 RC anything false); auto.
    - exact (fun _ _ _ _ _ _ => I).
    - intros i Hi EQ o Ho. split.
      + left. pose proof (forallb_in _ _ _ _ table_semi_free Hi) as X. exact (forallb_in _ _ _ _ X Ho).
      + destruct P as [P|P]; [right; exact P|left].
        pose proof (forallb_in _ _ _ _ table_place_free Hi) as X. apply orb_true_iff in X as [X|X]; [exact (forallb_in _ _ _ _ X Ho)|].
        exfalso. apply existsb_exists in X as (m & Hm & X). apply text_eqb_eq in X. apply (P m Hm). unfold equal in EQ.
        destruct (kind t1); try discriminate. apply text_eqb_eq in EQ. congruence.
    - exact (fun _ => I).
    - exact I.
  Qed.

  Lemma related_instruction : forall a x1 x2, R0 (c_cur x1) (c_cur x2) -> no_option (c_cur x1) ->
    (c_pc x1 = c_pc x2 \/ straight (c_cur x1)) ->
    rel (RI x1 x2) (parse_instruction a ls1 x1 opcode0) (parse_instruction a ls2 x2 opcode0).
  Proof.
    intros a x1 x2 H NO P. change parse_instruction with (parse_instruction_with table). rewrite !parse_instruction_eq.
    pose proof (R0_tokenize _ _ H) as T.
    destruct (tokenize (c_cur x1)) as [(t1, c1)|d1|d1|w1|u1|] eqn:E1, (tokenize (c_cur x2)) as [(t2, c2)|d2|d2|w2|u2|];
      cbn [bind]; try exact T; try (exfalso; exact T); try discriminate T.
    cbn in T. red in T. cbn [fst snd] in T. pose proof (RC_kind _ _ _ _ T) as K. rewrite <- K.
    destruct (ttype_eqb _ _); [exact I|]. unfold rest_of_instruction.
    pose proof (NO _ _ E1) as N1. assert (N2 : is_option t2 = false) by (unfold is_option, equal in *; rewrite <- K; exact N1).
    cbn [parse_options]. rewrite N1, N2. cbn [bind]. rewrite <- K.
    assert (PS : c_pc x1 = c_pc x2 \/ forall ks c' m, scan c1 ks c' -> In m relative_names -> kind t1 <> TIdent (lit m) /\ ~ In (TIdent (lit m)) ks).
    { destruct P as [P|P]; [left; exact P|right]. intros ks c' m S M.
      assert (X : ~ In (TIdent (lit m)) (kind t1 :: ks)) by (apply (P _ c' m); [econstructor; eassumption|exact M]).
      split; [intros E; apply X; left; exact E|intros E; apply X; right; exact E]. }
    apply (relres_bind_eq _ _ _ _ _ _ (fun a b => RC (snd (fst a)) (fst (fst a)) (snd (fst b)) (fst (fst b)) /\ snd a = snd b /\
      (c_pc x1 = c_pc x2 \/ forall m, In m relative_names -> kind (fst (fst a)) <> TIdent (lit m)))).
    - destruct (ttype_eqb (type_of (kind t1)) ty_at) eqn:AT.
      + assert (NS : kind t1 <> TSemi) by (intros E; rewrite E in AT; discriminate).
        eapply relres_bind_eq; [apply R0_tokenize, (RC_R0 _ _ _ _ T NS)|]. intros (l1, e1) (l2, e2) Q1 T1. red in T1. cbn [fst snd] in *.
        pose proof (RC_kind _ _ _ _ T1) as K1.
        apply (relres_bind_eq _ _ _ _ _ _ eq).
        { unfold raise, assemble_predicate. rewrite <- K1. destruct (kind l1); try exact I. destruct (_ && _); [exact I|].
          unfold add_bits. destruct (_ && _); cbn; auto. }
        intros q ? Q2 <-. assert (NS1 : kind l1 <> TSemi).
        { intros E. unfold raise, assemble_predicate in Q2. rewrite E in Q2. discriminate. }
        eapply relres_bind_eq; [apply R0_tokenize, (RC_R0 _ _ _ _ T1 NS1)|]. intros (m1, f1) (m2, f2) Q3 T2. red in T2. cbn [fst snd] in *.
        split; [exact T2|]. split; [reflexivity|]. destruct PS as [PS|PS]; [left; exact PS|right]. intros m M E.
        destruct (PS [kind l1; kind m1] f1 m) as (_ & X); [econstructor; [exact Q1|]; econstructor; [exact Q3|constructor]|exact M|].
        apply X. right. left. exact E.
      + apply (relres_bind_eq _ _ _ _ _ _ eq).
        { unfold add_bits. destruct (_ && _); cbn; auto. }
        intros q ? _ <-. split; [exact T|]. split; [reflexivity|]. cbn [fst snd]. destruct PS as [PS|PS]; [left; exact PS|right]. intros m M.
        apply (PS [] c1 m (scan_nil _) M).
    - intros ((l1, e1), q1) ((l2, e2), q2) _ (T3 & E & PP). cbn [fst snd] in *. subst q2.
      pose proof (RC_kind _ _ _ _ T3) as K3. rewrite <- K3. destruct (kind l1) eqn:KL; try exact I.
      eapply relres_bind; [apply related_table; [congruence|apply (RC_R0 _ _ _ _ T3); congruence|]|].
      + destruct PP as [PP|PP]; [left; rewrite PP; reflexivity|right]. rewrite KL. exact PP.
      + intros s1 s2 (R & OP). split; [exact OP|]. cbn [c_cur c_pc c_opts]. split; [eauto|]. auto.
  Qed.
End Related.

Lemma straight_after : forall c ks c', straight c -> scan c ks c' -> straight c'.
Proof. intros c ks c' P S ks' c2 m S' M I. apply (P (ks ++ ks') c2 m); [eapply scan_app; eauto|exact M|]. apply in_app_iff. right. exact I. Qed.

(** ** The second program *)

Lemma second_decodes : forall a ls1 ls2 x1 l1 y1, (forall name, find_label ls1 name = find_label ls2 name) ->
  decodes a ls1 x1 l1 y1 -> forall x2, same_stream false (c_cur x1) (c_cur x2) -> plain (c_cur x1) -> straight (c_cur x1) ->
  exists l2 y2, decodes a ls2 x2 l2 y2 /\ map snd l2 = map snd l1 /\ c_opts y2 = c_opts x2.
Proof.
  intros a ls1 ls2 x1 l1 y1 L D.
  assert (I : forall x1 x2, same_stream false (c_cur x1) (c_cur x2) -> plain (c_cur x1) -> straight (c_cur x1) ->
    relres anything false (RI (SC false) x1 x2) (parse_instruction a ls1 x1 opcode0) (parse_instruction a ls2 x2 opcode0)).
  { intros z1 z2 S P Q. apply (related_instruction (same_stream false) (SC false)); auto.
    - intros ? ? ? ? (X & _) _. exact X.
    - apply SC_kind.
    - intros c1 c2 X. pose proof (stream_tokenize false _ _ X) as T. destruct (tokenize c1), (tokenize c2); cbn in *; auto; try contradiction; exact Logic.I.
    - apply (P [] (c_cur z1)); [constructor|reflexivity]. }
  induction D as [x1 E|x1 x1' op l1 y1 E D IH]; intros x2 S P Q; pose proof (I x1 x2 S P Q) as T; rewrite E in T;
    destruct (parse_instruction a ls2 x2 opcode0) as [[(x2', op2)|]| | | | |] eqn:E2; cbn in T; try contradiction.
  - exists [], x2. split; [constructor; exact E2|]. split; reflexivity.
  - destruct T as (<- & (t1 & t2 & (S' & _)) & _ & _ & _ & O).
    assert (N : no_option (c_cur x1)) by (apply (P [] (c_cur x1)); [constructor|reflexivity]).
    destruct (instruction_scan _ _ _ _ _ N E) as (ks & SC).
    destruct (IH x2' S' (plain_after _ _ _ P SC) (straight_after _ _ _ Q SC)) as (l2 & y2 & D2 & M & O2).
    exists ((x2', op) :: l2), y2. split; [econstructor; eassumption|]. split; [cbn; rewrite M; reflexivity|congruence].
Qed.

(** ** The first program *)

(** A ';' is ahead. *)
Definition ahead (c : cursor) : Prop := exists ks c', scan c (ks ++ [TSemi]) c'.

Lemma semi_text : forall s q, token_text s TSemi q -> s = [";"].
Proof.
  intros s q [L|(_ & E & _)]; [|discriminate]. inversion L; subst.
  match goal with H : In (_, TSemi) operators |- _ => cbn in H; repeat (destruct H as [H|H]; [try discriminate H; injection H as <-; reflexivity|]); contradiction end.
Qed.
Lemma tokenize_reads : forall c t c', tokenize c = Ok (t, c') ->
  exists g s, rest c = g ++ s ++ rest c' /\ gap g (s ++ rest c') /\ token_text s (kind t) (rest c').
Proof.
  intros c t c' T. apply tokenize_iff in T as (g & s & cs & (M1 & _) & GP & (M2 & _) & TT & _).
  exists g, s. rewrite <- M2. auto.
Qed.
Lemma ahead_text : forall c, ahead c -> exists u v, rest c = u ++ ";" :: v.
Proof.
  intros c (ks & c' & S). apply scan_split in S as (c1 & S1 & S2). inversion S2 as [|? t c2 ? ? T S3 E1 E2]. subst.
  apply tokenize_reads in T as (g & s & R & _ & TT).
  match goal with H : kind t = TSemi |- _ => rewrite H in TT end. apply semi_text in TT as ->.
  destruct (boundary_moves c c1 (ex_intro _ ks S1)) as (p & (M & _)). rewrite R in M. exists (p ++ g), (rest c2). rewrite <- app_assoc. exact M.
Qed.

Lemma numeric_beyond : forall u v v', numeric (u ++ ";" :: v) -> numeric (u ++ ";" :: v').
Proof.
  induction u as [|ch u IH]; intros v v' (sp & sg & neg & d & r & E & F & SG & D); cbn [app] in *.
  - exfalso. destruct sp as [|x sp]; cbn [app] in E.
    + destruct SG; cbn [app] in E; injection E as E _; try discriminate; subst d; cbn in D; repeat (destruct D as [D|D]; [discriminate|]); contradiction.
    + injection E as <- _. apply Forall_inv in F. cbn in F. repeat (destruct F as [F|F]; [discriminate|]). contradiction.
  - destruct sp as [|x sp]; cbn [app] in E.
    + destruct SG; cbn [app] in E.
      * injection E as -> _. exists [], [], false, d, (u ++ ";" :: v'). split; [reflexivity|]. split; [constructor|]. split; [constructor|exact D].
      * injection E as -> E. destruct u as [|x u]; [exfalso; injection E as <- _; cbn in D; repeat (destruct D as [D|D]; [discriminate|]); contradiction|].
        injection E as -> _. exists [], ["+"], false, d, (u ++ ";" :: v'). split; [reflexivity|]. split; [constructor|]. split; [constructor|exact D].
      * injection E as -> E. destruct u as [|x u]; [exfalso; injection E as <- _; cbn in D; repeat (destruct D as [D|D]; [discriminate|]); contradiction|].
        injection E as -> _. exists [], ["-"], true, d, (u ++ ";" :: v'). split; [reflexivity|]. split; [constructor|]. split; [constructor|exact D].
    + injection E as -> E. destruct (IH v v') as (sp' & sg' & neg' & d' & r' & E' & F' & SG' & D'); [exists sp, sg, neg, d, r; apply Forall_inv_tail in F; auto|].
      exists (x :: sp'), sg', neg', d', r'. split; [cbn [app]; rewrite E'; reflexivity|]. split; [constructor; [apply Forall_inv in F; exact F|exact F']|]. auto.
Qed.
Lemma begins_beyond : forall set u v v', begins set (u ++ ";" :: v) -> begins set (u ++ ";" :: v').
Proof. intros set [|ch u] v v' H; eapply begins_first, H. Qed.
Lemma ends_beyond : forall u v v', ends (u ++ ";" :: v) -> ends (u ++ ";" :: v').
Proof. intros u v v' [E|E]; [destruct u; discriminate|]. right. eapply begins_beyond, E. Qed.
Lemma lexeme_beyond : forall s k u v v', lexeme s k (u ++ ";" :: v) -> lexeme s k (u ++ ";" :: v').
Proof.
  intros s k u v v' L. inversion L; subst.
  - constructor; [assumption|]. intros X B. apply (H0 X). eapply begins_beyond, B.
  - constructor; try assumption. eapply ends_beyond; eassumption.
  - constructor; try assumption. destruct H0 as (E & N). split; [eapply ends_beyond, E|]. intros B. apply N. eapply begins_beyond, B.
  - constructor; try assumption. eapply ends_beyond; eassumption.
  - constructor; try assumption. eapply ends_beyond; eassumption.
  - constructor; try assumption. eapply ends_beyond; eassumption.
  - constructor; [eapply ends_beyond; eassumption|]. intros B. apply H0. eapply numeric_beyond, B.
  - constructor; try assumption. eapply ends_beyond; eassumption.
Qed.

Section First.
  Variable q : text.
  Definition P0 (c1 c2 : cursor) : Prop := rest c2 = rest c1 ++ q /\ ahead c1.
  Definition PC (c1 : cursor) (t1 : token) (c2 : cursor) (t2 : token) : Prop :=
    rest c2 = rest c1 ++ q /\ kind t1 = kind t2 /\ (kind t1 <> TSemi -> ahead c1).

  Lemma P0_tokenize : forall c1 c2, P0 c1 c2 -> relres anything false (RT PC) (tokenize c1) (tokenize c2).
  Proof.
    intros c1 c2 (R & (ks & c' & S)).
    assert (X : exists t c3, tokenize c1 = Ok (t, c3) /\ (kind t = TSemi \/ ahead c3)).
    { destruct ks as [|k ks]; cbn [app] in S; inversion S as [|? t c3 ? ? T S' E1 E2]; subst; exists t, c3; split; auto. right. exists ks, c'. exact S'. }
    destruct X as (t & c3 & T & A). rewrite T. apply tokenize_reads in T as (g & s & E & GP & TT).
    assert (RD : reads (rest c2) (kind t) (rest c3 ++ q)).
    { apply reads_iff. exists g, s. rewrite R, E, <- !app_assoc. split; [reflexivity|].
      assert (XX : (exists ch r, s ++ rest c3 = ch :: r) /\ token_text s (kind t) (rest c3 ++ q)).
      { destruct A as [A|A].
        - rewrite A in TT |- *. apply semi_text in TT as ES. subst s. split; [do 2 eexists; reflexivity|]. left. constructor; [cbn; auto 12|]. intros X. cbn in X. destruct X as [X|[X|[]]]; discriminate.
        - apply ahead_text in A as (u & v & RV). split.
          + rewrite RV. destruct s; [destruct u; do 2 eexists; reflexivity|do 2 eexists; reflexivity].
          + destruct TT as [L|(-> & K & EN)]; [left; rewrite RV in L |- *; rewrite <- app_assoc; eapply lexeme_beyond, L|].
            right. split; [reflexivity|]. split; [exact K|]. rewrite RV in EN |- *. destruct EN as [EN|EN]; [destruct u; discriminate|].
            right. rewrite <- app_assoc. eapply begins_beyond, EN. }
      destruct XX as ((ch & r & ES) & TT'). split; [|exact TT']. rewrite app_assoc. rewrite ES in GP |- *. apply (gap_ext g (ch :: r)); [exact GP|].
      intros [EN|EN]; [discriminate|]. right. eapply begins_first, EN. }
    destruct c2 as [r2 a2 b2]. cbn [rest] in RD. destruct (RD a2 b2) as (t' & c4 & T' & K' & R'). rewrite T'. cbn. red. cbn [fst snd].
    split; [exact R'|]. split; [congruence|]. intros N. destruct A as [A|A]; [contradiction|exact A].
  Qed.

  Lemma first_decodes : forall a ls1 ls2 x1 l1 y1, (forall name, find_label ls1 name = find_label ls2 name) ->
    decodes a ls1 x1 l1 y1 -> forall x2 M, rest (c_cur x2) = rest (c_cur x1) ++ q -> c_pc x1 = c_pc x2 -> plain (c_cur x1) ->
    (forall z2, rest (c_cur z2) = rest (c_cur y1) ++ q -> c_opts z2 = c_opts x2 ->
       exists l2 y2, decodes a ls2 z2 l2 y2 /\ map snd l2 = M /\ c_opts y2 = c_opts x2) ->
    exists l2 y2, decodes a ls2 x2 l2 y2 /\ map snd l2 = map snd l1 ++ M /\ c_opts y2 = c_opts x2.
  Proof.
    intros a ls1 ls2 x1 l1 y1 L D. induction D as [x1 E|x1 x1' op l1 y1 E D IH]; intros x2 M R PC0 P K.
    - exact (K x2 R eq_refl).
    - assert (N : no_option (c_cur x1)) by (apply (P [] (c_cur x1)); [constructor|reflexivity]).
      destruct (instruction_scan _ _ _ _ _ N E) as (ks & SC).
      assert (T : relres anything false (RI PC x1 x2) (parse_instruction a ls1 x1 opcode0) (parse_instruction a ls2 x2 opcode0)).
      { apply (related_instruction P0 PC); auto.
        - intros c1 t1 c2 t2 (X1 & _ & X2) NS. split; auto.
        - intros c1 t1 c2 t2 (_ & X & _). exact X.
        - exact P0_tokenize.
        - split; [exact R|]. exists ks, (c_cur x1'). exact SC. }
      rewrite E in T. destruct (parse_instruction a ls2 x2 opcode0) as [[(x2', op2)|]| | | | |] eqn:E2; cbn in T; try contradiction.
      destruct T as (<- & (t1 & t2 & (R' & _)) & PC1 & PC2 & _ & O).
      destruct (IH x2' M R') as (l2 & y2 & D2 & MM & O2).
      + rewrite PC1, PC2, PC0. reflexivity.
      + apply (plain_after _ _ _ P SC).
      + intros z2 RZ OZ. rewrite O in *. exact (K z2 RZ OZ).
      + exists ((x2', op) :: l2), y2. split; [econstructor; eassumption|]. split; [cbn; rewrite MM; reflexivity|congruence].
  Qed.
End First.

(** ** Two programs *)

Lemma no_labels : forall code ls name, ~ In NUL code -> ~ In ":" code -> generate_labels code = Ok ls -> find_label ls name = None.
Proof.
  intros code ls name Z C G. destruct (generate_labels_spec code Z) as [(ls' & G' & _ & F)|(G' & _)]; [|congruence].
  rewrite G in G'. injection G' as <-. destruct (find_label ls name) as [v|] eqn:E; [|reflexivity]. exfalso.
  apply F in E as (p & ((_ & _ & r & E) & _) & _). apply C. rewrite E, !in_app_iff. right. right. left. reflexivity.
Qed.
Lemma decodes_last : forall a ls x l y, decodes a ls x l y -> parse_instruction a ls y opcode0 = Ok None /\ exists p, moves (c_cur x) p (c_cur y).
Proof.
  intros a ls x l y D. split.
  - induction D; assumption.
  - destruct (decodes_semis _ _ _ _ _ D) as (p & M & _). eauto.
Qed.
(** What is left at the end is white space. *)
Lemma left_blank : forall a ls code l y, ~ In NUL code -> ~ In ":" code -> decodes a ls (ctx0 code) l y -> all_blank (rest (c_cur y)).
Proof.
  intros a ls code l y Z C D. apply decodes_last in D as (E & p & (M & _)). cbn [c_cur ctx0 rest] in M.
  apply parse_instruction_none in E as (t & c & T & K). apply tokenize_reads in T as (g & s & R & GP & TT). rewrite K in TT.
  assert (X : s = [] /\ rest c = []).
  { destruct TT as [TT|(-> & _ & [EN|(ch & r & EN & [I|[]])])]; [exfalso|auto|exfalso].
    - inversion TT; subst. match goal with H : In (_, TNone) operators |- _ => cbn in H; repeat (destruct H as [H|H]; [discriminate H|]); contradiction end.
    - apply Z. rewrite M, R, EN, !in_app_iff. subst ch. right. right. right. left. reflexivity. }
  destruct X as (-> & RC). rewrite RC in *. cbn [app] in *. rewrite app_nil_r in R. rewrite R in M.
  assert (CG : ~ In ":" g) by (intros I; apply C; rewrite M, in_app_iff; right; exact I). rewrite R. clear - CG GP. 
  induction GP as [ws r W|ws w g r W (_ & (w' & ->) & _) GP IH]; [exact W|]. exfalso. apply CG. rewrite !in_app_iff. right. left. right. left. reflexivity.
Qed.

Lemma app_eq_split : forall (a b c d : text), a ++ b = c ++ d ->
  (exists m, a = c ++ m /\ d = m ++ b) \/ (exists m, c = a ++ m /\ b = m ++ d).
Proof.
  induction a as [|x a IH]; intros b c d E; cbn [app] in E.
  - right. exists c. auto.
  - destruct c as [|y c]; cbn [app] in E; [left; exists (x :: a); auto|]. injection E as -> E.
    destruct (IH _ _ _ E) as [(m & -> & ->)|(m & -> & ->)]; [left|right]; exists m; auto.
Qed.
Lemma bare_second : forall a p q ls l y, ~ In NUL p -> ~ In NUL q -> ~ In ":" q -> ~ bare_last_line p -> ~ bare_last_line q ->
  decodes a ls (ctx0 q) l y -> ~ bare_last_line (p ++ q).
Proof.
  intros a p q ls l y Zp Zq C Bp Bq D (h & name & E & LS & LN). destruct (app_eq_split _ _ _ _ E) as [(m & -> & EN)|(m & -> & EN)].
  - apply label_name_chars in LN as LC. destruct LC as (NN & A & F).
    destruct q as [|ch q]; [apply Bp; exists h, name; rewrite app_nil_r in EN; subst m; auto|].
    rewrite EN in F. apply Forall_app in F as (_ & F). assert (SQ : semis (ch :: q) = O) by (apply name_chars_semis, F).
    destruct (decodes_semis _ _ _ _ _ D) as (r & M & LL). apply moves_semis in M as MS. cbn [ctx0 c_cur rest] in MS. rewrite SQ in MS.
    destruct l; [|cbn in LL; lia]. inversion D; subst. pose proof (left_blank _ _ _ _ _ Zq C D) as W. cbn [ctx0 c_cur rest] in W.
    apply Forall_inv in W. apply Forall_inv in F. destruct W as [<-|[<-|[<-|[<-|[]]]]]; discriminate F.
  - apply Bq. exists m, name. split; [exact EN|]. split; [|exact LN].
    destruct LS as [LS|(p' & LS)]; [apply app_eq_nil in LS as (_ & ->); left; reflexivity|].
    destruct m as [|x m] using rev_ind; [left; reflexivity|]. right. rewrite app_assoc in LS. apply app_inj_tail in LS as (_ & ->). eauto.
Qed.

Theorem compose_program : forall a p q ls1 l1 y1 ls2 l2 y2,
  ~ In NUL (p ++ q) -> ~ In ":" (p ++ q) -> plain (start p) -> plain (start q) -> straight (start q) ->
  program a p ls1 l1 y1 -> program a q ls2 l2 y2 ->
  exists ls l y, program a (p ++ q) ls l y /\ map snd l = map snd l1 ++ map snd l2 /\ c_opts y = options0.
Proof.
  intros a p q ls1 l1 y1 ls2 l2 y2 Z C PP PQ SQ (G1 & D1 & A1) (G2 & D2 & A2).
  assert (ZZ : ~ In NUL p /\ ~ In NUL q) by (split; intros X; apply Z, in_app_iff; auto). destruct ZZ as (Zp & Zq).
  assert (CC : ~ In ":" p /\ ~ In ":" q) by (split; intros X; apply C, in_app_iff; auto). destruct CC as (Cp & Cq).
  destruct (generate_labels_spec (p ++ q) Z) as [(ls & G & _)|(_ & B)].
  2:{ exfalso. revert B. eapply bare_second; [exact Zp|exact Zq|exact Cq| | |exact D2].
      - destruct (generate_labels_spec p Zp) as [(? & _ & B & _)|(G & _)]; [exact B|congruence].
      - destruct (generate_labels_spec q Zq) as [(? & _ & B & _)|(G & _)]; [exact B|congruence]. }
  assert (N : forall name, find_label ls name = None) by (intros name; exact (no_labels _ _ name Z C G)).
  pose proof (left_blank _ _ _ _ _ Zp Cp D1) as W.
  destruct (first_decodes q a ls1 ls (ctx0 p) l1 y1) with (x2 := ctx0 (p ++ q)) (M := map snd l2) as (l & y & D & M & O); auto.
  - intros name. rewrite N. exact (no_labels _ _ name Zp Cp G1).
  - intros z2 RZ OZ. destruct (second_decodes a ls2 ls (ctx0 q) l2 y2) with (x2 := z2) as (l & y & D & M & O); auto.
    + intros name. rewrite N. exact (no_labels _ _ name Zq Cq G2).
    + destruct z2 as [[r b c] pc o]. cbn [c_cur rest ctx0] in *. subst r. apply same_stream_sym. apply blanks_skipped. exact W.
    + exists l, y. split; [exact D|]. split; [exact M|]. congruence.
  - exists ls, l, y. split; [|split; [exact M|exact O]]. split; [exact G|]. split; [exact D|]. intros HA.
    rewrite semis_app, <- (A1 HA), <- (A2 HA). rewrite <- (map_length snd l), M, app_length, !map_length. reflexivity.
Qed.

(** ** The words *)

Theorem compose_words : forall a p q ls1 l1 y1 ls2 l2 y2,
  ~ In NUL (p ++ q) -> ~ In ":" (p ++ q) -> plain (start p) -> plain (start q) -> straight (start q) ->
  program a p ls1 l1 y1 -> program a q ls2 l2 y2 ->
  let ops1 := map snd l1 in let ops2 := map snd l2 in
  assemble a p = Ok (layout (recs ops1) (words ops1)) /\ assemble a q = Ok (layout (recs ops2) (words ops2)) /\
  assemble a (p ++ q) = Ok (layout (recs ops1 ++ recs ops2) (words ops1 ++ words ops2)).
Proof.
  intros a p q ls1 l1 y1 ls2 l2 y2 Z C PP PQ SQ P1 P2 ops1 ops2.
  assert (RAW : forall code ls l y, program a code ls l y -> c_opts y = options0 ->
    assemble a code = Ok (layout (recs (map snd l)) (words (map snd l)))).
  { intros code ls l y P O. rewrite <- (program_emit _ _ _ _ _ P). apply assemble_ok. exists ls, l, y. split; [exact P|]. rewrite O. unfold binary. cbn [o_dksh o_type options0 bind]. rewrite app_nil_r. reflexivity. }
  assert (OPT : forall code ls l y, ~ In NUL code -> ~ In ":" code -> plain (start code) -> program a code ls l y -> c_opts y = options0).
  { intros code ls l y ZC CC PL (_ & D & _).
    assert (G : forall x, decodes a ls x l y -> plain (c_cur x) -> c_opts y = c_opts x).
    { clear. intros x D. induction D as [x E|x x' op l y E D IH]; intros P; [reflexivity|].
      assert (N : no_option (c_cur x)) by (apply (P [] (c_cur x)); [constructor|reflexivity]).
      destruct (instruction_scan _ _ _ _ _ N E) as (ks & SC). rewrite (IH (plain_after _ _ _ P SC)).
      apply parse_instruction_some in E as (t & c & t1 & c1 & o & t2 & c2 & op1 & s & H1 & _ & H3 & _ & _ & _ & -> & _).
      cbn [parse_options] in H3. rewrite (N _ _ H1) in H3. injection H3 as _ _ <-. reflexivity. }
    exact (G _ D PL). }
  assert (ZZ : ~ In NUL p /\ ~ In NUL q) by (split; intros X; apply Z, in_app_iff; auto). destruct ZZ as (Zp & Zq).
  assert (CC : ~ In ":" p /\ ~ In ":" q) by (split; intros X; apply C, in_app_iff; auto). destruct CC as (Cp & Cq).
  split; [apply (RAW _ _ _ _ P1), (OPT _ _ _ _ Zp Cp PP P1)|]. split; [apply (RAW _ _ _ _ P2), (OPT _ _ _ _ Zq Cq PQ P2)|].
  destruct (compose_program a p q ls1 l1 y1 ls2 l2 y2 Z C PP PQ SQ P1 P2) as (ls & l & y & P & M & O).
  rewrite (RAW _ _ _ _ P O), M. unfold recs, words. rewrite !map_app. reflexivity.
Qed.

(** ** Deciding the side conditions *)

(** All tokens of a text. *)
Fixpoint all_kinds (n : nat) (c : cursor) : option (list tkind) :=
  match n with
  | O => None
  | S n =>
      match tokenize c with
      | Ok (t, c') =>
          match rest c', kind t with
          | [], TNone => Some []
          | _, k => match all_kinds n c' with Some ks => Some (k :: ks) | None => None end
          end
      | _ => None
      end
  end.
Lemma scan_end : forall c ks c', scan c ks c' -> rest c = [] -> forall k, In k ks -> k = TNone.
Proof.
  intros c ks c' S. induction S as [c|c t c1 ks c' T S IH]; intros R k I; [contradiction|].
  assert (E : kind t = TNone /\ rest c1 = []).
  { destruct c as [r a b]. cbn [rest] in R. subst r. cbv in T. injection T as <- <-. split; reflexivity. }
  destruct E as (E1 & E2). destruct I as [<-|I]; [exact E1|exact (IH E2 k I)].
Qed.
Lemma all_kinds_scan : forall n c ks, all_kinds n c = Some ks -> forall ks' c', scan c ks' c' -> forall k, In k ks' -> k = TNone \/ In k ks.
Proof.
  induction n as [|n IH]; intros c ks H ks' c' S k I; [discriminate|]. destruct S as [|c t c1 ks' c' T S]; [contradiction|].
  cbn [all_kinds] in H. rewrite T in H.
  assert (X : (kind t = TNone /\ rest c1 = []) \/ exists ks1, all_kinds n c1 = Some ks1 /\ ks = kind t :: ks1).
  { destruct (all_kinds n c1) as [ks1|].
    - destruct (rest c1), (kind t); first [left; split; reflexivity|right; exists ks1; injection H as <-; split; reflexivity].
    - destruct (rest c1), (kind t); first [discriminate H|left; split; reflexivity]. }
  destruct X as [(K & R)|(ks1 & A & ->)].
  - left. destruct I as [<-|I]; [exact K|]. exact (scan_end _ _ _ S R k I).
  - destruct I as [<-|I]; [right; left; reflexivity|]. destruct (IH _ _ A _ _ S k I) as [X|X]; [left; exact X|right; right; exact X].
Qed.
Fixpoint starts_plain (b : bool) (ks : list tkind) : bool :=
  match ks with
  | [] => true
  | k :: ks => negb (b && is_option (Token k 0 0)) && starts_plain (match k with TSemi => true | _ => false end) ks
  end.
Lemma plain_decided : forall n c ks, all_kinds n c = Some ks -> starts_plain true ks = true -> plain c.
Proof.
  assert (G : forall n c ks b, all_kinds n c = Some ks -> starts_plain b ks = true ->
    forall ks' c', scan c ks' c' -> b = true \/ ks' <> [] -> last ks' TSemi = TSemi -> no_option c').
  { induction n as [|n IH]; intros c ks b H ST ks' c' S B L; [discriminate|].
    assert (E0 : forall c t c2, rest c = [] -> tokenize c = Ok (t, c2) -> kind t = TNone).
    { intros [r x y] t c2 R T. cbn [rest] in R. subst r. cbv in T. injection T as <- _. reflexivity. }
    destruct S as [c|c t c1 ks' c' T S].
    - destruct B as [->|B]; [|contradiction]. intros t c2 T. cbn [all_kinds] in H. rewrite T in H. unfold is_option.
      destruct (kind t) eqn:K; try reflexivity. destruct (all_kinds n c2) as [ks1|]; [|destruct (rest c2); discriminate].
      assert (E : ks = TIdent s :: ks1) by (destruct (rest c2); congruence). rewrite E in ST. cbn in ST.
      apply andb_true_iff in ST as (ST & _). apply negb_true_iff in ST. exact ST.
    - cbn [all_kinds] in H. rewrite T in H.
      assert (X : (kind t = TNone /\ rest c1 = []) \/ exists ks1, all_kinds n c1 = Some ks1 /\ ks = kind t :: ks1).
      { destruct (all_kinds n c1) as [ks1|].
        - destruct (rest c1), (kind t); first [left; split; reflexivity|right; exists ks1; injection H as <-; split; reflexivity].
        - destruct (rest c1), (kind t); first [discriminate H|left; split; reflexivity]. }
      destruct X as [(K & R)|(ks1 & A & ->)].
      + exfalso. assert (X : forall k, In k (kind t :: ks') -> k = TNone).
        { intros k [<-|I]; [exact K|]. exact (scan_end _ _ _ S R k I). }
        assert (I : In (last (kind t :: ks') TSemi) (kind t :: ks')).
        { generalize (kind t) as k. clear. induction ks' as [|x ks' IH]; intros k; [left; reflexivity|]. right. change (last (k :: x :: ks') TSemi) with (last (x :: ks') TSemi). apply IH. }
        apply X in I. congruence.
      + cbn [starts_plain] in ST. apply andb_true_iff in ST as (_ & ST). apply (IH _ _ _ A ST _ _ S).
        * destruct ks' as [|k ks']; [left|right; discriminate]. cbn [last] in L. rewrite L. reflexivity.
        * destruct ks' as [|k ks']; [reflexivity|exact L]. }
  intros n c ks A ST ks' c' S L. eapply G; eauto.
Qed.
Lemma straight_decided : forall n c ks, all_kinds n c = Some ks ->
  forallb (fun k => negb (existsb (fun m => equal (Token k 0 0) m) relative_names)) ks = true -> straight c.
Proof.
  intros n c ks A F ks' c' m S M I. destruct (all_kinds_scan _ _ _ A _ _ S _ I) as [K|K]; [discriminate|].
  pose proof (forallb_in _ _ _ _ F K) as X. apply negb_true_iff in X. rewrite <- not_true_iff_false in X. apply X.
  apply existsb_exists. exists m. split; [exact M|]. unfold equal. cbn [kind]. apply text_eqb_refl.
Qed.
