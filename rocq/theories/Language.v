(** * Language: the assembler accepts exactly the programs and writes their files. *)
From Verif Require Import Base Float Lexer Operand Catalogue Table Parse Assemble Spec LexFacts SchedFuel Param Reach ParseFacts
  Outcomes Decode Program Modes Encode Emit Layout Bits SpecOperand SpecInsn SpecOpts SpecSafe Operands Insn Position Literals SpecLex Lexemes Stream Cut Where Opts SpecContainer Container Text Sched Compose Safe SpecProgram.
From Coq Require Import Lia.
Local Open Scope string_scope.
Local Open Scope list_scope.
Open Scope Z_scope.

(** ** Trying a form where all tokens can be read *)

(** No fatal diagnostic, and [Q] holds of the result. *)
Definition mute {A} (Q : A -> Prop) (m : res A) : Prop :=
  match m with Ok a => Q a | Fatal _ => False | _ => True end.
Lemma mute_bind : forall A B (Q : A -> Prop) (Q' : B -> Prop) m k, mute Q m -> (forall a, Q a -> mute Q' (k a)) -> mute Q' (bind m k).
Proof. intros A B Q Q' [] k H K; cbn in *; auto. Qed.

Section Mute.
  Variable inv : cursor -> Prop.
  Hypothesis inv_tokenize : forall c, inv c -> mute (fun x => inv (snd x)) (tokenize c).
  Variable e : env.
  Notation kept := (kept inv).

  Lemma mute_advance : forall s, kept s -> mute kept (advance_tok s).
  Proof. intros s H. unfold advance_tok. eapply mute_bind; [apply inv_tokenize, H|]. intros (t, c) X. exact X. Qed.
  Lemma mute_add_bits : forall a op b, mute (fun _ => True) (add_bits a op b).
  Proof. intros a op b. unfold add_bits. destruct (_ && _); exact I. Qed.
  Lemma mute_add_reuse : forall a op b, mute (fun _ => True) (add_reuse a op b).
  Proof. intros a op b. unfold add_reuse. destruct (_ && _); exact I. Qed.
  Lemma mute_put : forall b s, kept s -> mute kept (put e b s).
  Proof. intros b s H. unfold put. eapply mute_bind; [apply mute_add_bits|]. intros op _. exact H. Qed.
  Lemma mute_find : forall b tbl p t, mute (fun _ => True) (find_in_table b tbl p t).
  Proof. intros b tbl p t. unfold find_in_table. destruct (kind t); try exact I. destruct (strip_prefix _ _); [|exact I]. destruct (index_of _ _ _); [exact I|destruct b; exact I]. Qed.
  Lemma mute_convert : forall s a b, mute (fun _ => True) (convert_integer s a b).
  Proof.
    intros s a b. unfold convert_integer, confirm_type. destruct (s_kind s) eqn:K; cbn; try exact I. rewrite K.
    destruct (_ || _); exact I.
  Qed.
  Lemma mute_sub : forall a b, mute (fun _ => True) (sub64 a b).
  Proof. intros a b. unfold sub64. destruct (_ || _); exact I. Qed.
  Lemma mute_reuse : forall a s, kept s -> mute kept (try_reuse e a s).
  Proof.
    intros a s H. unfold try_reuse. destruct (negb _); [exact H|].
    destruct (N.eqb _ _); [|destruct (N.eqb _ _); [|destruct (N.eqb _ _); [|exact I]]];
      (eapply mute_bind; [apply mute_add_reuse|]; intros op _; apply mute_advance; exact H).
  Qed.
  Lemma mute_confirm : forall ty s, kept s -> mute kept (confirm_type ty s).
  Proof. intros ty s H. unfold confirm_type. destruct (ttype_eqb _ _); [exact H|exact I]. Qed.
  Lemma mute_gpr : forall a s, kept s -> mute kept (assemble_gpr e a s).
  Proof.
    intros a s H. unfold assemble_gpr, confirm_type. destruct (s_kind s) eqn:K; cbn [type_of ttype_eqb bind]; try exact I. cbn. rewrite K.
    eapply mute_bind; [apply mute_put, H|]. intros s1 H1. eapply mute_bind; [apply mute_advance, H1|]. intros s2 H2. apply mute_reuse, H2.
  Qed.

  Ltac g1 :=
    match goal with
    | H : kept ?s |- mute kept (advance_tok ?s) => apply mute_advance; exact H
    | H : kept ?s |- mute kept (put _ _ ?s) => apply mute_put; exact H
    | H : kept ?s |- mute kept (confirm_type _ ?s) => apply mute_confirm; exact H
    | H : kept ?s |- mute kept (assemble_gpr _ _ ?s) => apply mute_gpr; exact H
    | H : kept ?s |- mute kept (try_reuse _ _ ?s) => apply mute_reuse; exact H
    | |- mute _ (bind (find_in_table _ _ _ _) _) => eapply mute_bind; [apply mute_find|]; intros ? _
    | |- mute _ (bind (sub64 _ _) _) => eapply mute_bind; [apply mute_sub|]; intros ? _
    | |- mute _ (bind (convert_integer _ _ _) _) => eapply mute_bind; [apply mute_convert|]; intros ? _
    | |- mute _ (bind (add_reuse _ _ _) _) => eapply mute_bind; [apply mute_add_reuse|]; intros ? _
    | |- mute _ (bind (advance_tok _) _) => eapply (mute_bind _ _ kept); [|intros ? ?]
    | |- mute _ (bind (put _ _ _) _) => eapply (mute_bind _ _ kept); [|intros ? ?]
    | |- mute _ (bind (confirm_type _ _) _) => eapply (mute_bind _ _ kept); [|intros ? ?]
    | |- mute _ (bind (assemble_gpr _ _ _) _) => eapply (mute_bind _ _ kept); [|intros ? ?]
    | |- mute _ (bind (try_reuse _ _ _) _) => eapply (mute_bind _ _ kept); [|intros ? ?]
    | |- mute _ (bind (Ok _) _) => cbn [bind]
    | |- mute _ (bind (bind _ _) _) => rewrite bind_assoc
    | |- mute _ (bind (fail _ _) _) => exact I
    | |- mute _ (bind (Undef _) _) => exact I
    | |- mute _ (Undef _) => exact I
    | |- mute _ (bind (if ?b then _ else _) _) => destruct b
    | |- mute _ (bind (match ?b with _ => _ end) _) => destruct b
    | |- mute _ (fail _ _) => exact I
    | H : kept ?s |- mute kept (Ok ?s) => exact H
    | |- mute _ (if ?b then _ else _) => destruct b
    | |- mute _ (match ?b with _ => _ end) => destruct b
    | |- mute _ (Abort _) => exact I
    | |- mute _ (bind (Abort _) _) => exact I
    | |- mute _ (confirm_type_next _ _) => unfold confirm_type_next
    | |- mute _ (bind (confirm_type_next _ _) _) => unfold confirm_type_next
    | |- mute _ (assemble_uint _ _ _ _) => unfold assemble_uint
    | |- mute _ (bind (assemble_uint _ _ _ _) _) => unfold assemble_uint
    | |- mute _ (assemble_int _ _ _ _) => unfold assemble_int
    | |- mute _ (bind (assemble_int _ _ _ _) _) => unfold assemble_int
    | |- mute _ (run_memory_address _ _ _ _ _ _) => unfold run_memory_address
    | H : kept ?s |- context [set_value ?v ?s] => assert (kept (set_value v s)) by exact H; generalize dependent (set_value v s); intros
    end.
  Ltac gs := repeat g1.

  Lemma mute_pred : forall a n s, kept s -> mute kept (run_pred e a n s).
  Proof.
    intros a n s H. unfold run_pred, confirm_type. destruct (s_kind s) eqn:K; cbn [type_of ttype_eqb bind]; try exact I. cbn. rewrite K. gs.
  Qed.
  Lemma mute_inv_pred : forall a s, kept s -> mute kept (run_inverted_pred e a s).
  Proof.
    intros a s H. unfold run_inverted_pred, confirm_type. destruct (s_kind s) eqn:K; cbn [type_of ttype_eqb bind]; try exact I. cbn. rewrite K. gs.
  Qed.
  Lemma mute_operand : forall o s, kept s -> mute kept (run_operand e o s).
  Proof.
    induction o; intros s0 H; cbn [run_operand].
    all: unfold run_comma, assemble_flag, dot_table, req_table, req_text, req_text_after, opt_text, run_uimm_extended, run_label,
        run_mirror_dgpr, assemble_constant_buffer, assemble_signed_20bit_immediate, assemble_float_immediate, assemble_double_immediate,
        assemble_half_float_immediate, opt_type, run_abs, run_po, assemble_cc_tests, run_imm_attr, run_patch_attr, run_phys_attr, run_xmad_signs,
        run_f2f_rounding, run_int_format, run_ldc_address, run_selector, run_atomic_size, run_src_format, run_zero, run_texs_mode, run_tlds_type,
        run_texs_type, run_texs_swizzle, run_s2r, run_ldg_size, run_tex_type.
    all: try (apply mute_pred; exact H).
    all: try (apply mute_inv_pred; exact H).
    all: gs.
    all: eapply (mute_bind _ _ kept); [apply IHo; assumption|intros; gs].
  Qed.
  Lemma mute_sched_loop : forall n v s, kept s -> mute kept (assemble_sched_loop n v s).
  Proof.
    assert (SI : forall s mx m, kept s -> mute (fun x => kept (snd x)) (sched_int s mx m)).
    { intros s mx m H. unfold sched_int. eapply (mute_bind _ _ kept); [gs|]. intros s1 H1. unfold confirm_type.
      destruct (s_kind s1) eqn:K; cbn [type_of ttype_eqb bind]; try exact I. cbn. rewrite K. destruct (_ || _); [exact I|exact H1]. }
    induction n as [|n IH]; intros v s H; cbn [assemble_sched_loop]; [exact I|]. destruct (negb _); [exact H|].
    eapply (mute_bind _ _ kept); [gs|]. intros s1 H1.
    destruct (equal (s_tok s1) "WAIT").
    { destruct (v_stall v); [exact I|]. eapply mute_bind; [apply SI, H1|]. intros (x, s2) H2. cbn [snd] in H2.
      eapply (mute_bind _ _ kept); [gs|]. intros. apply IH; assumption. }
    destruct (_ || _).
    { match goal with |- mute _ (match ?b with _ => _ end) => destruct b end; [exact I|]. eapply mute_bind; [apply SI, H1|]. intros (x, s2) H2. cbn [snd] in H2.
      eapply (mute_bind _ _ kept); [gs|]. intros. apply IH; assumption. }
    destruct (_ || _).
    { destruct (v_yield v); [exact I|]. eapply (mute_bind _ _ kept); [gs|]. intros. apply IH; assumption. }
    destruct (equal (s_tok s1) "DEP"); [|exact I].
    eapply mute_bind; [apply SI, H1|]. intros (x, s2) H2. cbn [snd] in H2.
    destruct (negb _); [exact I|]. eapply (mute_bind _ _ kept); [gs|]. intros. apply IH; assumption.
  Qed.
  Lemma mute_scored : forall n m (k : st -> res attempt), mute kept m -> (forall s, kept s -> mute (fun _ => True) (k s)) ->
    mute (fun _ => True) (scored n m k).
  Proof. intros n [] k H K; cbn in *; auto. Qed.
  Lemma mute_operands : forall ops n s k, kept s -> (forall n s, kept s -> mute (fun _ => True) (k n s)) -> mute (fun _ => True) (run_operands e ops n s k).
  Proof.
    induction ops as [|o ops IH]; intros n s k H K; cbn [run_operands]; [apply K, H|].
    apply mute_scored; [apply mute_operand, H|]. intros s1 H1. apply IH; assumption.
  Qed.
  Lemma mute_insn : forall i c op, inv c -> mute (fun _ => True) (parse_insn e i c op).
  Proof.
    intros i c op H. unfold parse_insn. eapply mute_bind; [apply mute_add_bits|]. intros op1 _.
    eapply mute_bind; [apply inv_tokenize, H|]. intros (t, c1) H1. cbn [snd] in H1. destruct (_ && _); [exact I|].
    apply mute_operands; [exact H1|]. intros n s K. apply mute_scored; [apply mute_sched_loop, K|]. intros s1 K1.
    apply mute_scored; [apply mute_confirm, K1|]. intros s2 K2. exact I.
  Qed.
End Mute.

(** ** Tokens of a text *)

Lemma newlines_app : forall p q, newlines (p ++ q) = newlines p + newlines q.
Proof. intros p q. unfold newlines. rewrite filter_app, app_length. lia. Qed.
Lemma lines_newlines : forall p n, lines p n = n + newlines p.
Proof.
  induction p as [|ch p IH]; intros n; [cbn; lia|]. cbn [lines]. rewrite IH. unfold adv_line, newlines. cbn [filter].
  change LF with "010"%char. rewrite (Ascii.eqb_sym "010" ch). destruct (Ascii.eqb ch "010"); cbn [List.length]; lia.
Qed.
Definition lined (t : token) : tkind * Z := (kind t, t_line t).
Lemma fst_lined : forall ts, map fst (map lined ts) = map kind ts.
Proof. intros ts. rewrite map_map. reflexivity. Qed.
Lemma lexeme_some : forall s k q, lexeme s k q -> k <> TNone.
Proof.
  intros s k q L K. inversion L; subst; try congruence.
  match goal with H : In _ operators |- _ => cbn in H; repeat (destruct H as [H|H]; [discriminate H|]); contradiction end.
Qed.
Lemma lexes_some : forall q n ts, lexes q n ts -> forall t, In t ts -> fst t <> TNone.
Proof.
  intros q n ts H. induction H as [|g s k q n ts G L H IH]; intros t I; [contradiction|].
  destruct I as [<-|I]; [|exact (IH _ I)]. eapply lexeme_some; eassumption.
Qed.

(** The end of the text. *)
Definition at_end (c : cursor) : Prop := exists t c', tokenize c = Ok (t, c') /\ kind t = TNone.

Lemma lexes_step : forall c ts, lexes (rest c) (line c) ts -> exists t c', tokenize c = Ok (t, c') /\
  ((ts = [] /\ kind t = TNone /\ rest c' = []) \/ exists us, ts = lined t :: us /\ lexes (rest c') (line c') us).
Proof.
  intros [r l k0] ts H. cbn [rest line] in H. destruct H as [g n G|g s k q n ts G L H].
  - destruct (moves_along g [] n k0) as (c' & M & R). rewrite app_nil_r in M. exists (Token TNone (line c') (col c')), c'. split.
    + apply tokenize_iff. exists g, [], c'. split; [exact M|]. split; [rewrite R; exact G|]. split; [apply moves_refl|].
      split; [right; split; [reflexivity|]; split; [reflexivity|]; left; exact R|]. split; reflexivity.
    + left. auto.
  - destruct (moves_along g (s ++ q) n k0) as (cs & M & R). destruct cs as [r1 l1 k1]. cbn [rest] in R. subst r1.
    destruct (moves_along s q l1 k1) as (c' & M2 & R2). exists (Token k l1 k1), c'. split.
    + apply tokenize_iff. exists g, s, (Cursor (s ++ q) l1 k1). split; [exact M|]. split; [exact G|]. split; [exact M2|].
      split; [left; rewrite R2; exact L|]. split; reflexivity.
    + right. exists ts. destruct M as (_ & ML & _), M2 as (_ & ML2 & _). cbn [line] in *. rewrite lines_newlines in ML, ML2. subst l1.
      split; [reflexivity|]. rewrite R2, ML2. rewrite newlines_app, Z.add_assoc in H. exact H.
Qed.
Lemma step_lexes : forall c t c' us, ~ In NUL (rest c) -> tokenize c = Ok (t, c') -> kind t <> TNone -> lexes (rest c') (line c') us ->
  lexes (rest c) (line c) (lined t :: us).
Proof.
  intros c t c' us NN T K H. apply tokenize_iff in T as (g & s & cs & (R1 & L1 & _) & G & (R2 & L2 & _) & TT & TL & _).
  destruct TT as [L|(_ & K' & _)]; [|contradiction]. rewrite R1. rewrite R2 in G |- *. unfold lined. rewrite TL, L1, lines_newlines.
  constructor; [exact G|exact L|]. replace (line c + newlines (g ++ s)) with (line c'); [exact H|]. rewrite L2, L1, !lines_newlines, newlines_app. lia.
Qed.
Lemma end_lexes : forall c, ~ In NUL (rest c) -> at_end c -> lexes (rest c) (line c) [].
Proof.
  intros c NN (t & c' & T & K). apply tokenize_iff in T as (g & s & cs & (R1 & _) & G & (R2 & _) & TT & _).
  destruct TT as [L|(-> & _ & E)]; [destruct (lexeme_some _ _ _ L K)|]. cbn [app] in R2.
  assert (RE : rest cs = []).
  { rewrite R2. destruct E as [E|(ch & q & E & [<-|[]])]; [exact E|]. exfalso. apply NN. rewrite R1, R2, E, in_app_iff. right. left. reflexivity. }
  rewrite R1, RE, app_nil_r. constructor. rewrite RE in G. exact G.
Qed.

Lemma lexes_tokens : forall ts c, lexes (rest c) (line c) ts -> exists tk c', tokens c tk c' /\ map lined tk = ts /\ at_end c'.
Proof.
  induction ts as [|u ts IH]; intros c H; destruct (lexes_step _ _ H) as (t & c' & T & [(E & K & _)|(us & E & H')]); try discriminate.
  - exists [], c. split; [constructor|]. split; [reflexivity|]. exists t, c'. auto.
  - injection E as -> ->. destruct (IH _ H') as (tk & c2 & TK & M & AE). exists (t :: tk), c2. split; [econstructor; eassumption|].
    split; [cbn; congruence|exact AE].
Qed.
Lemma moves_nul : forall c p c', moves c p c' -> ~ In NUL (rest c) -> ~ In NUL (rest c').
Proof. intros c p c' (R & _) N I. apply N. rewrite R, in_app_iff. auto. Qed.
Lemma token_nul : forall c t c', tokenize c = Ok (t, c') -> ~ In NUL (rest c) -> ~ In NUL (rest c').
Proof.
  intros c t c' T N. apply tokenize_spec in T as (q & cq & b & M1 & M2 & _). eapply moves_nul; [exact M2|]. eapply moves_nul; eassumption.
Qed.
Lemma tokens_lexes : forall c tk c', tokens c tk c' -> ~ In NUL (rest c) -> Forall (fun t => kind t <> TNone) tk -> at_end c' ->
  lexes (rest c) (line c) (map lined tk).
Proof.
  intros c tk c' H. induction H as [c|c t c1 ts c' T H IH]; intros NN F E; [apply end_lexes; assumption|].
  cbn [map]. eapply step_lexes; [exact NN|exact T|exact (Forall_inv F)|]. apply IH; [eapply token_nul; eassumption|exact (Forall_inv_tail F)|exact E].
Qed.

(** Every token can be read. *)
Lemma lexes_readable : forall c ks c', scan c ks c' -> (exists ts, lexes (rest c) (line c) ts) -> exists ts, lexes (rest c') (line c') ts.
Proof.
  intros c ks c' S. induction S as [c|c t c1 ks c' T S IH]; intros (ts & H); [eauto|]. apply IH.
  destruct (lexes_step _ _ H) as (t' & c2 & T' & [(_ & _ & R)|(us & _ & H')]); rewrite T in T'; injection T' as <- <-; [|eauto].
  exists []. rewrite R. constructor. constructor. constructor.
Qed.

Lemma tokens_scan : forall c ts c', tokens c ts c' -> scan c (map kind ts) c'.
Proof. intros c ts c' H. induction H as [c|c t c1 ts c' T H IH]; [constructor|]. cbn. econstructor; eassumption. Qed.
Lemma scan_tokens : forall c ks c', scan c ks c' -> exists ts, tokens c ts c' /\ map kind ts = ks.
Proof.
  intros c ks c' H. induction H as [c|c t c1 ks c' T H (ts & IH & M)]; [exists []; split; [constructor|reflexivity]|].
  exists (t :: ts). split; [econstructor; eassumption|]. cbn. congruence.
Qed.
Lemma tokens_app : forall c ts c1 ts' c2, tokens c ts c1 -> tokens c1 ts' c2 -> tokens c (ts ++ ts') c2.
Proof. intros c ts c1 ts' c2 H. induction H; intros H2; [exact H2|]. cbn. econstructor; eauto. Qed.
Lemma tokens_split : forall ts c ts' c2, tokens c (ts ++ ts') c2 -> exists c1, tokens c ts c1 /\ tokens c1 ts' c2.
Proof.
  induction ts as [|t ts IH]; intros c ts' c2 H; [exists c; split; [constructor|exact H]|]. cbn in H. inversion H as [|? ? c1 ? ? T H']; subst.
  destruct (IH _ _ _ H') as (c3 & A & B). exists c3. split; [econstructor; eassumption|exact B].
Qed.

(** ** Forms *)

Lemma form_tokens : forall lab pc i gi gn ks op, In i table -> form_spells lab pc i gi gn ks op -> exists k0, ks = k0 ++ [TSemi] /\ ~ In TSemi k0.
Proof.
  intros lab pc i gi gn ks op I (ko & kn & notes & w & r & -> & _ & SP & NT & _). exists (ko ++ kn). split; [rewrite app_assoc; reflexivity|].
  rewrite in_app_iff. intros [X|X]; [|exact (notes_no_semi _ _ NT X)]. pose proof (forallb_in _ _ _ _ table_mark_free I) as M. cbv beta in M.
  exact (unmarked_semi _ (spell_list_unmarked _ _ _ _ _ _ _ _ M SP) X).
Qed.
Lemma form_some : forall lab pc i gi gn ks op, form_spells lab pc i gi gn ks op -> ks <> [].
Proof. intros lab pc i gi gn ks op (ko & kn & notes & w & r & -> & _). destruct ko, kn; discriminate. Qed.

Section Ext.
  Variables lab lab' : text -> option Z.
  Hypothesis same : forall n, lab n = lab' n.
  Lemma spells_ext : forall pc o w ks nx b r, spells lab pc o w ks nx b r -> spells lab' pc o w ks nx b r.
  Proof.
    intros pc. induction o; intros w ks nx b r H; cbn [spells] in *; try exact H.
    - destruct H as (t & [(n & E & L)|E] & H); exists t; (split; [|exact H]); [left; exists n; rewrite <- same; auto|right; exact E].
    - destruct H as [(ks' & b' & E & S & B)|(NE & S)]; [left; exists ks', b'; auto|right; auto].
  Qed.
  Lemma spell_list_ext : forall pc nx ops w ks w' r, spell_list lab pc nx ops w ks w' r -> spell_list lab' pc nx ops w ks w' r.
  Proof. intros pc nx ops w ks w' r H. induction H; [constructor|]. econstructor; [apply spells_ext|]; eassumption. Qed.
  Lemma form_ext : forall pc i gi gn ks op, form_spells lab pc i gi gn ks op -> form_spells lab' pc i gi gn ks op.
  Proof.
    intros pc i gi gn ks op (ko & kn & notes & w & r & E & A & SP & H). exists ko, kn, notes, w, r. split; [exact E|]. split; [exact A|].
    split; [apply spell_list_ext, SP|exact H].
  Qed.
End Ext.
Lemma sentence_ext : forall lab lab', (forall n, lab n = lab' n) -> forall n ts ss ops, sentence lab n ts ss ops -> sentence lab' n ts ss ops.
Proof.
  intros lab lab' E n ts ss ops H. induction H as [n|n s t us v ts ss ops W L NL H IH|n pre i post gi gn kg kf us ts ss op ops TE G F FF M H IH].
  - constructor.
  - econstructor; eassumption.
  - econstructor; try eassumption; [eapply form_ext; eassumption|]. intros j op' J M' F'. apply (FF j op' J M').
    eapply form_ext; [|exact F']. intros x. symmetry. apply E.
Qed.
Lemma labelled_unique : forall code lab lab', labelled code lab -> labelled code lab' -> forall n, lab n = lab' n.
Proof.
  intros code lab lab' L L' n. destruct (lab n) as [z|] eqn:E.
  - apply L, L' in E. congruence.
  - destruct (lab' n) as [z|] eqn:E'; [|reflexivity]. apply L', L in E'. congruence.
Qed.

(** ** Accepted texts are programs *)

Lemma plain_options : forall n t c o, is_option t = false -> parse_options (Datatypes.S n) t c o = Ok (t, c, o).
Proof. intros n t c o H. cbn [parse_options]. rewrite H. reflexivity. Qed.
Lemma guard_some : forall gi gn kg, guard_tokens gi gn kg -> Forall (fun k => k <> TNone) kg.
Proof. intros gi gn kg [(-> & _)| ->]; repeat constructor; discriminate. Qed.
Lemma kinds_some : forall tk, Forall (fun k => k <> TNone) (map kind tk) -> Forall (fun t => kind t <> TNone) tk.
Proof. intros tk F. rewrite Forall_forall in *. intros t I. apply F. apply in_map. exact I. Qed.
Lemma parsed_some : forall a ls x x' op, parse_instruction a ls x opcode0 = Ok (Some (x', op)) ->
  exists t c, tokenize (c_cur x) = Ok (t, c) /\ kind t <> TNone.
Proof.
  intros a ls x x' op H. apply parse_instruction_some in H as (t & c & _ & _ & _ & _ & _ & _ & _ & T & K & _). eauto.
Qed.

(** A text that is read to its end has no token of no kind before. *)
Lemma scan_not_end : forall c ks k c', scan c (ks ++ [k]) c' -> k <> TNone -> Forall (fun k => k <> TNone) (ks ++ [k]).
Proof.
  intros c ks k c' S. remember (ks ++ [k]) as l eqn:E. revert ks E. induction S as [c|c t c1 l c' T S IH]; intros ks E NK; [destruct ks; discriminate|].
  destruct ks as [|k0 ks]; cbn in E; injection E as E1 E2.
  - subst l. rewrite E1. repeat constructor. exact NK.
  - constructor; [|exact (IH ks E2 NK)]. intros KN. subst l. 
    assert (X : at_end c1).
    { apply tokenize_iff in T as (g & s & cs & M1 & G & M2 & TT & _). destruct TT as [L|(-> & _ & EN)]; [destruct (lexeme_some _ _ _ L KN)|].
      exists (Token TNone (line c1) (col c1)), c1. split; [|reflexivity]. apply tokenize_iff. exists [], [], c1. split; [apply moves_refl|].
      split; [constructor; constructor|]. split; [apply moves_refl|]. split; [right; auto|]. split; reflexivity. }
    clear - X S NK. revert X S. generalize c1. induction ks as [|k1 ks IH]; intros c X S; destruct X as (t & c2 & T & K).
    + inversion S as [|? ? ? ? ? T' S' E]; subst. rewrite T in T'. injection T' as <- <-. congruence.
    + inversion S as [|? ? ? ? ? T' S' E]; subst. rewrite T in T'. injection T' as <- <-. refine (IH c2 _ S').
      apply tokenize_iff in T as (g & s & cs & M1 & G & M2 & TT & _). destruct TT as [L|(-> & _ & EN)]; [destruct (lexeme_some _ _ _ L K)|].
      exists (Token TNone (line c2) (col c2)), c2. split; [|reflexivity]. apply tokenize_iff. exists [], [], c2. split; [apply moves_refl|].
      split; [constructor; constructor|]. split; [apply moves_refl|]. split; [right; auto|]. split; reflexivity.
Qed.

(** Options in front of a sentence. *)
Lemma options_sentence : forall c l c1, options_at c l c1 -> forall lab n t tk c' ss ops, tokens c1 (t :: tk) c' ->
  sentence lab n (map lined (t :: tk)) ss ops ->
  exists t' tk', tokens c (t' :: tk') c' /\ sentence lab n (map lined (t' :: tk')) (l ++ ss) ops /\ exists p, t' :: tk' = p ++ t :: tk.
Proof.
  intros c l c1 O. induction O as [c|c s t ts c1 t2 c2 l c3 TS W L T2 NL O IH]; intros lab n t0 tk c' ss ops TK SE.
  - exists t0, tk. split; [exact TK|]. split; [exact SE|]. exists []. reflexivity.
  - destruct (IH _ _ _ _ _ _ _ TK SE) as (t3 & tk2 & TK' & SE' & p & PE).
    inversion TK' as [|? ? ? ? ? T3]; subst. rewrite T2 in T3. injection T3 as <- <-.
    exists t, (ts ++ t2 :: tk2). split; [change (t :: ts ++ t2 :: tk2) with ((t :: ts) ++ t2 :: tk2); eapply tokens_app; eassumption|].
    split; [|exists ((t :: ts) ++ p); rewrite <- app_assoc, <- PE; reflexivity].
    cbn [map]. rewrite map_app. cbn [map app]. apply sentence_option; [|..].
    + change (lined t :: map lined ts) with (map lined (t :: ts)). rewrite fst_lined. exact W.
    + intros OL. specialize (L OL). rewrite Forall_forall in *. intros u I. apply in_map_iff in I as (v & <- & I). exact (L _ I).
    + exact NL.
    + exact SE'.
Qed.

Lemma apply_settings_app : forall l l' o, apply_settings (l ++ l') o = match apply_settings l o with Some o1 => apply_settings l' o1 | None => None end.
Proof. induction l as [|s l IH]; intros l' o; [reflexivity|]. cbn [app apply_settings]. destruct (apply_setting s o); [apply IH|reflexivity]. Qed.
Definition ends_semi (tk : list token) : Prop := tk = [] \/ exists k, map kind tk = k ++ [TSemi].

Lemma decodes_sentence : forall a ls x l y, decodes a ls x l y -> forall n, pc_ok x n ->
  exists tk ss, tokens (c_cur x) tk (c_cur y) /\ sentence (find_label ls) n (map lined tk) ss (map snd l) /\
    apply_settings ss (c_opts x) = Some (c_opts y) /\ ends_semi tk /\ at_end (c_cur y).
Proof.
  intros a ls x l y D. induction D as [x E|x x' op l y E D IH]; intros n P.
  - exists [], []. split; [constructor|]. split; [constructor|]. split; [reflexivity|]. split; [left; reflexivity|].
    apply parse_instruction_none in E. exact E.
  - destruct (IH _ (decodes_pc _ _ _ _ _ _ P E)) as (tk & ss & TK & SE & AS & NN & AE). clear IH.
    apply (proj1 (instruction_options _ _ _ _ _ _)) in E as (so & c1 & o & OA & NO & AO & E).
    change (parse_instruction_with table) with parse_instruction in E.
    apply instruction_meets in E as (t & c & t1 & c2 & o1 & pre & i & post & kg & gi & gn & cm & kf & T & KN & PO & TE & G & (k0 & ks0 & GE & GK & GS) & S & F & FF & XE).
    cbn [c_cur c_pc c_opts] in *. rewrite (plain_options _ _ _ _ (NO _ _ T)) in PO. injection PO as <- <- <-.
    rewrite P in *.
    assert (SC : scan c1 (kg ++ id (i_mnemonic i) :: kf) (c_cur x')).
    { replace (kg ++ id (i_mnemonic i) :: kf) with ((kg ++ [id (i_mnemonic i)]) ++ kf) by (rewrite <- app_assoc; reflexivity).
      rewrite GE, <- GK. cbn [app]. econstructor; [exact T|]. eapply scan_app; eassumption. }
    assert (SE1 : exists t' tk', tokens c1 (t' :: tk') (c_cur y) /\ sentence (find_label ls) n (map lined (t' :: tk')) ss (op :: map snd l) /\
      exists k, map kind (t' :: tk') = k ++ [TSemi]).
    { destruct (scan_tokens _ _ _ SC) as (us & TU & MU). exists (hd t us), (tl us ++ tk).
      assert (UE : hd t us :: tl us = us) by (destruct us; [destruct kg; discriminate|reflexivity]).
      rewrite app_comm_cons, UE. split; [eapply tokens_app; eassumption|]. split.
      - rewrite map_app.
        eapply sentence_instruction; [exact TE|exact G|exact F| |rewrite fst_lined; exact MU|exact SE].
        intros j op' J M Fj. apply (FF j J M). exists kf, (c_cur x'), op'. auto.
      - rewrite map_app. destruct NN as [-> |(k & ->)]; [|exists (map kind us ++ k); apply app_assoc].
        cbn [map]. rewrite app_nil_r, MU. destruct F as (ko & kn & _ & _ & _ & -> & _). exists (kg ++ id (i_mnemonic i) :: ko ++ kn).
        rewrite <- app_assoc. cbn [app]. rewrite <- app_assoc. reflexivity. }
    destruct SE1 as (t' & tk' & TK1 & SE1 & k & KE). destruct (options_sentence _ _ _ OA _ _ _ _ _ _ _ TK1 SE1) as (t2 & tk2 & TK2 & SE2 & p & PE).
    exists (t2 :: tk2), (so ++ ss). split; [exact TK2|]. split; [exact SE2|]. split.
    { rewrite apply_settings_app, AO. rewrite XE in AS. exact AS. }
    split; [|exact AE]. right. rewrite PE, map_app, KE. exists (map kind p ++ k). apply app_assoc.
Qed.

Lemma packed_words : forall fs, Forall (fun v => (v < 2 ^ 32)%N) fs -> Nat.even (List.length fs) = true -> packed fs (pack_words fs).
Proof.
  assert (G : forall n fs, (List.length fs <= n)%nat -> Forall (fun v => (v < 2 ^ 32)%N) fs -> Nat.even (List.length fs) = true -> packed fs (pack_words fs)).
  { induction n as [|n IH]; intros fs L F E; destruct fs as [|x [|y fs]]; try constructor; try (cbn in L; lia); try discriminate E.
    cbn [pack_words]. rewrite (lor_shift_add x y 32) by exact (Forall_inv F). rewrite (N.mul_comm y). constructor. apply IH; [cbn in L; lia|exact (Forall_inv_tail (Forall_inv_tail F))|exact E]. }
  intros fs. apply (G (List.length fs)). apply Nat.le_refl.
Qed.
Lemma packed_unique : forall fs ws, packed fs ws -> forall ws', packed fs ws' -> ws = ws'.
Proof. intros fs ws H. induction H as [|lo hi fs ws H IH]; intros ws' H'; inversion H'; subst; [reflexivity|]. f_equal. auto. Qed.
Lemma header_packed : forall l entry n, packed (header_fields l entry n ++ repeat 0%N 44) (pack_words (header_fields l entry n ++ repeat 0%N 44)).
Proof. intros l entry n. apply packed_words; [apply header_bound|]. rewrite app_length, header_length, repeat_length. reflexivity. Qed.

(** What the writer does. *)
Lemma binary_file : forall code ls ss o out, ~ In NUL code -> generate_labels code = Ok ls -> settles ss o ->
  forall w, binary ls o out = Ok w <-> file code ss out w.
Proof.
  intros code ls ss o out NN G S w. pose proof S as S0. destruct S as (ST1 & ST2 & ST3 & _).
  pose proof (first_definition code ls NN G (lit "main")) as FD. unfold binary.
  destruct (types ss) as [|ty [|ty' l]] eqn:TE; [| |cbn in ST1; lia]; cbn [hd_error] in ST2; rewrite ST2.
  - assert (NC : ~ container ss) by (intros C; exact (container_types _ C TE)).
    assert (OD : o_dksh o = false) by (destruct (o_dksh o); [destruct NC; apply ST3; reflexivity|reflexivity]). rewrite OD. cbn [bind].
    rewrite app_nil_r. cbn [app]. split; [intros [= <-]; apply file_raw; left; exact TE|].
    intros F. destruct F as [_|p head T]; [reflexivity|congruence].
  - destruct (N.eqb_spec ty 5) as [-> |NE]; cbn [negb].
    2:{ split; [destruct (if o_dksh o then _ else _); discriminate|]. intros F. destruct F as [[T|(T & _)]|p head T]; congruence. }
    rewrite N.add_0_r, (dksh_outcome _ _ _ _ S0 ST2). destruct (o_dksh o) eqn:OD.
    + pose proof (proj1 ST3 eq_refl) as C. destruct (find_label ls (lit "main")) as [entry|] eqn:FL.
      * destruct (proj1 (FD entry)) as (p & D & ->); [reflexivity|]. destruct (addr_group (semis p)) as (AG & _).
        destruct (Z.eqb_spec (Z.rem (addr (semis p)) 32) 8) as [R|R]; cbn [negb].
        -- destruct (scratch_ok ss) as [(F & -> & _)|(NF & ->)]; cbn [bind].
           ++ split.
              ** intros [= <-]. apply file_container with (p := p); auto; [apply AG, R|apply header_packed].
              ** intros X. destruct X as [[T|(_ & NC)]|p' head _ _ D' _ _ PK]; [congruence|contradiction|].
                 assert (E : addr (semis p') = addr (semis p)).
                 { pose proof (proj2 (FD (addr (semis p')))) as Y. 
                   assert (Z : Some (addr (semis p)) = Some (addr (semis p'))) by (apply Y; eauto). congruence. }
                 rewrite E in PK. rewrite (packed_unique _ _ PK _ (header_packed _ _ _)). reflexivity.
           ++ split; [discriminate|]. intros X. destruct X as [[T|(_ & NC)]|p' head _ _ D' _ F PK]; [congruence|contradiction|contradiction].
        -- cbn [bind fatal_plain]. split; [discriminate|]. intros X. destruct X as [[T|(_ & NC)]|p' head _ _ D' M F PK]; [congruence|contradiction|].
           exfalso. apply R. assert (Z : Some (addr (semis p)) = Some (addr (semis p'))) by (apply (FD (addr (semis p'))); eauto).
           injection Z as ->. apply addr_group, M.
      * cbn [bind fatal_plain]. split; [discriminate|]. intros X. destruct X as [[T|(_ & NC)]|p' head _ _ D' M F PK]; [congruence|contradiction|].
        exfalso. assert (Z : None = Some (addr (semis p'))) by (apply (FD (addr (semis p'))); eauto). discriminate.
    + cbn [bind app]. rewrite app_nil_r. assert (NC : ~ container ss) by (intros C; apply ST3 in C; discriminate).
      split; [intros [= <-]; apply file_raw; right; auto|]. intros X. destruct X as [_|p' head _ C]; [reflexivity|contradiction].
Qed.

Theorem accepted_means : forall a code w, ~ In NUL code -> assemble a code = Ok w -> means code w.
Proof.
  intros a code w NN H. apply assemble_ok in H as (ls & l & y & P & B). pose proof P as (G & D & _).
  destruct (decodes_sentence _ _ _ _ _ D 0 eq_refl) as (tk & ss & TK & SE & AS & ES & AE). cbn [ctx0 c_cur c_opts] in *.
  rewrite (program_emit _ _ _ _ _ P) in B. apply settings_settle in AS.
  exists (map lined tk), (find_label ls), ss, (map snd l). split; [|split; [|split]].
  - apply (tokens_lexes (Cursor code 0 0) tk (c_cur y) TK NN); [|exact AE].
    destruct ES as [->|(k & KE)]; [constructor|]. apply kinds_some. rewrite KE. eapply scan_not_end; [|discriminate]. rewrite <- KE. apply tokens_scan, TK.
  - intros name z. apply (first_definition code ls NN G).
  - exact SE.
  - apply (binary_file code ls ss (c_opts y) _ NN G AS). exact B.
Qed.

(** ** Programs are accepted *)

Lemma map_split : forall A B (f : A -> B) l p q, map f l = p ++ q -> exists l1 l2, l = l1 ++ l2 /\ map f l1 = p /\ map f l2 = q.
Proof.
  intros A B f l p. revert l. induction p as [|b p IH]; intros l q H; [exists [], l; auto|].
  destruct l as [|a l]; [discriminate|]. cbn in H. injection H as H1 H2. destruct (IH _ _ H2) as (l1 & l2 & -> & M1 & M2).
  exists (a :: l1), l2. cbn. split; [reflexivity|]. split; [congruence|exact M2].
Qed.

Lemma table_plain : forallb (fun i => match i_mnemonic i with String ch _ => negb (Ascii.eqb "." ch) | EmptyString => false end) table = true.
Proof. vm_compute. reflexivity. Qed.
Lemma instruction_plain : forall c us c' gi gn kg i kf, In i table -> tokens c us c' -> map kind us = kg ++ id (i_mnemonic i) :: kf ->
  guard_tokens gi gn kg -> no_option c.
Proof.
  intros c us c' gi gn kg i kf I TU MU GT t c1 TK. destruct TU as [c|c t' c2 us c' TK' TU]; [destruct kg; discriminate|].
  rewrite TK in TK'. injection TK' as <- <-. cbn [map] in MU. pose proof (forallb_in _ _ _ _ table_plain I) as X. cbv beta in X.
  unfold is_option. destruct GT as [(-> & _)| ->]; cbn in MU; injection MU as -> _; [|reflexivity].
  unfold id. destruct (i_mnemonic i) as [|ch s]; [discriminate|]. cbn. rewrite Ascii.eqb_sym. apply negb_true_iff. exact X.
Qed.

Section Complete.
  Variable code : text.
  Hypothesis no_nul : ~ In NUL code.
  Hypothesis T : tame code.
  Hypothesis short : Z.of_nat (List.length code) <= 2 ^ 57.
  Variable ts0 : list (tkind * Z).
  Hypothesis LX : lexes code 0 ts0.
  Notation inv := (boundary (start code)).

  Lemma mute_here : forall c, inv c -> mute (fun x => inv (snd x)) (tokenize c).
  Proof.
    intros c B. pose proof B as (ks & S). destruct (lexes_readable _ _ _ S) as (ts & H); [exists ts0; exact LX|].
    destruct (lexes_step _ _ H) as (t & c' & TK & _). rewrite TK. cbn. eapply boundary_next; eassumption.
  Qed.

  Variable ls : labels.
  Hypothesis G : generate_labels code = Ok ls.

  (** One instruction. *)
  Lemma instruction_accepted : forall x n pre i post gi gn kg kf us c' op,
    inv (c_cur x) -> pc_ok x n -> (n <= List.length code)%nat ->
    table = pre ++ i :: post -> guard_tokens gi gn kg -> form_spells (find_label ls) (addr n) i gi gn kf op ->
    (forall j op', In j pre -> i_mnemonic j = i_mnemonic i -> ~ form_spells (find_label ls) (addr n) j gi gn kf op') ->
    map kind us = kg ++ id (i_mnemonic i) :: kf -> tokens (c_cur x) us c' ->
    no_option (c_cur x) ->
    parse_instruction false ls x opcode0 = Ok (Some (Ctx c' (bump (c_pc x) + 8) (c_opts x), op)).
  Proof.
    intros x n pre i post gi gn kg kf us c' op B P NL TE GT F FF MU TU NO.
    pose proof (tokens_scan _ _ _ TU) as SC. rewrite MU in SC.
    assert (SPL : exists cm, scan (c_cur x) (kg ++ [id (i_mnemonic i)]) cm /\ scan cm kf c').
    { replace (kg ++ id (i_mnemonic i) :: kf) with ((kg ++ [id (i_mnemonic i)]) ++ kf) in SC by (rewrite <- app_assoc; reflexivity). apply scan_split in SC. exact SC. }
    destruct SPL as (cm & S1 & S2).
    assert (TB : exists t c, tokenize (c_cur x) = Ok (t, c) /\ exists ks0, kg ++ [id (i_mnemonic i)] = kind t :: ks0 /\ scan c ks0 cm).
    { inversion S1 as [? E|? t c ks ? TK S1' E]; subst; [destruct kg; discriminate|]. exists t, c. split; [exact TK|]. exists ks. auto. }
    destruct TB as (t & c & TK & ks0 & GE & S0).
    assert (I : In i table) by (rewrite TE; apply in_elt).
    assert (FFX : first_form ls (bump (c_pc x)) gi gn cm i pre).
    { intros j J M (ks & c2 & op' & S2' & F'). rewrite P in F'.
      assert (IJ : In j table) by (rewrite TE; apply in_or_app; left; exact J).
      destruct (form_tokens _ _ _ _ _ _ _ I F) as (k1 & -> & N1). destruct (form_tokens _ _ _ _ _ _ _ IJ F') as (k2 & -> & N2).
      destruct (scan_same _ _ _ _ _ S2 S2' N1 N2) as (<- & _). exact (FF j op' J M F'). }
    destruct (instruction_complete ls x (Ctx c' (bump (c_pc x) + 8) (c_opts x)) op t c t c (c_opts x) pre i post kg gi gn cm kf) as [E|(j & J & M & U)]; auto.
    - intros K. destruct GT as [(-> & _)| ->]; cbn in GE; injection GE as GE _; rewrite K in GE; discriminate.
    - apply plain_options. exact (NO _ _ TK).
    - exists (kind t), ks0. auto.
    - rewrite P. exact F.
    - exfalso. destruct B as (ks & SB).
      assert (BM : scan (start code) ((ks ++ kg) ++ [id (i_mnemonic i)]) cm) by (rewrite <- app_assoc; eapply scan_app; eassumption).
      destruct U as [(d & U)|(u & U)].
      + pose proof (mute_insn inv mute_here (Env ls (bump (c_pc x)) false) j cm (Opcode (N.shiftl (guard_bits gi gn) 16) 0 0)) as X.
        rewrite U in X. apply X. exists ((ks ++ kg) ++ [id (i_mnemonic i)]). exact BM.
      + destruct (labels_here code no_nul T short) as (ls' & G' & LS). rewrite G in G'. injection G' as <-.
        pose proof (good_insn code (i_mnemonic i) (ks ++ kg) cm BM (readable_here code T) (Env ls (bump (c_pc x)) false) T) as X.
        assert (PC : 0 <= e_pc (Env ls (bump (c_pc x)) false) <= 2 ^ 61 + 64) by (cbn [e_pc]; rewrite P; pose proof (addr_le n); lia).
        specialize (X PC LS j (Opcode (N.shiftl (guard_bits gi gn) 16) 0 0)). rewrite U in X. apply X; [|exact M].
        rewrite TE. apply in_or_app. left. exact J.
  Qed.

  Lemma sentence_decodes : forall n ts ss ops, sentence (find_label ls) n ts ss ops ->
    forall x tk cend o, inv (c_cur x) -> pc_ok x n -> (n + List.length (rest (c_cur x)) <= List.length code)%nat ->
    tokens (c_cur x) tk cend -> map lined tk = ts -> Forall (fun t => kind t <> TNone) tk -> at_end cend ->
    apply_settings ss (c_opts x) = Some o -> exists l y, decodes false ls x l y /\ map snd l = ops /\ c_opts y = o.
  Proof.
    intros n ts ss ops S. induction S as [n|n s t us v ts ss ops W L NL S IH|n pre i post gi gn kg kf us ts ss op ops TE GT F FF M S IH];
      intros x tk cend o B P LN TK ML NN AE AS.
    - destruct tk; [|discriminate]. inversion TK; subst. injection AS as <-. exists [], x. split; [|auto]. constructor. apply parse_instruction_none. exact AE.
    - destruct (map_split _ _ lined tk (t :: us) (v :: ts) ML) as (tk1 & tk2 & -> & M1 & M2).
      destruct (tokens_split _ _ _ _ TK) as (c1 & TK1 & TK2). cbn [apply_settings] in AS.
      destruct (apply_setting s (c_opts x)) as [o1|] eqn:AO; [|discriminate].
      destruct tk1 as [|t1 us1]; [discriminate|]. destruct tk2 as [|v1 tk3]; [discriminate|].
      assert (B1 : inv c1) by (eapply boundary_trans; [exact B|]; eexists; apply tokens_scan; exact TK1).
      assert (LE : (List.length (rest c1) <= List.length (rest (c_cur x)))%nat).
      { destruct (boundary_moves (c_cur x) c1) as (p & MV); [eexists; apply tokens_scan; exact TK1|]. apply moves_length in MV. lia. }
      apply Forall_app in NN as (_ & NN).
      destruct (IH (Ctx c1 (c_pc x) o1) (v1 :: tk3) cend o) as (l & y & D & MO & OY); auto; [cbn [c_cur]; lia|].
      inversion TK2 as [|? ? c2 ? ? TV TK3]; subst.
      inversion D as [? E|? x' op' l' ? E D']; subst.
      { exfalso. apply parse_instruction_none in E as (t' & c' & T' & K'). cbn [c_cur] in T'. rewrite TV in T'. injection T' as <- <-. exact (Forall_inv NN K'). }
      exists ((x', op') :: l'), y. split; [|auto]. constructor; [|exact D'].
      change parse_instruction with (parse_instruction_with table) in *. apply instruction_options in E as (so & c3 & o3 & OA & NO & AO3 & E).
      cbn [c_cur c_pc c_opts] in *. apply instruction_options. exists (s :: so), c3, o3. split; [|split; [exact NO|split; [cbn [apply_settings]; rewrite AO; exact AO3|exact E]]].
      cbn [map] in M1, M2. injection M1 as <- MU. injection M2 as <- _. eapply options_one; [exact TK1| | |exact TV|exact NL|exact OA].
      + rewrite <- fst_lined. cbn [map]. rewrite MU. exact W.
      + intros OL. specialize (L OL). rewrite <- MU in L. rewrite Forall_forall in *. intros u I. apply (L (lined u)). apply in_map, I.
    - destruct (map_split _ _ lined tk us ts ML) as (tk1 & tk2 & -> & M1 & M2).
      destruct (tokens_split _ _ _ _ TK) as (c1 & TK1 & TK2). assert (I : In i table) by (rewrite TE; apply in_elt).
      assert (MK : map kind tk1 = kg ++ id (i_mnemonic i) :: kf) by (rewrite <- M, <- M1, fst_lined; reflexivity).
      pose proof (instruction_plain _ _ _ _ _ _ _ _ I TK1 MK GT) as NO.
      pose proof (instruction_accepted x n pre i post gi gn kg kf tk1 c1 op B P ltac:(lia) TE GT F FF MK TK1 NO) as E.
      apply Forall_app in NN as (_ & NN). pose proof (instruction_counts _ _ _ _ _ E) as (_ & LT). cbn [c_cur] in LT.
      destruct (IH (Ctx c1 (bump (c_pc x) + 8) (c_opts x)) tk2 cend o) as (l & y & D & MO & OY); auto.
      + eapply boundary_trans; [exact B|]. eexists. apply tokens_scan. exact TK1.
      + exact (decodes_pc _ _ _ _ _ _ P E).
      + cbn [c_cur]. lia.
      + exists ((Ctx c1 (bump (c_pc x) + 8) (c_opts x), op) :: l), y. split; [econstructor; eassumption|]. cbn [map snd]. rewrite MO. auto.
  Qed.
End Complete.

Theorem means_accepted : forall code w, ~ In NUL code -> tame code -> Z.of_nat (List.length code) <= 2 ^ 57 ->
  means code w -> assemble false code = Ok w.
Proof.
  intros code w NN T SH (ts & lab & ss & ops & LX & LB & SE & FI).
  destruct (labels_here code NN T SH) as (ls & G & _).
  assert (E : forall n, lab n = find_label ls n) by (apply (labelled_unique code); [exact LB|]; intros name z; apply (first_definition code ls NN G)).
  apply (sentence_ext _ _ E) in SE. destruct (lexes_tokens ts (Cursor code 0 0) LX) as (tk & c' & TK & ML & AE).
  assert (LT : (List.length (types ss) <= 1)%nat) by (destruct FI as [[-> |(-> & _)]|p head -> _]; cbn; lia).
  assert (AS : exists o, apply_settings ss options0 = Some o).
  { clear - LT. assert (X : forall l o, (List.length (types l) + taken o <= 1)%nat -> exists o', apply_settings l o = Some o').
    { induction l as [|s l IH]; intros o L; [exists o; reflexivity|]. cbn [apply_settings].
      destruct s as [k ty|x y z|z|z|m]; cbn [apply_setting]; try (apply IH; unfold taken in *; cbn in *; exact L).
      change (types (SType k ty :: l)) with (ty :: types l) in L. unfold taken in L. cbn [List.length] in L. destruct (o_type o); [lia|].
      apply IH. unfold taken. cbn [o_type]. lia. }
    apply X. cbn. lia. }
  destruct AS as (o & AS).
  destruct (sentence_decodes code NN T SH ts LX ls G 0 ts ss ops SE (ctx0 code) tk c' o) as (l & y & D & MO & OY); auto.
  - apply boundary_refl.
  - reflexivity.
  - pose proof (lexes_some _ _ _ LX) as NS. rewrite <- ML in NS. apply Forall_forall. intros t I K. exact (NS (lined t) (in_map _ _ _ I) K).
  - apply assemble_ok. exists ls, l, y. assert (P : program false code ls l y) by (split; [exact G|]; split; [exact D|discriminate]).
    split; [exact P|]. rewrite (program_emit _ _ _ _ _ P), MO, OY. apply (binary_file code ls ss o _ NN G); [apply settings_settle; exact AS|exact FI].
Qed.

(** The accepted language. *)
Theorem accepted_iff : forall code w, ~ In NUL code -> tame code -> Z.of_nat (List.length code) <= 2 ^ 57 ->
  (assemble false code = Ok w <-> means code w).
Proof. intros code w NN T SH. split; [apply accepted_means, NN|apply means_accepted; assumption]. Qed.
Theorem rejected_iff : forall code, ~ In NUL code -> tame code -> Z.of_nat (List.length code) <= 2 ^ 57 ->
  ((exists d, assemble false code = Fatal d) <-> forall w, ~ means code w).
Proof.
  intros code NN T SH. split.
  - intros (d & E) w M. apply (means_accepted _ _ NN T SH) in M. congruence.
  - intros H. pose proof (assemble_outcomes false code) as O. pose proof (tame_assembles code NN T SH false) as U.
    destruct (assemble false code) as [w|d|d|w|u|] eqn:E; try contradiction.
    + destruct (H w). apply (accepted_means false); assumption.
    + eauto.
    + discriminate O.
    + destruct (U u eq_refl).
Qed.
(** A debug build writes the same file or stops at an assertion. *)
Theorem accepted_debug : forall code w, ~ In NUL code -> tame code -> Z.of_nat (List.length code) <= 2 ^ 57 ->
  means code w -> assemble true code = Ok w \/ exists m, assemble true code = Abort m.
Proof.
  intros code w NN T SH M. apply (means_accepted _ _ NN T SH) in M.
  destruct (assemble true code) as [v|d|d|m|u|] eqn:E; eauto; left; rewrite <- E, <- (modes_same code); try exact M; intros x; congruence.
Qed.
Theorem means_unique : forall code w w', ~ In NUL code -> tame code -> Z.of_nat (List.length code) <= 2 ^ 57 ->
  means code w -> means code w' -> w = w'.
Proof.
  intros code w w' NN T SH M M'. apply (means_accepted _ _ NN T SH) in M, M'. congruence.
Qed.
