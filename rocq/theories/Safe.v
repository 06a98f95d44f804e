(** * Safe: texts on which nothing undefined happens. *)
From Verif Require Import Base Float Lexer Operand Catalogue Table Parse Assemble Spec LexFacts SchedFuel Param Reach ParseFacts
  Outcomes Decode Program Modes Encode Emit Layout SpecOperand SpecInsn SpecOpts SpecSafe Operands Insn Position Literals SpecLex Lexemes Stream Cut Where Opts SpecContainer Container Text Compose.
From Coq Require Import Lia.
Local Open Scope char_scope.
Local Open Scope list_scope.
Open Scope Z_scope.

(** ** One operand *)

(** Nothing undefined happens, and [Q] holds of the result. *)
Definition good {A} (Q : A -> Prop) (m : res A) : Prop :=
  match m with Ok a => Q a | Undef _ => False | _ => True end.
Lemma good_bind : forall A B (Q : A -> Prop) (Q' : B -> Prop) m k, good Q m -> (forall a, Q a -> good Q' (k a)) -> good Q' (bind m k).
Proof. intros A B Q Q' [] k H K; cbn in *; auto. Qed.
Lemma good_mono : forall A (Q Q' : A -> Prop) m, good Q m -> (forall a, Q a -> Q' a) -> good Q' m.
Proof. intros A Q Q' [] H K; cbn in *; auto. Qed.

Definition sizes : list string := ["U8"; "S8"; "U16"; "S16"; "32"; "64"; "128"; "U"]%string.
Definition textures : list string := ["1D"; "ARRAY_1D"; "2D"; "ARRAY_2D"; "3D"; "ARRAY_3D"; "CUBE"; "ARRAY_CUBE"]%string.

(** What an operand must not find as its first token. *)
Fixpoint bad (e : env) (o : opnd) (k : tkind) : Prop :=
  match o with
  | OS2r _ => string_is_active k = false
  | OLdgSize => exists s, k = TIdent ("." :: s) /\ ~ In s (map lit sizes)
  | OTexType _ => exists s, k = TIdent s /\ ~ In s (map lit textures)
  | OLabel => exists v, (k = TImm v \/ exists n, k = TIdent n /\ find_label (e_labels e) n = Some v) /\
      ~ (INT64_MIN + 8 <= v - e_pc e <= INT64_MAX)
  | OAbs _ inner => exists k', bad e inner k'
  | _ => False
  end.

Lemma index_of_in : forall tbl i t, index_of i tbl t = None <-> ~ In t (map lit tbl).
Proof.
  induction tbl as [|x tbl IH]; intros i t; cbn; [tauto|]. destruct (text_eqb t (lit x)) eqn:E.
  - apply text_eqb_eq in E. split; [discriminate|]. intros H. exfalso. apply H. left. congruence.
  - rewrite IH. split; [intros H [X|X]|tauto]; [|tauto]. subst t. rewrite text_eqb_refl in E. discriminate.
Qed.

Section Operand.
  Variable inv : cursor -> Prop.
  Hypothesis inv_tokenize : forall c, inv c -> good (fun x => inv (snd x)) (tokenize c).
  Variable e : env.

  Definition kept (s : st) : Prop := inv (s_cur s).
  Lemma good_advance : forall s, kept s -> good kept (advance_tok s).
  Proof. intros s H. unfold advance_tok. eapply good_bind; [apply inv_tokenize, H|]. intros (t, c) X. exact X. Qed.
  Lemma good_add_bits : forall a op b, good (fun _ => True) (add_bits a op b).
  Proof. intros a op b. unfold add_bits. destruct (_ && _); exact I. Qed.
  Lemma good_add_reuse : forall a op b, good (fun _ => True) (add_reuse a op b).
  Proof. intros a op b. unfold add_reuse. destruct (_ && _); exact I. Qed.
  (** Putting bits keeps the token. *)
  Definition same_place (s s' : st) : Prop := s_cur s' = s_cur s /\ s_tok s' = s_tok s.
  Lemma good_put : forall b s, kept s -> good kept (put e b s).
  Proof. intros b s H. unfold put. eapply good_bind; [apply good_add_bits|]. intros op _. exact H. Qed.
  Lemma good_find : forall tbl p t, good (fun _ => True) (find_in_table true tbl p t).
  Proof. intros tbl p t. unfold find_in_table. destruct (kind t); try exact I. destruct (strip_prefix _ _); [|exact I]. destruct (index_of _ _ _); exact I. Qed.
  Lemma good_find_ldg : forall t, ~ bad e OLdgSize (kind t) -> good (fun _ => True) (find_in_table false sizes "." t).
  Proof.
    intros t H. unfold find_in_table. cbn [bad] in H. destruct (kind t) as [|s| | | | | | | | | | | | |]; try exact I.
    destruct s as [|ch s]; [exact I|]. cbn [lit list_ascii_of_string strip_prefix]. destruct (Ascii.eqb_spec "." ch) as [<-|]; [|exact I].
    destruct (index_of 0 sizes s) eqn:E; [exact I|]. exfalso. apply H. exists s. split; [reflexivity|]. apply index_of_in in E. exact E.
  Qed.
  Lemma good_find_tex : forall a t, ~ bad e (OTexType a) (kind t) -> good (fun _ => True) (find_in_table false textures "" t).
  Proof.
    intros a t H. unfold find_in_table. cbn [bad] in H. destruct (kind t) as [|s| | | | | | | | | | | | |]; try exact I.
    cbn [lit list_ascii_of_string strip_prefix].
    destruct (index_of 0 textures s) eqn:E; [exact I|]. exfalso. apply H. exists s. split; [reflexivity|]. apply index_of_in in E. exact E.
  Qed.
  Lemma good_convert : forall s a b, good (fun _ => True) (convert_integer s a b).
  Proof.
    intros s a b. unfold convert_integer, confirm_type. destruct (s_kind s) eqn:K; cbn; try exact I. rewrite K.
    destruct (_ || _); exact I.
  Qed.
  Lemma good_reuse : forall a s, kept s -> good kept (try_reuse e a s).
  Proof.
    intros a s H. unfold try_reuse. destruct (negb _); [exact H|].
    destruct (N.eqb _ _); [|destruct (N.eqb _ _); [|destruct (N.eqb _ _); [|exact I]]];
      (eapply good_bind; [apply good_add_reuse|]; intros op _; apply good_advance; exact H).
  Qed.
  Lemma good_confirm : forall ty s, kept s -> good kept (confirm_type ty s).
  Proof. intros ty s H. unfold confirm_type. destruct (ttype_eqb _ _); [exact H|exact I]. Qed.
  Lemma good_gpr : forall a s, kept s -> good kept (assemble_gpr e a s).
  Proof.
    intros a s H. unfold assemble_gpr, confirm_type. destruct (s_kind s) eqn:K; cbn [type_of ttype_eqb bind]; try exact I. cbn. rewrite K.
    eapply good_bind; [apply good_put, H|]. intros s1 H1. eapply good_bind; [apply good_advance, H1|]. intros s2 H2. apply good_reuse, H2.
  Qed.

  Ltac g1 :=
    match goal with
    | H : kept ?s |- good kept (advance_tok ?s) => apply good_advance; exact H
    | H : kept ?s |- good kept (put _ _ ?s) => apply good_put; exact H
    | H : kept ?s |- good kept (confirm_type _ ?s) => apply good_confirm; exact H
    | H : kept ?s |- good kept (assemble_gpr _ _ ?s) => apply good_gpr; exact H
    | H : kept ?s |- good kept (try_reuse _ _ ?s) => apply good_reuse; exact H
    | |- good _ (bind (find_in_table true _ _ _) _) => eapply good_bind; [apply good_find|]; intros ? _
    | |- good _ (bind (convert_integer _ _ _) _) => eapply good_bind; [apply good_convert|]; intros ? _
    | |- good _ (bind (add_reuse _ _ _) _) => eapply good_bind; [apply good_add_reuse|]; intros ? _
    | |- good _ (bind (advance_tok _) _) => eapply (good_bind _ _ kept); [|intros ? ?]
    | |- good _ (bind (put _ _ _) _) => eapply (good_bind _ _ kept); [|intros ? ?]
    | |- good _ (bind (confirm_type _ _) _) => eapply (good_bind _ _ kept); [|intros ? ?]
    | |- good _ (bind (assemble_gpr _ _ _) _) => eapply (good_bind _ _ kept); [|intros ? ?]
    | |- good _ (bind (try_reuse _ _ _) _) => eapply (good_bind _ _ kept); [|intros ? ?]
    | |- good _ (bind (Ok _) _) => cbn [bind]
    | |- good _ (bind (bind _ _) _) => rewrite bind_assoc
    | |- good _ (bind (fail _ _) _) => exact I
    | |- good _ (bind (if ?b then _ else _) _) => destruct b
    | |- good _ (bind (match ?b with _ => _ end) _) => destruct b
    | |- good _ (fail _ _) => exact I
    | H : kept ?s |- good kept (Ok ?s) => exact H
    | |- good _ (if ?b then _ else _) => destruct b
    | |- good _ (match ?b with _ => _ end) => destruct b
    | |- good _ (Abort _) => exact I
    | |- good _ (bind (Abort _) _) => exact I
    | |- good _ (confirm_type_next _ _) => unfold confirm_type_next
    | |- good _ (bind (confirm_type_next _ _) _) => unfold confirm_type_next
    | |- good _ (assemble_uint _ _ _ _) => unfold assemble_uint
    | |- good _ (bind (assemble_uint _ _ _ _) _) => unfold assemble_uint
    | |- good _ (assemble_int _ _ _ _) => unfold assemble_int
    | |- good _ (bind (assemble_int _ _ _ _) _) => unfold assemble_int
    | |- good _ (run_memory_address _ _ _ _ _ _) => unfold run_memory_address
    | H : kept ?s |- context [set_value ?v ?s] => assert (kept (set_value v s)) by exact H; generalize dependent (set_value v s); intros
    end.
  Ltac gs := repeat g1.

  Lemma good_pred : forall a n s, kept s -> good kept (run_pred e a n s).
  Proof.
    intros a n s H. unfold run_pred, confirm_type. destruct (s_kind s) eqn:K; cbn [type_of ttype_eqb bind]; try exact I. cbn. rewrite K. gs.
  Qed.
  Lemma good_inv_pred : forall a s, kept s -> good kept (run_inverted_pred e a s).
  Proof.
    intros a s H. unfold run_inverted_pred, confirm_type. destruct (s_kind s) eqn:K; cbn [type_of ttype_eqb bind]; try exact I. cbn. rewrite K. gs.
  Qed.
  Lemma good_label : forall s, kept s -> ~ bad e OLabel (s_kind s) -> good kept (run_label e s).
  Proof.
    intros s H B. unfold run_label. cbn [bad] in B.
    assert (G : forall v, (s_kind s = TImm v \/ exists n, s_kind s = TIdent n /\ find_label (e_labels e) n = Some v) ->
      good kept (let* d := sub64 v (e_pc e) in
        let* value := sub64 d 8 in
        if (Z.of_N (max_bits 23) <? value) || (value <? - Z.of_N (max_bits 23) - 1) then fail (s_tok s) "label out of range"
        else
          let* s := put e (shl64 (N.land (u64_of_Z value) 0x7FFFFF) 20) s in
          let* s := put e (shl64 (if value <? 0 then 1 else 0) 43) s in
          advance_tok s)).
    { intros v X. assert (R : INT64_MIN + 8 <= v - e_pc e <= INT64_MAX).
      { assert (D : {INT64_MIN + 8 <= v - e_pc e <= INT64_MAX} + {~ INT64_MIN + 8 <= v - e_pc e <= INT64_MAX}).
        { destruct (Z_le_dec (INT64_MIN + 8) (v - e_pc e)), (Z_le_dec (v - e_pc e) INT64_MAX); [left; lia|right; lia|right; lia|right; lia]. }
        destruct D as [D|D]; [exact D|]. exfalso. apply B. exists v. auto. }
      unfold sub64. 
      destruct (Z.ltb_spec (v - e_pc e) INT64_MIN); [lia|]. destruct (Z.ltb_spec INT64_MAX (v - e_pc e)); [lia|]. cbn [orb bind].
      destruct (Z.ltb_spec (v - e_pc e - 8) INT64_MIN); [lia|]. destruct (Z.ltb_spec INT64_MAX (v - e_pc e - 8)); [lia|]. cbn [orb bind].
      gs. }
    destruct (s_kind s) eqn:K; try exact I; cbn [bind].
    - destruct (find_label (e_labels e) s0) eqn:F; cbn [bind]; [|exact I]. apply G. right. eauto.
    - apply G. left. reflexivity.
  Qed.

  Lemma good_operand : forall o s, kept s -> ~ bad e o (s_kind s) -> good kept (run_operand e o s).
  Proof.
    induction o; intros s0 H NB; cbn [run_operand].
    11: apply good_label; assumption.
    all: unfold run_comma, assemble_flag, dot_table, req_table, req_text, req_text_after, opt_text, run_uimm_extended,
        run_mirror_dgpr, assemble_constant_buffer, assemble_signed_20bit_immediate, assemble_float_immediate, assemble_double_immediate,
        assemble_half_float_immediate, opt_type, run_abs, run_po, assemble_cc_tests, run_imm_attr, run_patch_attr, run_phys_attr, run_xmad_signs,
        run_f2f_rounding, run_int_format, run_ldc_address, run_selector, run_atomic_size, run_src_format, run_zero, run_texs_mode, run_tlds_type,
        run_texs_type, run_texs_swizzle.
    all: try (apply good_pred; exact H).
    all: try (apply good_inv_pred; exact H).
    all: gs.
    - eapply (good_bind _ _ kept); [|intros; gs]. apply IHo; [assumption|]. intros B. apply NB. cbn [bad]. eauto.
    - eapply (good_bind _ _ kept); [|intros; gs]. apply IHo; [assumption|]. intros B. apply NB. cbn [bad]. eauto.
    - unfold run_s2r. cbn [bad] in NB.
      destruct (string_is_active (s_kind s0)); [|exfalso; apply NB; reflexivity]. gs.
    - unfold run_ldg_size. eapply good_bind; [apply good_find_ldg; exact NB|]. intros r _. gs.
    - unfold run_tex_type. eapply good_bind; [eapply good_find_tex; exact NB|]. intros r _. gs.
  Qed.

  Lemma good_sched_loop : forall n v s, kept s -> good kept (assemble_sched_loop n v s).
  Proof.
    assert (SI : forall s mx m, kept s -> good (fun x => kept (snd x)) (sched_int s mx m)).
    { intros s mx m H. unfold sched_int. eapply (good_bind _ _ kept); [gs|]. intros s1 H1. unfold confirm_type.
      destruct (s_kind s1) eqn:K; cbn [type_of ttype_eqb bind]; try exact I. cbn. rewrite K. destruct (_ || _); [exact I|exact H1]. }
    induction n as [|n IH]; intros v s H; cbn [assemble_sched_loop]; [exact I|]. destruct (negb _); [exact H|].
    eapply (good_bind _ _ kept); [gs|]. intros s1 H1.
    destruct (equal (s_tok s1) "WAIT").
    { destruct (v_stall v); [exact I|]. eapply good_bind; [apply SI, H1|]. intros (x, s2) H2. cbn [snd] in H2.
      eapply (good_bind _ _ kept); [gs|]. intros. apply IH; assumption. }
    destruct (_ || _).
    { match goal with |- good _ (match ?b with _ => _ end) => destruct b end; [exact I|]. eapply good_bind; [apply SI, H1|]. intros (x, s2) H2. cbn [snd] in H2.
      eapply (good_bind _ _ kept); [gs|]. intros. apply IH; assumption. }
    destruct (_ || _).
    { destruct (v_yield v); [exact I|]. eapply (good_bind _ _ kept); [gs|]. intros. apply IH; assumption. }
    destruct (equal (s_tok s1) "DEP"); [|exact I].
    eapply good_bind; [apply SI, H1|]. intros (x, s2) H2. cbn [snd] in H2.
    destruct (negb _); [exact I|]. eapply (good_bind _ _ kept); [gs|]. intros. apply IH; assumption.
  Qed.
  Lemma good_scored : forall n m Q k, good kept m -> (forall s, m = Ok s -> kept s -> good (A := attempt) Q (k s)) ->
    (forall d, Q (Failed d n)) -> good Q (scored n m k).
  Proof. intros n [] Q k H K F; cbn in *; auto. Qed.
End Operand.

(** ** One form *)

Fixpoint calm (o : opnd) : bool :=
  match o with
  | OS2r _ | OLdgSize | OTexType _ | OLabel => false
  | OAbs _ inner => calm inner
  | _ => true
  end.
Lemma calm_bad : forall e o k, calm o = true -> ~ bad e o k.
Proof. induction o; intros k H; cbn in H |- *; try discriminate; try tauto. intros (k' & B). exact (IHo k' H B). Qed.

Definition one_of (m : string) (l : list string) : bool := existsb (String.eqb m) l.
Lemma one_of_in : forall m l, one_of m l = true -> In m l.
Proof. intros m l H. apply existsb_exists in H as (x & I & E). apply String.eqb_eq in E. subst; exact I. Qed.
Definition is_comma (o : opnd) : bool := match o with OComma => true | _ => false end.
(** Where the operands that can go wrong stand. *)
Definition placed (m : string) (comma : bool) (o : opnd) : bool :=
  match o with
  | OS2r _ => comma && one_of m ["S2R"]%string
  | OTexType _ => comma && one_of m texture_names
  | OLabel => one_of m branch_names
  | o => calm o
  end.
Fixpoint well_placed (m : string) (comma : bool) (ops : list opnd) : bool :=
  match ops with
  | [] => true
  | o :: ops => placed m comma o && semi_free o && well_placed m (is_comma o) ops
  end.
Definition is_load (i : insn) : bool :=
  one_of (i_mnemonic i) ["LDG"]%string &&
  match i_operands i with
  | OFlag f _ :: ODotTable (Some _) _ tbl :: OLdgSize :: ops =>
      String.eqb f ".E" && forallb (fun y => existsb (fun z => String.eqb y (String "." z)) tbl) load_caches && forallb (fun x => one_of (String "." x) load_caches) tbl && well_placed "LDG" false ops
  | _ => false
  end.
Lemma table_placed : forallb (fun i => is_load i || well_placed (i_mnemonic i) false (i_operands i)) table = true.
Proof. vm_compute. reflexivity. Qed.

Section Form.
  Variable code : text.
  Variable m : string.
  Variable pre : list tkind.
  Variable cm : cursor.
  Hypothesis named_here : scan (start code) (pre ++ [id m]) cm.
  Hypothesis readable : forall c, boundary (start code) c -> good (fun _ => True) (tokenize c).
  Variable e : env.
  Notation inv := (boundary (start code)).

  Lemma inv_tokenize : forall c, inv c -> good (fun x => inv (snd x)) (tokenize c).
  Proof.
    intros c B. pose proof (readable c B) as R. destruct (tokenize c) as [(t, c')| | | | |] eqn:T; cbn in *; auto. eapply boundary_next; eauto.
  Qed.

  (** The tokens of the instruction read so far. *)
  Definition trail (s : st) : Prop := exists ks, scan cm (ks ++ [s_kind s]) (s_cur s) /\ ~ In TSemi ks.
  Definition after_comma (s : st) : Prop := exists ks, scan cm ((ks ++ [TComma]) ++ [s_kind s]) (s_cur s) /\ ~ In TSemi (ks ++ [TComma]).

  Lemma cm_inside : forall ks k c, scan cm (ks ++ [k]) c -> ~ In TSemi ks -> inside code m ks k.
  Proof.
    intros ks k c S N. split; [|exact N]. exists pre, c.
    replace (pre ++ id m :: ks ++ [k]) with ((pre ++ [id m]) ++ ks ++ [k]) by (rewrite <- app_assoc; reflexivity).
    eapply scan_app; [exact named_here|exact S].
  Qed.
  Lemma cm_boundary : forall ks c, scan cm ks c -> inv c.
  Proof. intros ks c S. exists ((pre ++ [id m]) ++ ks). eapply scan_app; eassumption. Qed.
  Lemma trail_kept : forall s, trail s -> kept inv s.
  Proof. intros s (ks & S & _). eapply cm_boundary; exact S. Qed.

  Definition T0 (c1 c2 : cursor) : Prop := c1 = c2 /\ exists ks, scan cm ks c1 /\ ~ In TSemi ks.
  Definition TC (c1 : cursor) (t1 : token) (c2 : cursor) (t2 : token) : Prop :=
    c1 = c2 /\ t1 = t2 /\ exists ks, scan cm (ks ++ [kind t1]) c1 /\ ~ In TSemi ks.
  Lemma scan_snoc : forall c ks c1 t c2, scan c ks c1 -> tokenize c1 = Ok (t, c2) -> scan c (ks ++ [kind t]) c2.
  Proof. intros c ks c1 t c2 S T. eapply scan_app; [exact S|]. econstructor; [exact T|constructor]. Qed.

  Lemma trail_operand : forall o s s', semi_free o = true -> trail s -> run_operand e o s = Ok s' -> trail s'.
  Proof.
    intros o s s' SF (ks & S & N) H.
    assert (X : relres anything false (RS TC) (run_operand e o s) (run_operand e o s)).
    { apply (sim_operand T0 TC anything false); auto.
      - intros c1 t1 c2 t2 (<- & <- & l & S1 & N1) NS. split; [reflexivity|]. exists (l ++ [kind t1]). split; [exact S1|].
        rewrite in_app_iff. intros [I|[I|[]]]; [exact (N1 I)|exact (NS I)].
      - intros c1 t1 c2 t2 (_ & <- & _). reflexivity.
      - exact (fun _ _ _ _ _ _ => I).
      - intros c1 c2 (<- & l & S1 & N1). pose proof (tokenize_outcomes c1) as O. destruct (tokenize c1) as [(t, c')| | | | |] eqn:T; cbn in *; auto; try exact I.
        split; [reflexivity|]. split; [reflexivity|]. exists l. cbn. split; [eapply scan_snoc; eauto|exact N1].
      - split; [left; exact SF|right; reflexivity].
      - split; [|reflexivity]. split; [reflexivity|]. split; [reflexivity|]. exists ks. auto. }
    rewrite H in X. destruct X as ((_ & _ & l & S1 & N1) & _). exists l. auto.
  Qed.
  Lemma comma_after : forall s s', trail s -> run_operand e OComma s = Ok s' -> after_comma s'.
  Proof.
    intros s s' (ks & S & N) H. cbn [run_operand] in H. unfold run_comma, confirm_type in H.
    destruct (s_kind s) eqn:K; cbn in H; try discriminate. unfold advance_tok in H. inv_bind H. destruct x as (t, c). injection H as <-.
    exists ks. unfold s_kind. cbn [s_cur s_tok]. split; [eapply scan_snoc; eassumption|].
    rewrite in_app_iff. intros [I|[I|[]]]; [exact (N I)|discriminate].
  Qed.

  Hypothesis T : tame code.
  Hypothesis pc_small : 0 <= e_pc e <= 2 ^ 61 + 64.
  Hypothesis labels_small : forall n v, find_label (e_labels e) n = Some v -> 0 <= v <= 2 ^ 61 + 64.

  Lemma textual_active : forall k, textual k -> string_is_active k = true.
  Proof. intros [] H; cbn in *; auto; contradiction. Qed.
  Lemma imm_below : forall c ks c' z, scan c ks c' -> In (TImm z) ks -> z <= INT64_MAX.
  Proof.
    intros c ks c' z S. induction S as [c|c t c1 ks c' TK S IH]; intros I; [contradiction|]. destruct I as [K|I]; [|exact (IH I)].
    apply tokenize_spec in TK as (q & cq & b & _ & _ & _ & _ & X). rewrite K in X. apply X.
  Qed.

  Lemma placed_good : forall comma o s, placed m comma o = true -> trail s -> (comma = true -> after_comma s) -> ~ bad e o (s_kind s).
  Proof.
    intros comma o s P TR AC.
    assert (O : calm o = true \/ o = OLabel \/ (exists a, o = OTexType a) \/ (exists t, o = OS2r t)).
    { destruct o; cbn in P |- *; auto; try discriminate P; eauto. }
    destruct O as [O|[->|[(a & ->)|(t & ->)]]].
    - apply calm_bad; exact O.
    - cbn [placed] in P. apply one_of_in in P. intros (v & E & R). apply R.
      destruct E as [E|(n & E & F)].
      + destruct TR as (ks & S & N). rewrite E in S.
        pose proof (T branch_numbers ltac:(cbn; tauto) m ks v P (cm_inside _ _ _ S N)) as L.
        pose proof (imm_below _ _ _ v S ltac:(apply in_app_iff; right; left; reflexivity)) as U.
        unfold INT64_MIN, INT64_MAX in *. lia.
      + apply labels_small in F. unfold INT64_MIN, INT64_MAX in *. lia.
    - cbn [placed] in P. apply andb_true_iff in P as (C & P). apply one_of_in in P. destruct (AC C) as (ks & S & N).
      intros (n & E & R). apply R. rewrite E in S.
      exact (T texture_operands ltac:(cbn; tauto) m ks n P (cm_inside _ _ _ S N)).
    - cbn [placed] in P. apply andb_true_iff in P as (C & P). apply one_of_in in P. destruct P as [P|[]]. destruct (AC C) as (ks & S & N).
      intros E. apply cm_inside in S; [|exact N]. rewrite <- P in S.
      pose proof (T system_registers ltac:(cbn; tauto) ks _ S) as X. apply textual_active in X. congruence.
  Qed.

  Definition done (r : attempt) : Prop := match r with Parsed s => kept inv s | _ => True end.
  Lemma good_operands : forall ops comma n s k, well_placed m comma ops = true -> trail s -> (comma = true -> after_comma s) ->
    (forall n s, trail s -> good done (k n s)) -> good done (run_operands e ops n s k).
  Proof.
    induction ops as [|o ops IH]; intros comma n s k W TR AC K; cbn [run_operands]; [apply K, TR|].
    cbn [well_placed] in W. apply andb_true_iff in W as (W & W2). apply andb_true_iff in W as (W & W1).
    apply (good_scored inv).
    - apply good_operand; [apply inv_tokenize|apply trail_kept, TR|eapply placed_good; eauto].
    - intros s' H _. assert (TR' : trail s') by (eapply trail_operand; eauto). apply (IH (is_comma o)); auto.
      intros C. destruct o; try discriminate C. exact (comma_after s s' TR H).
    - exact (fun _ => I).
  Qed.

  (** *** The loads *)

  Definition suffix (l : list tkind) : Prop := l = [] \/ exists x, In x load_caches /\ l = [id x].
  Lemma put_place : forall b s s', put e b s = Ok s' -> s_cur s' = s_cur s /\ s_tok s' = s_tok s.
  Proof. intros b s s' H. unfold put in H. inv_bind H. injection H as <-. auto. Qed.

  Lemma load_flag : forall a s s', m = "LDG"%string -> scan cm [s_kind s] (s_cur s) -> run_operand e (OFlag ".E" a) s = Ok s' ->
    exists x, (x = [] \/ x = [id ".E"]) /\ scan cm (x ++ [s_kind s']) (s_cur s') /\ (x = [] -> s_kind s' <> id ".E").
  Proof.
    intros a s s' M S H. cbn [run_operand] in H. unfold assemble_flag in H. destruct (equal (s_tok s) ".E") eqn:E.
    - apply equal_iff in E. inv_bind H. rename x into s1, Hx into PP. apply put_place in PP as (P1 & P2). unfold advance_tok in H. inv_bind H. destruct x as (t, c). injection H as <-.
      exists [id ".E"]. split; [right; reflexivity|]. split; [|discriminate]. unfold s_kind. cbn [s_tok s_cur].
      replace (id ".E") with (s_kind s) by exact E. rewrite P1 in Hx. eapply scan_snoc; eassumption.
    - injection H as <-. exists []. split; [left; reflexivity|]. split; [exact S|]. intros _. apply equal_ne in E. exact E.
  Qed.

  Lemma find_dot : forall tbl t i, find_in_table true tbl "." t = Ok (Some i) -> exists x, In x tbl /\ kind t = id (String "." x).
  Proof.
    intros tbl t i H. unfold find_in_table in H. destruct (kind t) as [|s| | | | | | | | | | | | |]; try discriminate.
    destruct s as [|ch s]; [discriminate|]. cbn [lit list_ascii_of_string strip_prefix] in H. destruct (Ascii.eqb_spec "." ch) as [<-|]; [|discriminate].
    destruct (index_of 0 tbl s) eqn:E; [|discriminate]. clear H.
    assert (I : In s (map lit tbl)).
    { destruct (in_dec (list_eq_dec ascii_dec) s (map lit tbl)) as [I|I]; [exact I|]. apply index_of_in with (i := 0%N) in I. congruence. }
    apply in_map_iff in I as (x & <- & I). exists x. split; [exact I|reflexivity].
  Qed.
  Lemma find_dot_none : forall tbl t, find_in_table true tbl "." t = Ok None -> forall x, In x tbl -> kind t <> id (String "." x).
  Proof.
    intros tbl t H x I E. unfold find_in_table in H. rewrite E in H. cbn [id lit list_ascii_of_string strip_prefix Ascii.eqb Bool.eqb] in H.
    destruct (index_of 0 tbl (list_ascii_of_string x)) eqn:F; [discriminate|]. apply index_of_in in F. apply F. apply (in_map lit) in I. exact I.
  Qed.

  Lemma load_cache : forall d a tbl s s' x, m = "LDG"%string ->
    forallb (fun y => one_of (String "." y) load_caches) tbl = true -> forallb (fun y => existsb (fun z => String.eqb y (String "." z)) tbl) load_caches = true ->
    (x = [] \/ x = [id ".E"]) -> scan cm (x ++ [s_kind s]) (s_cur s) -> (x = [] -> s_kind s <> id ".E") ->
    run_operand e (ODotTable (Some d) a tbl) s = Ok s' ->
    exists y, suffix y /\ scan cm (x ++ y ++ [s_kind s']) (s_cur s') /\
      (y = [] -> (x = [] -> s_kind s' <> id ".E") /\ forall z, In z load_caches -> s_kind s' <> id z).
  Proof.
    intros d a tbl s s' x M F1 F2 X S NE H. cbn [run_operand] in H. unfold dot_table in H. inv_bind H. destruct x0 as [i|].
    - inv_bind H. unfold advance_tok in Hx0. inv_bind Hx0. destruct x1 as (t, c). injection Hx0 as <-. apply put_place in H as (P1 & P2).
      apply find_dot in Hx as (y & I & K). exists [id (String "." y)].
      split; [right; exists (String "." y); split; [|reflexivity]; apply one_of_in; exact (forallb_in _ _ _ _ F1 I)|].
      split; [|discriminate]. unfold s_kind in *. rewrite P1, P2. cbn [s_cur s_tok]. rewrite K in S.
      rewrite app_assoc. eapply scan_snoc; eassumption.
    - apply put_place in H as (P1 & P2). exists []. split; [left; reflexivity|]. unfold s_kind in *. rewrite P1, P2. split; [exact S|].
      intros _. split; [exact NE|]. intros z I K. pose proof (forallb_in _ _ _ _ F2 I) as G. cbv beta in G. apply existsb_exists in G as (w & IW & EW).
      apply String.eqb_eq in EW. subst z. exact (find_dot_none _ _ Hx w IW K).
  Qed.

  Lemma load_size : forall s x y, m = "LDG"%string -> (x = [] \/ x = [id ".E"]) -> suffix y -> scan cm (x ++ y ++ [s_kind s]) (s_cur s) ->
    (y = [] -> (x = [] -> s_kind s <> id ".E") /\ forall z, In z load_caches -> s_kind s <> id z) -> ~ bad e OLdgSize (s_kind s).
  Proof.
    intros s x y M X Y S NE (n & K & NI).
    assert (I : inside code "LDG" (x ++ y) (TIdent ("." :: n))).
    { rewrite <- M. apply (cm_inside _ _ (s_cur s)); [rewrite <- K, <- app_assoc; exact S|].
      rewrite in_app_iff. destruct X as [->| ->], Y as [->|(z & _ & ->)]; cbn; intuition discriminate. }
    destruct (T loads ltac:(cbn; tauto) x y n X Y I) as [L|[(-> & L)|(-> & -> & L)]].
    - apply NI. cbn in L. repeat destruct L as [L|L]; try contradiction; injection L as <-; cbn; tauto.
    - apply in_map_iff in L as (z & L & IZ). destruct (NE eq_refl) as (_ & NC). apply (NC z IZ). rewrite K. unfold id. rewrite L. reflexivity.
    - destruct (NE eq_refl) as (NC & _). apply (NC eq_refl). rewrite K. unfold id. rewrite <- L. reflexivity.
  Qed.
  Lemma load_trail : forall s x y, (x = [] \/ x = [id ".E"]) -> suffix y -> scan cm (x ++ y ++ [s_kind s]) (s_cur s) -> trail s.
  Proof.
    intros s x y X Y S. exists (x ++ y). split; [rewrite <- app_assoc; exact S|].
    rewrite in_app_iff. destruct X as [->| ->], Y as [->|(z & _ & ->)]; cbn; intuition discriminate.
  Qed.

  Lemma good_insn : forall i op, In i table -> i_mnemonic i = m -> good done (parse_insn e i cm op).
  Proof.
    intros i op Hi M. unfold parse_insn. eapply good_bind; [apply good_add_bits|]. intros op1 _.
    pose proof (inv_tokenize cm (cm_boundary [] cm (scan_nil _))) as TK.
    destruct (tokenize cm) as [(t, c)| | | | |] eqn:E; cbn [bind]; try exact TK. clear TK.
    destruct (_ && _); [exact I|].
    set (s := St c t op1). assert (S0 : scan cm [s_kind s] (s_cur s)) by (econstructor; [exact E|constructor]).
    assert (TR : trail s) by (exists []; split; [exact S0|intros []]).
    assert (K : forall n s, trail s -> good done (scored (n + 1000) (assemble_sched s) (fun s => scored (n + 1000) (confirm_type ty_semi s) (fun s => Ok (Parsed s))))).
    { intros n s1 T1. apply (good_scored inv); [apply good_sched_loop; [apply inv_tokenize|apply trail_kept, T1]| |exact (fun _ => I)].
      intros s2 _ K2. apply (good_scored inv); [apply good_confirm; exact K2| |exact (fun _ => I)]. intros s3 _ K3. exact K3. }
    pose proof (forallb_in _ _ _ _ table_placed Hi) as P. cbv beta in P. apply orb_true_iff in P as [P|P].
    - unfold is_load in P. apply andb_true_iff in P as (P1 & P). apply one_of_in in P1. destruct P1 as [P1|[]].
      assert (ML : m = "LDG"%string) by congruence.
      destruct (i_operands i) as [|[] ops]; try discriminate P. destruct ops as [|o2 ops]; try discriminate P.
      destruct o2; try discriminate P. destruct default; try discriminate P. destruct ops as [|o3 ops]; try discriminate P. destruct o3; try discriminate P.
      apply andb_true_iff in P as (P & W). apply andb_true_iff in P as (P & F1). apply andb_true_iff in P as (P & F2). apply String.eqb_eq in P. subst s0.
      cbn [run_operands].
      apply (good_scored inv); [apply good_operand; [apply inv_tokenize|apply trail_kept, TR|intros []]| |exact (fun _ => I)].
      intros s1 H1 K1. destruct (load_flag _ _ _ ML S0 H1) as (x & X & S1 & N1).
      apply (good_scored inv); [apply good_operand; [apply inv_tokenize|exact K1|intros []]| |exact (fun _ => I)].
      intros s2 H2 K2. destruct (load_cache _ _ _ _ _ _ ML F1 F2 X S1 N1 H2) as (y & Y & S2 & N2).
      apply (good_scored inv); [apply good_operand; [apply inv_tokenize|exact K2|eapply load_size; eassumption]| |exact (fun _ => I)].
      intros s3 H3 K3. apply (good_operands _ false); [rewrite ML; exact W| |discriminate|intros; apply K; assumption].
      eapply trail_operand; [|eapply load_trail; eassumption|exact H3]. reflexivity.
    - apply (good_operands _ false); [rewrite <- M; exact P|exact TR|discriminate|]. intros; apply K; assumption.
  Qed.
End Form.

(** ** A whole text *)

Lemma addr_le : forall k, 0 <= addr k <= 16 * Z.of_nat k + 8.
Proof. intros k. unfold addr. pose proof (Z.div_mod (Z.of_nat k) 3). pose proof (Z.mod_pos_bound (Z.of_nat k) 3). pose proof (Z.div_pos (Z.of_nat k) 3). lia. Qed.
Lemma semis_le : forall p, (semis p <= List.length p)%nat.
Proof. induction p as [|ch p IH]; [cbn; lia|]. change (ch :: p) with ([ch] ++ p). rewrite semis_app, app_length. cbn. destruct (Ascii.eqb _ _); cbn; lia. Qed.

Definition local_ok (o : options) : Prop := -67108879 <= o_local o <= 67108784.

Section Whole.
  Variable code : text.
  Hypothesis no_nul : ~ In NUL code.
  Hypothesis T : tame code.
  Hypothesis short : Z.of_nat (List.length code) <= 2 ^ 57.
  Notation inv := (boundary (start code)).

  Lemma readable_here : forall c, inv c -> good (fun _ => True) (tokenize c).
  Proof.
    intros c B. pose proof (tokenize_outcomes c) as O. destruct (tokenize c) as [x| | | |u|] eqn:E; try exact I.
    apply tokenize_undef_iff in E as (_ & g & cs & b & neg & p & M & _ & R & _ & P).
    destruct (boundary_moves _ _ B) as (q & M0). pose proof (moves_trans _ _ _ _ _ M0 M) as (M1 & _). cbn [rest start] in M1. rewrite R, app_assoc in M1.
    apply (T closed (or_introl eq_refl) _ _ M1). left. destruct P as [<-|[<-|[]]]; unfold letter; cbn; lia.
  Qed.
  Lemma labels_here : exists ls, generate_labels code = Ok ls /\ forall n v, find_label ls n = Some v -> 0 <= v <= 2 ^ 61 + 64.
  Proof.
    destruct (generate_labels_spec code no_nul) as [(ls & G & _ & F)|(_ & (p & name & E & _ & ch & s & -> & L & A))].
    - exists ls. split; [exact G|]. intros n v X. apply F in X as (p & (D & _) & ->). destruct (defines_prefix _ _ _ D) as (y & E).
      pose proof (addr_le (semis p)). pose proof (semis_le p). rewrite E, app_length in short. lia.
    - exfalso. destruct (exists_last (l := ch :: s) ltac:(discriminate)) as (s' & z & E2). rewrite E2, app_assoc in E.
      apply (T closed (or_introl eq_refl) _ _ E). assert (I : In z (ch :: s)) by (rewrite E2; apply in_app_iff; right; left; reflexivity).
      destruct I as [<-|I]; [left; exact L|]. rewrite Forall_forall in A. exact (A z I).
  Qed.

  (** A token of the text and the cursor behind it. *)
  Definition read_here (t : token) (c : cursor) : Prop := exists pre, scan (start code) (pre ++ [kind t]) c.
  Lemma read_boundary : forall t c, read_here t c -> inv c.
  Proof. intros t c (pre & S). exists (pre ++ [kind t]). exact S. Qed.
  Lemma good_next : forall c, inv c -> good (fun x => read_here (fst x) (snd x) /\ tokenize c = Ok x) (tokenize c).
  Proof.
    intros c (pre & S). pose proof (readable_here c (ex_intro _ pre S)) as R. destruct (tokenize c) as [(t, c')| | | | |] eqn:E; cbn in *; auto.
    split; [|reflexivity]. exists pre. eapply scan_snoc; eauto.
  Qed.
  Lemma occurs_next : forall t c u c', read_here t c -> tokenize c = Ok (u, c') -> occurs code [kind t; kind u].
  Proof.
    intros t c u c' (pre & S) X. exists pre, c'. replace (pre ++ [kind t; kind u]) with ((pre ++ [kind t]) ++ [kind u]) by (rewrite <- app_assoc; reflexivity).
    eapply scan_snoc; eauto.
  Qed.

  Lemma good_type : forall l t c o n, In n [".type"; ".dksh"]%string -> kind t = id n -> read_here t c -> local_ok o ->
    good (fun x => read_here (fst (fst x)) (snd (fst x)) /\ local_ok (snd x)) (parse_type l t c o).
  Proof.
    intros l t c o n N K R L. unfold parse_type. destruct (o_type o); [exact I|].
    eapply good_bind; [apply good_next, (read_boundary _ _ R)|]. intros (u, c1) (R1 & E). cbn [fst snd] in *.
    unfold check_option_line. destruct (_ =? _); [|exact I]. cbn [bind]. destruct (program_type u); [split; [exact R1|exact L]|].
    pose proof (occurs_next _ _ _ _ R E) as OC. rewrite K in OC.
    pose proof (T type_options ltac:(cbn; tauto) n (kind u) N OC) as X. apply textual_active in X. rewrite X. exact I.
  Qed.
  Lemma good_int : forall t c msg, read_here t c ->
    good (fun x => read_here (snd (fst x)) (snd x) /\ kind (snd (fst x)) = TImm (fst (fst x)) /\ occurs code [kind t; TImm (fst (fst x))]) (option_int c msg).
  Proof.
    intros t c msg R. unfold option_int. eapply good_bind; [apply good_next, (read_boundary _ _ R)|]. intros (u, c1) (R1 & E). cbn [fst snd] in *.
    destruct (kind u) eqn:K; try exact I. cbn. split; [exact R1|]. split; [exact K|]. rewrite <- K. eapply occurs_next; eassumption.
  Qed.
  Lemma s32_here : forall z, -67108879 <= z <= 67108784 -> s32_of_Z z = z.
  Proof. intros z H. rewrite s32_int32. unfold int32. change (2 ^ 32) with 4294967296. change (2 ^ 31) with 2147483648. rewrite Z.mod_small; lia. Qed.
  Lemma good_option : forall t c o, read_here t c -> local_ok o ->
    good (fun x => read_here (fst (fst x)) (snd (fst x)) /\ local_ok (snd x)) (parse_option t c o).
  Proof.
    intros t c o R L. rewrite parse_option_eq.
    eapply (good_bind _ _ (fun x => read_here (fst (fst x)) (snd (fst x)) /\ local_ok (snd x))).
    2:{ intros ((t1, c1), o1) (R1 & L1). cbn [fst snd] in *. eapply good_bind; [apply good_next, (read_boundary _ _ R1)|].
        intros (t2, c2) (R2 & _). cbn [fst snd] in *. destruct (_ =? _); [exact I|]. split; assumption. }
    unfold option_body.
    destruct (equal t ".dksh") eqn:E1; [apply equal_iff in E1; eapply good_type; [|exact E1|exact R|exact L]; cbn; tauto|].
    destruct (equal t ".type") eqn:E2; [apply equal_iff in E2; eapply good_type; [|exact E2|exact R|exact L]; cbn; tauto|].
    destruct (equal t ".num_gprs") eqn:E3.
    { apply equal_iff in E3. eapply good_bind; [apply good_next, (read_boundary _ _ R)|]. intros (u, c1) (R1 & E). cbn [fst snd] in *.
      pose proof (occurs_next _ _ _ _ R E) as OC. rewrite E3 in OC. destruct (T gprs_options ltac:(cbn; tauto) _ OC) as (z & ->). exact I. }
    destruct (equal t ".workgroup_size") eqn:E4.
    { eapply good_bind; [apply good_int, R|]. intros ((z1, t1), c1) (R1 & _). cbn [fst snd] in *.
      eapply good_bind; [apply good_int, R1|]. intros ((z2, t2), c2) (R2 & _). cbn [fst snd] in *.
      eapply good_bind; [apply good_int, R2|]. intros ((z3, t3), c3) (R3 & _). cbn [fst snd] in *.
      unfold check_option_line. destruct (_ =? _); [|exact I]. split; [exact R3|exact L]. }
    destruct (equal t ".shared_memory") eqn:E5.
    { eapply good_bind; [apply good_int, R|]. intros ((z1, t1), c1) (R1 & _). cbn [fst snd] in *. split; [exact R1|exact L]. }
    destruct (equal t ".local_memory") eqn:E6.
    { apply equal_iff in E6. eapply good_bind; [apply good_int, R|]. intros ((z1, t1), c1) (R1 & _ & OC). cbn [fst snd] in *. split; [exact R1|].
      rewrite E6 in OC. pose proof (T local_options ltac:(cbn; tauto) z1 OC) as X. unfold local_ok. cbn [snd o_local]. rewrite s32_here; exact X. }
    split; [exact R|exact L].
  Qed.
  Lemma good_options : forall n t c o, read_here t c -> local_ok o ->
    good (fun x => read_here (fst (fst x)) (snd (fst x)) /\ local_ok (snd x)) (parse_options n t c o).
  Proof.
    induction n as [|n IH]; intros t c o R L; cbn [parse_options]; [exact I|]. destruct (is_option t); [|split; assumption].
    eapply good_bind; [apply good_option; eassumption|]. intros ((t1, c1), o1) (R1 & L1). apply IH; assumption.
  Qed.

  Lemma good_table : forall e t c op tbl best, read_here t c -> 0 <= e_pc e <= 2 ^ 61 + 64 ->
    (forall n v, find_label (e_labels e) n = Some v -> 0 <= v <= 2 ^ 61 + 64) -> (forall i, In i tbl -> In i table) ->
    good (kept inv) (parse_table e tbl t c op best).
  Proof.
    intros e t c op tbl best (pre & S) PC LS. revert best. induction tbl as [|i tbl IH]; intros best SUB; cbn [parse_table].
    { destruct best as [(d, ?)|]; exact I. }
    destruct (negb (equal t (i_mnemonic i))) eqn:E; [apply IH; intros j J; apply SUB; right; exact J|].
    apply negb_false_iff in E. apply equal_iff in E. rewrite E in S.
    eapply good_bind; [exact (good_insn code (i_mnemonic i) pre c S readable_here e T PC LS i op (SUB i (or_introl eq_refl)) eq_refl)|].
    intros [s|d n] D; [exact D|]. apply IH. intros j J; apply SUB; right; exact J.
  Qed.

  Lemma good_instruction : forall a ls x k, inv (c_cur x) -> local_ok (c_opts x) -> pc_ok x k -> (k <= List.length code)%nat ->
    (forall n v, find_label ls n = Some v -> 0 <= v <= 2 ^ 61 + 64) ->
    good (fun r => match r with Some (x', _) => inv (c_cur x') /\ local_ok (c_opts x') | None => True end) (parse_instruction a ls x opcode0).
  Proof.
    intros a ls x k B L PC KL LS. change parse_instruction with (parse_instruction_with table). rewrite parse_instruction_eq.
    eapply good_bind; [apply good_next, B|]. intros (t, c) (R & _). cbn [fst snd] in *. destruct (ttype_eqb _ _); [exact I|].
    unfold rest_of_instruction. eapply good_bind; [apply good_options; eassumption|]. intros ((t1, c1), o1) (R1 & L1). cbn [fst snd] in *.
    eapply (good_bind _ _ (fun x => read_here (fst (fst x)) (snd (fst x)))).
    - destruct (ttype_eqb _ _).
      + eapply good_bind; [apply good_next, (read_boundary _ _ R1)|]. intros (t2, c2) (R2 & _). cbn [fst snd] in *.
        eapply (good_bind _ _ (fun _ => True)).
        { unfold raise, assemble_predicate. destruct (kind t2); try exact I. destruct (_ && _); [exact I|].
          unfold add_bits. destruct (_ && _); exact I. }
        intros op _. eapply good_bind; [apply good_next, (read_boundary _ _ R2)|]. intros (t3, c3) (R3 & _). exact R3.
      + eapply good_bind; [apply good_add_bits|]. intros op _. exact R1.
    - intros ((t2, c2), op) R2. cbn [fst snd] in *. destruct (kind t2) eqn:K; try exact I.
      eapply good_bind; [apply good_table; [exact R2| |exact LS|auto]|].
      + cbn [e_pc]. rewrite PC. pose proof (addr_le k). lia.
      + intros s1 KS. split; [exact KS|exact L1].
  Qed.

  Lemma good_decode : forall a ls max, (forall n v, find_label ls n = Some v -> 0 <= v <= 2 ^ 61 + 64) -> forall n idx x acc k,
    inv (c_cur x) -> local_ok (c_opts x) -> pc_ok x k -> (k + List.length (rest (c_cur x)) <= List.length code)%nat ->
    (List.length (rest (c_cur x)) < n)%nat -> (idx + semis (rest (c_cur x)) < max)%nat ->
    good (fun r => local_ok (fst r)) (decode_loop n a ls max idx x acc).
  Proof.
    intros a ls max LS. induction n as [|n IH]; intros idx x acc k B L PC KL Hn Hm; cbn [decode_loop]; [exact I|].
    replace (Nat.leb max idx) with false by (symmetry; apply Nat.leb_gt; lia).
    pose proof (good_instruction a ls x k B L PC ltac:(lia) LS) as G.
    destruct (parse_instruction a ls x opcode0) as [[(x', op)|]|d|d|w|u|] eqn:P; cbn [bind]; try exact G; try exact I.
    - destruct G as (B' & L'). pose proof (instruction_counts _ _ _ _ _ P). apply (IH _ _ _ (S k)); auto; [eapply decodes_pc; eassumption|lia|lia|lia].
    - destruct a; cbn [andb]; [|exact L]. destruct (negb _); [exact I|exact L].
  Qed.

  Lemma good_binary : forall ls o w, local_ok o -> good (fun _ => True) (binary ls o w).
  Proof.
    intros ls o w L. unfold binary. eapply (good_bind _ _ (fun _ => True)); [|intros; match goal with |- context [if ?b then _ else _] => destruct b end; exact I].
    destruct (o_dksh o); [|exact I]. unfold write_dksh. destruct (o_type o) as [ty|]; [|exact I]. destruct (find_label _ _) as [en|]; [|exact I].
    destruct (negb _); [exact I|]. rewrite align16_word.
    assert (R : -67108864 <= int32 (round_up 16 (o_local o)) <= 67108784).
    { unfold local_ok in L. unfold int32, round_up. change (2 ^ 32) with 4294967296. change (2 ^ 31) with 2147483648.
      set (v := o_local o) in *. clearbody v.
      pose proof (Z.div_mod (v + 16 - 1) 16 ltac:(lia)). pose proof (Z.mod_pos_bound (v + 16 - 1) 16 ltac:(lia)).
      set (d := (v + 16 - 1) / 16) in *. rewrite Z.mod_small; lia. }
    unfold scratch_size. change INT32_MIN with (-2147483648). change INT32_MAX with 2147483647.
    set (q := int32 _) in *. replace (q * 32 <? -2147483648) with false by (symmetry; apply Z.ltb_ge; lia).
    replace (2147483647 <? q * 32) with false by (symmetry; apply Z.ltb_ge; lia).
    replace (2147483647 <? q * 32 + 2048) with false by (symmetry; apply Z.ltb_ge; lia). cbn [orb bind].
    destruct (o_dims o) as ((dx, dy), dz). exact I.
  Qed.

  Theorem tame_assembles : forall a u, assemble a code <> Undef u.
  Proof.
    intros a u H. destruct labels_here as (ls & G & LS). unfold assemble in H. rewrite G in H. cbn [bind] in H.
    pose proof (good_decode a ls (Datatypes.S (count_semi code)) LS (Datatypes.S (Datatypes.S (List.length code))) 0 (Ctx (Cursor code 0 0) 0 options0) [] 0) as D.
    cbn [c_cur c_opts rest] in D.
    assert (X : good (fun r => local_ok (fst r)) (decode_loop (Datatypes.S (Datatypes.S (List.length code))) a ls (Datatypes.S (count_semi code)) 0 (Ctx (Cursor code 0 0) 0 options0) [])).
    { apply D; try lia; [apply boundary_refl|unfold local_ok; cbn; lia|reflexivity|rewrite count_semi_semis; lia]. }
    destruct (decode_loop _ a ls _ 0 _ []) as [(o, ops)| | | | |]; cbn [bind] in H; try discriminate; [|exact X].
    pose proof (good_binary ls o (emit ops) X) as Y. rewrite H in Y. exact Y.
  Qed.
End Whole.

(** ** Deciding the rules on a given text *)

Lemma all_kinds_prefix : forall n c ts, all_kinds n c = Some ts -> forall ks c', scan c ks c' ->
  exists k l, ts ++ repeat TNone k = ks ++ l.
Proof.
  assert (E : forall c ks c', scan c ks c' -> rest c = [] -> ks = repeat TNone (List.length ks)).
  { intros c ks c' S. induction S as [c|c t c1 ks c' TK S IH]; intros R; [reflexivity|].
    destruct c as [r a b]. cbn [rest] in R. subst r. cbv in TK. injection TK as <- <-. cbn. rewrite <- IH; reflexivity. }
  induction n as [|n IH]; intros c ts H ks c' S; [discriminate|]. destruct S as [c|c t c1 ks c' TK S]; [exists 0%nat, ts; apply app_nil_r|].
  cbn [all_kinds] in H. rewrite TK in H.
  assert (X : (kind t = TNone /\ rest c1 = [] /\ ts = []) \/ exists ts1, all_kinds n c1 = Some ts1 /\ ts = kind t :: ts1).
  { destruct (all_kinds n c1) as [ts1|].
    - destruct (rest c1), (kind t); first [left; split; [reflexivity|split; [reflexivity|congruence]]|right; exists ts1; injection H as <-; split; reflexivity].
    - destruct (rest c1), (kind t); first [discriminate H|left; split; [reflexivity|split; [reflexivity|congruence]]]. }
  destruct X as [(K & R & ->)|(ts1 & A & ->)].
  - exists (Datatypes.S (List.length ks)), []. rewrite K, app_nil_r. cbn. rewrite <- (E _ _ _ S R). reflexivity.
  - destruct (IH _ _ A _ _ S) as (k & l & Q). exists k, l. cbn. rewrite Q. reflexivity.
Qed.

Definition is_named (m : string) (k : tkind) : bool := match k with TIdent s => text_eqb s (lit m) | _ => false end.
Fixpoint runs (P : list tkind -> tkind -> bool) (ks r : list tkind) : bool :=
  match r with
  | [] => false
  | k :: r => P ks k && match k with TSemi => true | _ => runs P (ks ++ [k]) r end
  end.
Fixpoint inside_all (m : string) (P : list tkind -> tkind -> bool) (ts : list tkind) : bool :=
  match ts with
  | [] => true
  | k :: r => (if is_named m k then runs P [] r else true) && inside_all m P r
  end.
Fixpoint pairs_all (m : string) (P : tkind -> bool) (ts : list tkind) : bool :=
  match ts with
  | [] => true
  | k :: r => (if is_named m k then P (hd TNone r) else true) && pairs_all m P r
  end.

Lemma runs_sound : forall P r acc ks k n l, runs P acc r = true -> r ++ repeat TNone n = ks ++ k :: l -> ~ In TSemi ks -> P (acc ++ ks) k = true.
Proof.
  induction r as [|x r IH]; intros acc ks k n l H E N; [discriminate|]. cbn [runs] in H. apply andb_true_iff in H as (H1 & H2).
  destruct ks as [|y ks]; cbn in E; injection E as <- E.
  - rewrite app_nil_r. exact H1.
  - replace (acc ++ x :: ks) with ((acc ++ [x]) ++ ks) by (rewrite <- app_assoc; reflexivity).
    apply (IH _ _ _ n l); [|exact E|intros X; apply N; right; exact X].
    destruct x; try exact H2. exfalso. apply N. left. reflexivity.
Qed.
Lemma repeat_app : forall (x : tkind) n p k l, repeat x n = p ++ k :: l -> k = x.
Proof. induction n as [|n IH]; intros [|y p] k l H; cbn in H; try discriminate; [congruence|]. injection H as _ H. eapply IH; eassumption. Qed.
Lemma named_id : forall m, is_named m (id m) = true.
Proof. intros m. cbn. apply text_eqb_refl. Qed.

Lemma inside_decided : forall n code ts m P ks k, all_kinds n (start code) = Some ts -> inside_all m P ts = true -> inside code m ks k -> P ks k = true.
Proof.
  intros n code ts m P ks k A H ((pre & c & S) & N). destruct (all_kinds_prefix _ _ _ A _ _ S) as (j & l & E). clear A S.
  rewrite <- app_assoc in E. cbn [app] in E. rewrite <- app_assoc in E. cbn [app] in E.
  revert pre E H. induction ts as [|x ts IH]; intros pre E H; cbn [app] in E.
  - apply repeat_app in E. discriminate.
  - cbn [inside_all] in H. apply andb_true_iff in H as (H1 & H2). destruct pre as [|y pre]; cbn [app] in E; injection E as -> E.
    + rewrite named_id in H1. exact (runs_sound P ts [] ks k j l H1 E N).
    + exact (IH pre E H2).
Qed.
Lemma pairs_decided : forall n code ts m P k, all_kinds n (start code) = Some ts -> pairs_all m P ts = true -> occurs code [id m; k] -> P k = true.
Proof.
  intros n code ts m P k A H (pre & c & S). destruct (all_kinds_prefix _ _ _ A _ _ S) as (j & l & E). clear A S.
  rewrite <- app_assoc in E. cbn [app] in E.
  revert pre E H. induction ts as [|x ts IH]; intros pre E H; cbn [app] in E.
  - apply repeat_app in E. discriminate.
  - cbn [pairs_all] in H. apply andb_true_iff in H as (H1 & H2). destruct pre as [|y pre]; cbn [app] in E; injection E as -> E.
    + rewrite named_id in H1. destruct ts as [|z ts]; cbn in E, H1; [|injection E as -> E; exact H1].
      destruct j; cbn in E; [discriminate|]. injection E as <- _. exact H1.
    + exact (IH pre E H2).
Qed.

Definition textual_b (k : tkind) : bool := match k with TReg _ | TPred _ _ | TImm _ | TFloat _ => false | _ => true end.
Definition closed_b (code : text) : bool :=
  match rev code with [] => true | ch :: _ => negb (is_alnum ch) && negb (Ascii.eqb ch "_") end.
Definition system_b : list tkind -> tkind -> bool := fun ks k => match rev ks with TComma :: _ => textual_b k | _ => true end.
Definition texture_b : list tkind -> tkind -> bool := fun ks k => match rev ks, k with TComma :: _, TIdent n => existsb (fun x => text_eqb n (lit x)) texture_types | _, _ => true end.
Definition branch_b : list tkind -> tkind -> bool := fun _ k => match k with TImm z => - 2 ^ 62 <=? z | _ => true end.
Definition load_b : list tkind -> tkind -> bool := fun ks k =>
  let cache x := existsb (fun y => is_named y x) load_caches in
  match k with
  | TIdent n =>
      existsb (fun x => text_eqb n (lit x)) load_sizes ||
      match ks with
      | [] => cache k || text_eqb n (lit ".E")
      | [x] => (is_named ".E" x && cache k) || negb (is_named ".E" x || cache x)
      | [x; y] => negb (is_named ".E" x && cache y)
      | _ => true
      end
  | _ => true
  end.
Definition gprs_b (k : tkind) : bool := match k with TImm _ => true | _ => false end.
Definition local_b (k : tkind) : bool := match k with TImm z => (-67108879 <=? z) && (z <=? 67108784) | _ => true end.

Definition checks : list (text -> list tkind -> bool) :=
  [fun code _ => closed_b code;
   fun _ ts => inside_all "S2R" system_b ts;
   fun _ ts => inside_all "LDG" load_b ts;
   fun _ ts => forallb (fun m => inside_all m texture_b ts) texture_names;
   fun _ ts => forallb (fun m => inside_all m branch_b ts) branch_names;
   fun _ ts => forallb (fun m => pairs_all m textual_b ts) [".type"; ".dksh"]%string;
   fun _ ts => pairs_all ".num_gprs" gprs_b ts;
   fun _ ts => pairs_all ".local_memory" local_b ts].

Lemma name_test : forall n l, existsb (fun x => text_eqb n (lit x)) l = true -> In n (map lit l).
Proof. intros n l H. apply existsb_exists in H as (x & I & E). apply text_eqb_eq in E. subst n. apply in_map. exact I. Qed.
Lemma named_iff : forall m k, is_named m k = true <-> k = id m.
Proof. intros m k. split; [|intros ->; apply named_id]. destruct k; try discriminate. cbn. intros H. apply text_eqb_eq in H. subst; reflexivity. Qed.

Lemma rule_decided : forall n code ts i r b, all_kinds n (start code) = Some ts -> nth_error rules i = Some r -> nth_error checks i = Some b ->
  b code ts = true -> r code.
Proof.
  intros n code ts i r b A R B H.
  unfold rules, checks in R, B. destruct i as [|[|[|[|[|[|[|[|i]]]]]]]]; cbn [nth_error] in R, B; try (destruct i; discriminate); injection R as <-;
    match type of B with Some ?f = Some _ => assert (E : b = f) by congruence; clear B; subst b; cbv beta in H end.
  - intros p ch E X. subst code. unfold closed_b in H. rewrite rev_app_distr in H. cbn in H. apply andb_true_iff in H as (H1 & H2).
    apply negb_true_iff in H1, H2. unfold is_alnum, is_alpha, is_decimal in H1. apply orb_false_iff in H1 as (H1 & H3). apply orb_false_iff in H1 as (H1 & H4).
    destruct X as [X|[X|X]].
    + unfold letter in X. rewrite andb_false_iff, !N.leb_gt in H1, H4. lia.
    + unfold Spec.digit in X. rewrite andb_false_iff, !N.leb_gt in H3. lia.
    + subst ch. discriminate.
  - intros ks k X. pose proof (inside_decided _ _ _ _ _ _ _ A H X) as Y. unfold system_b in Y. rewrite rev_app_distr in Y. cbn in Y. destruct k; cbn in *; auto; discriminate.
  - intros x y m X Y Z. pose proof (inside_decided _ _ _ _ _ _ _ A H Z) as W. cbv zeta in W. unfold load_b in W. apply orb_true_iff in W as [W|W]; [left; apply name_test; exact W|right].
    assert (CN : forall k, existsb (fun y => is_named y k) load_caches = true -> exists z, In z load_caches /\ k = id z).
    { intros k C. apply existsb_exists in C as (z & I & E). apply named_iff in E. eauto. }
    assert (NC : forall z, In z load_caches -> existsb (fun y => is_named y (id z)) load_caches = true).
    { intros z I. apply existsb_exists. exists z. split; [exact I|apply named_id]. }
    destruct X as [->| ->], Y as [->|(z & IZ & ->)]; cbn [app] in W.
    + apply orb_true_iff in W as [W|W].
      * left. split; [reflexivity|]. apply CN in W as (z & I & E). unfold id in E. injection E as ->. apply in_map. exact I.
      * right. split; [reflexivity|]. split; [reflexivity|]. apply text_eqb_eq in W. exact W.
    + rewrite (NC z IZ), orb_true_r, orb_false_r in W. apply andb_true_iff in W as (W & _). apply named_iff in W. exfalso.
      destruct IZ as [E|[E|[E|[E|[]]]]]; subst z; discriminate.
    + rewrite named_id in W. cbn [orb negb] in W. rewrite orb_false_r in W. cbn [andb] in W. left. split; [reflexivity|].
      apply CN in W as (z & I & E). unfold id in E. injection E as ->. apply in_map. exact I.
    + rewrite named_id, (NC z IZ) in W. discriminate.
  - intros m ks k I X. pose proof (forallb_in _ _ _ _ H I) as HM. pose proof (inside_decided _ _ _ _ _ _ _ A HM X) as Y. unfold texture_b in Y.
    rewrite rev_app_distr in Y. cbn [rev app] in Y. apply name_test; exact Y.
  - intros m ks z I X. pose proof (forallb_in _ _ _ _ H I) as HM. pose proof (inside_decided _ _ _ _ _ _ _ A HM X) as Y. apply Z.leb_le in Y. exact Y.
  - intros m k I X. pose proof (forallb_in _ _ _ _ H I) as HM. pose proof (pairs_decided _ _ _ _ _ _ A HM X) as Y. destruct k; cbn in *; auto; discriminate.
  - intros k X. pose proof (pairs_decided _ _ _ _ _ _ A H X) as Y. destruct k; try discriminate. eauto.
  - intros z X. pose proof (pairs_decided _ _ _ _ _ _ A H X) as Y. apply andb_true_iff in Y as (Y1 & Y2). apply Z.leb_le in Y1, Y2. lia.
Qed.

(** All rules but those of [skip]. *)
Definition rules_b (skip : nat) (code : text) : bool :=
  match all_kinds (Datatypes.S (List.length code)) (start code) with
  | None => false
  | Some ts => forallb (fun i => Nat.eqb i skip || match nth_error checks i with Some b => b code ts | None => true end) (seq 0 8)
  end.
Lemma rules_decided : forall skip code, rules_b skip code = true -> forall i r, nth_error rules i = Some r -> i <> skip -> r code.
Proof.
  intros skip code H i r R NE. unfold rules_b in H. destruct (all_kinds _ _) as [ts|] eqn:A; [|discriminate].
  assert (L : (i < 8)%nat) by (apply (nth_error_Some rules i); congruence).
  assert (I : In i (seq 0 8)) by (apply in_seq; lia). pose proof (forallb_in _ _ _ _ H I) as X. cbv beta in X.
  destruct (Nat.eqb_spec i skip); [contradiction|]. cbn [orb] in X. destruct (nth_error checks i) as [b|] eqn:B.
  - eapply rule_decided; eassumption.
  - apply nth_error_None in B. cbn in B. lia.
Qed.
Lemma tame_decided : forall code, rules_b 8 code = true -> tame code.
Proof.
  intros code H r I. apply In_nth_error in I as (i & I). eapply (rules_decided 8); [exact H|exact I|].
  assert (L : (i < 8)%nat) by (apply (nth_error_Some rules i); congruence). lia.
Qed.

(** Every rule is needed: one text per rule. *)
Definition newline : string := String LF EmptyString.
Definition counterexamples : list string :=
  ["EXIT"; "S2R R0, 5;"; "LDG.CG.E R0, [R1];"; "TMML.LOD R0, R1, 0, SOME, 0;"; "BRA -9223372036854775808;";
   ".type 5" ++ newline ++ "EXIT;"; ".num_gprs R0" ++ newline ++ "EXIT;";
   ".dksh compute" ++ newline ++ ".local_memory 67108785" ++ newline ++ "main:" ++ newline ++ "EXIT;"]%string.
Definition undefined (m : res (list N)) : bool := match m with Undef _ => true | _ => false end.
Lemma counterexamples_ok :
  forallb (fun i => let code := lit (nth i counterexamples ""%string) in
    rules_b i code && undefined (assemble true code) && undefined (assemble false code) && negb (existsb (Ascii.eqb NUL) code) &&
    Nat.leb (List.length code) 100) (seq 0 8) = true.
Proof. vm_compute. reflexivity. Qed.
Theorem rules_needed : forall i r, nth_error rules i = Some r -> exists code,
  ~ In NUL code /\ (List.length code <= 100)%nat /\
  (forall j r', nth_error rules j = Some r' -> j <> i -> r' code) /\
  forall a, exists u, assemble a code = Undef u.
Proof.
  intros i r R. assert (L : (i < 8)%nat) by (apply (nth_error_Some rules i); congruence).
  assert (I : In i (seq 0 8)) by (apply in_seq; lia). pose proof (forallb_in _ _ _ _ counterexamples_ok I) as X. cbv beta zeta in X.
  set (code := lit (nth i counterexamples ""%string)) in *. clearbody code.
  apply andb_true_iff in X as (X & X5). apply andb_true_iff in X as (X & X4). apply andb_true_iff in X as (X & X3). apply andb_true_iff in X as (X1 & X2).
  exists code. split.
  { intros N. apply negb_true_iff in X4. assert (Y : existsb (Ascii.eqb NUL) code = true) by (apply existsb_exists; exists NUL; split; [exact N|apply Ascii.eqb_refl]). congruence. }
  split; [apply Nat.leb_le; exact X5|]. split; [intros j r' J NE; eapply rules_decided; eassumption|].
  intros a. assert (U : undefined (assemble a code) = true) by (destruct a; assumption). destruct (assemble a code) as [| | | |u|]; try discriminate. eauto.
Qed.
