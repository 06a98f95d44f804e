(** * Param: everything the parser does is parametric in positions.

    Two runs of the same operand (or of a whole instruction) from related
    states stay related.  Instantiated below with several relations, this one
    induction over the model gives position independence, the agreement of
    debug and release builds, and the cursor invariants. *)
From Verif Require Import Base Float Lexer Operand Catalogue Table Parse LexFacts SchedFuel.
From Coq Require Import Lia.
Open Scope Z_scope.

(** ** Related outcomes *)

Definition relres {A B} (D : diag -> diag -> Prop) (lax : bool) (RA : A -> B -> Prop)
  (m1 : res A) (m2 : res B) : Prop :=
  match m1, m2 with
  | Ok a, Ok b => RA a b
  | Err d1, Err d2 => D d1 d2
  | Fatal d1, Fatal d2 => D d1 d2
  | Abort w, Abort w' => lax = true \/ w = w'
  | Abort _, _ => lax = true
  | Undef u, Undef u' => u = u'
  | OutOfFuel, OutOfFuel => True
  | _, _ => False
  end.

Lemma relres_bind : forall A B C E D lax (RA : A -> B -> Prop) (RB : C -> E -> Prop) m1 m2 k1 k2,
  relres D lax RA m1 m2 ->
  (forall a b, RA a b -> relres D lax RB (k1 a) (k2 b)) ->
  relres D lax RB (bind m1 k1) (bind m2 k2).
Proof.
  intros A B C E D lax RA RB m1 m2 k1 k2 H K.
  destruct m1 as [a1|d1|d1|w1|u1|], m2 as [a2|d2|d2|w2|u2|]; try exact (K _ _ H); try exact H; try (exfalso; exact H).
  cbn in H |- *. destruct (k2 a2); auto.
Qed.

Lemma relres_bind_eq : forall A B C E D lax (RA : A -> B -> Prop) (RB : C -> E -> Prop) m1 m2 k1 k2,
  relres D lax RA m1 m2 ->
  (forall a b, m1 = Ok a -> RA a b -> relres D lax RB (k1 a) (k2 b)) ->
  relres D lax RB (bind m1 k1) (bind m2 k2).
Proof.
  intros A B C E D lax RA RB m1 m2 k1 k2 H K.
  destruct m1, m2; cbn in *; auto; try contradiction; try discriminate.
  destruct (k2 a); auto.
Qed.

Lemma relres_mono : forall A B D lax (RA RA' : A -> B -> Prop) m1 m2,
  (forall a b, RA a b -> RA' a b) -> relres D lax RA m1 m2 -> relres D lax RA' m1 m2.
Proof. intros A B D lax RA RA' m1 m2 H; destruct m1, m2; cbn; auto. Qed.

Lemma relres_eq : forall A (D : diag -> diag -> Prop) lax (m : res A), (forall d, D d d) ->
  relres D lax eq m m.
Proof. intros A D lax [] HD; cbn; auto. Qed.

(** The operand does not take a ';'. *)
Fixpoint semi_free (o : opnd) : bool :=
  match o with
  | OOptType ty _ => negb (ttype_eqb ty ty_semi)
  | OAbs _ inner => semi_free inner
  | _ => true
  end.
(** The operand is not relative to the address of the instruction. *)
Fixpoint place_free (o : opnd) : bool :=
  match o with
  | OLabel => false
  | OAbs _ inner => place_free inner
  | _ => true
  end.

Section Param.
  (** [R0]: related cursors; [RC]: related cursors with their current tokens. *)
  Variable R0 : cursor -> cursor -> Prop.
  Variable RC : cursor -> token -> cursor -> token -> Prop.
  Variable D : diag -> diag -> Prop.
  Variable lax : bool.
  (** Nothing is read behind the ';' of an instruction. *)
  Hypothesis RC_R0 : forall c1 t1 c2 t2, RC c1 t1 c2 t2 -> kind t1 <> TSemi -> R0 c1 c2.
  Hypothesis RC_kind : forall c1 t1 c2 t2, RC c1 t1 c2 t2 -> kind t1 = kind t2.
  Hypothesis RC_diag : forall c1 t1 c2 t2 m, RC c1 t1 c2 t2 -> D (diag_at t1 m) (diag_at t2 m).
  Definition RT (x y : token * cursor) : Prop := RC (snd x) (fst x) (snd y) (fst y).
  Hypothesis R0_tokenize : forall c1 c2, R0 c1 c2 -> relres D lax RT (tokenize c1) (tokenize c2).

  (** Environments: same label lookups and pc; the left one may assert more. *)
  Variables e1 e2 : env.
  Hypothesis env_labels : forall name, find_label (e_labels e1) name = find_label (e_labels e2) name.
  Hypothesis env_asserts : e_asserts e1 = e_asserts e2 \/ (lax = true /\ e_asserts e2 = false).

  Definition RS (s1 s2 : st) : Prop :=
    RC (s_cur s1) (s_tok s1) (s_cur s2) (s_tok s2) /\ s_op s1 = s_op s2.
  Definition RNS (x y : N * st) : Prop := fst x = fst y /\ RS (snd x) (snd y).
  Notation sim := (relres D lax RS).

  Lemma sim_advance : forall s1 s2, RS s1 s2 -> s_kind s1 <> TSemi -> sim (advance_tok s1) (advance_tok s2).
  Proof.
    intros s1 s2 (H & O) NS. unfold advance_tok. eapply relres_bind.
    - apply R0_tokenize. eapply RC_R0; eauto.
    - intros (t1, c1) (t2, c2) HT. split; auto.
  Qed.

  Lemma sim_add_bits : forall op bits,
    relres D lax eq (add_bits (e_asserts e1) op bits) (add_bits (e_asserts e2) op bits).
  Proof.
    intros op bits. unfold add_bits. destruct env_asserts as [-> | (-> & ->)].
    - destruct (_ && _); cbn; auto.
    - destruct (_ && _) eqn:E; cbn; auto.
  Qed.
  Lemma sim_add_reuse : forall op flag,
    relres D lax eq (add_reuse (e_asserts e1) op flag) (add_reuse (e_asserts e2) op flag).
  Proof.
    intros op bits. unfold add_reuse. destruct env_asserts as [-> | (-> & ->)].
    - destruct (_ && _); cbn; auto.
    - destruct (_ && _) eqn:E; cbn; auto.
  Qed.

  Lemma sim_put : forall bits s1 s2, RS s1 s2 -> sim (put e1 bits s1) (put e2 bits s2).
  Proof.
    intros bits s1 s2 (H & O). unfold put. rewrite O. eapply relres_bind; [apply sim_add_bits|].
    intros a b <-. split; auto.
  Qed.

  Lemma sim_fail : forall A B (RA : A -> B -> Prop) s1 s2 m, RS s1 s2 ->
    relres D lax RA (fail (s_tok s1) m) (fail (s_tok s2) m).
  Proof. intros A B RA s1 s2 m (H & _). cbn. eapply RC_diag; eauto. Qed.

  Lemma RS_kind : forall s1 s2, RS s1 s2 -> s_kind s1 = s_kind s2.
  Proof. intros s1 s2 (H & _). unfold s_kind. eauto. Qed.
  Lemma RS_equal : forall s1 s2 x, RS s1 s2 -> equal (s_tok s1) x = equal (s_tok s2) x.
  Proof. intros s1 s2 x (H & _). unfold equal. erewrite RC_kind; eauto. Qed.
  Lemma RS_find : forall s1 s2 b tbl p, RS s1 s2 ->
    find_in_table b tbl p (s_tok s1) = find_in_table b tbl p (s_tok s2).
  Proof. intros s1 s2 b tbl p (H & _). unfold find_in_table. erewrite RC_kind; eauto. Qed.
  Lemma RS_assoc : forall s1 s2 tbl, RS s1 s2 -> assoc_text tbl (s_tok s1) = assoc_text tbl (s_tok s2).
  Proof.
    intros s1 s2 tbl H. induction tbl as [|(k, v) tbl IH]; cbn; auto.
    rewrite (RS_equal _ _ k H), IH. reflexivity.
  Qed.
  Lemma RS_op : forall s1 s2, RS s1 s2 -> s_op s1 = s_op s2.
  Proof. intros s1 s2 (_ & H); exact H. Qed.
  Lemma RS_set : forall v s1 s2, RS s1 s2 -> RS (set_value v s1) (set_value v s2).
  Proof. intros v s1 s2 (H & O). split; cbn; [exact H|]. rewrite O. reflexivity. Qed.

  Lemma sim_pure : forall A (m : res A), (forall e, m <> Err e) -> (forall e, m <> Fatal e) ->
    relres D lax eq m m.
  Proof. intros A [] H1 H2; cbn; auto; exfalso; [eapply H1|eapply H2]; reflexivity. Qed.

  Lemma sim_find : forall s1 s2 b tbl p, RS s1 s2 ->
    relres D lax eq (find_in_table b tbl p (s_tok s1)) (find_in_table b tbl p (s_tok s2)).
  Proof.
    intros s1 s2 b tbl p H. rewrite (RS_find _ _ b tbl p H). apply sim_pure;
      intros d; unfold find_in_table; destruct (kind (s_tok s2)); try discriminate;
      destruct (strip_prefix _ _); try discriminate; destruct (index_of _ _ _); try discriminate;
      destruct b; discriminate.
  Qed.

  (** ** Tokens that are not a ';' *)
  Lemma equal_semi : forall s x, equal (s_tok s) x = true -> s_kind s <> TSemi.
  Proof. unfold equal, s_kind. intros s x H E. rewrite E in H. discriminate. Qed.
  Lemma put_semi : forall e b s s', put e b s = Ok s' -> s_kind s <> TSemi -> s_kind s' <> TSemi.
  Proof. intros e b s s' H. unfold put in H. inv_bind H. injection H as <-. auto. Qed.
  Lemma confirm_semi : forall ty s s', confirm_type ty s = Ok s' -> ty <> ty_semi -> s_kind s' <> TSemi.
  Proof.
    intros ty s s' H N E. unfold confirm_type in H. destruct (ttype_eqb _ _) eqn:T; [|discriminate]. injection H as <-.
    rewrite E in T. destruct ty; try discriminate; apply N; reflexivity.
  Qed.
  Lemma confirm_next_semi : forall ty s s', confirm_type_next ty s = Ok s' -> ty <> ty_semi -> s_kind s' <> TSemi.
  Proof. intros ty s s' H. unfold confirm_type_next in H. inv_bind H. eapply confirm_semi; eauto. Qed.
  Lemma convert_semi : forall s mn mx v, convert_integer s mn mx = Ok v -> s_kind s <> TSemi.
  Proof. intros s mn mx v H E. unfold convert_integer, confirm_type in H. rewrite E in H. discriminate. Qed.
  Lemma find_semi : forall b tbl p s i, find_in_table b tbl p (s_tok s) = Ok (Some i) -> s_kind s <> TSemi.
  Proof. unfold find_in_table, s_kind. intros b tbl p s i H E. rewrite E in H. discriminate. Qed.
  Lemma assoc_semi : forall tbl s n, assoc_text tbl (s_tok s) = Some n -> s_kind s <> TSemi.
  Proof.
    induction tbl as [|(k, v) tbl IH]; intros s n H; [discriminate|]. cbn in H. destruct (equal (s_tok s) k) eqn:E; [|eauto].
    eapply equal_semi; eauto.
  Qed.
  Lemma type_semi : forall s ty, ttype_eqb (type_of (s_kind s)) ty = true -> ty <> ty_semi -> s_kind s <> TSemi.
  Proof. intros s ty T N E. rewrite E in T. destruct ty; try discriminate; apply N; reflexivity. Qed.
  Lemma sched_int_semi : forall s mx m n s', sched_int s mx m = Ok (n, s') -> s_kind s' <> TSemi.
  Proof.
    intros s mx m n s' H. unfold sched_int in H. inv_bind H. inv_bind H. destruct (s_kind x0) eqn:E; try discriminate.
    destruct (_ || _); inversion H; subst. rewrite E. discriminate.
  Qed.
  Ltac opened :=
    repeat match goal with
    | H : bind _ _ = Ok _ |- _ => inv_bind H
    | H : Ok _ = Ok _ |- _ => inversion H; clear H; subst
    | H : fail _ _ = Ok _ |- _ => discriminate H
    | H : Undef _ = Ok _ |- _ => discriminate H
    | H : (if ?b then _ else _) = Ok _ |- _ => destruct b eqn:?
    | H : (if ?b then _ else _) = Some _ |- _ => destruct b eqn:?
    | H : Some _ = Some _ |- _ => inversion H; clear H; subst
    | H : Abort _ = Ok _ |- _ => discriminate H
    | H : None = Some _ |- _ => discriminate H
    | H : match ?b with _ => _ end = Ok _ |- _ => destruct b eqn:?
    | H : ?x = Ok _ |- _ => is_var x; subst x
    end.
  Ltac solid :=
    match goal with
    | |- s_kind (St (s_cur ?s) (s_tok ?s) _) <> TSemi => change (s_kind s <> TSemi); solid
    | |- s_kind (set_value _ ?s) <> TSemi => change (s_kind s <> TSemi); solid
    | H : put _ _ ?a = Ok ?s |- s_kind ?s <> TSemi => apply (put_semi _ _ _ _ H); solid
    | H : equal (s_tok ?s) _ = true |- s_kind ?s <> TSemi => exact (equal_semi _ _ H)
    | H : negb (equal (s_tok ?s) _) = false |- s_kind ?s <> TSemi => apply negb_false_iff in H; exact (equal_semi _ _ H)
    | H : s_kind ?s = _ |- s_kind ?s <> TSemi => rewrite H; discriminate
    | H : sched_int _ _ _ = Ok (_, ?s) |- s_kind ?s <> TSemi => exact (sched_int_semi _ _ _ _ _ H)
    | H : confirm_type _ _ = Ok ?s |- s_kind ?s <> TSemi => apply (confirm_semi _ _ _ H); discriminate
    | H : confirm_type_next _ _ = Ok ?s |- s_kind ?s <> TSemi => apply (confirm_next_semi _ _ _ H); discriminate
    | H : convert_integer ?s _ _ = Ok _ |- s_kind ?s <> TSemi => exact (convert_semi _ _ _ _ H)
    | H : find_in_table _ _ _ (s_tok ?s) = Ok (Some _) |- s_kind ?s <> TSemi => exact (find_semi _ _ _ _ _ H)
    | H : assoc_text _ (s_tok ?s) = Some _ |- s_kind ?s <> TSemi => exact (assoc_semi _ _ _ H)
    | H : ttype_eqb (type_of (s_kind ?s)) _ = true |- s_kind ?s <> TSemi => apply (type_semi _ _ H); discriminate
    | H : context [equal (s_tok ?s) ?x] |- s_kind ?s <> TSemi =>
        let E := fresh in
        destruct (equal (s_tok s) x) eqn:E; [exact (equal_semi _ _ E)|clear E]; first [discriminate H | solid]
    end.
  Ltac notsemi := first [solid | opened; solid | idtac].

  (** Rewrite the right state's observations into the left state's. *)
  Ltac norm :=
    repeat match goal with
    | H : RS ?a ?b |- context [s_kind ?b] => rewrite <- (RS_kind a b H)
    | H : RS ?a ?b |- context [equal (s_tok ?b) ?x] => rewrite <- (RS_equal a b x H)
    | H : RS ?a ?b |- context [assoc_text ?t (s_tok ?b)] => rewrite <- (RS_assoc a b t H)
    | H : RS ?a ?b |- context [s_op ?b] => rewrite <- (RS_op a b H)
    end.

  Ltac rel_for A :=
    lazymatch A with
    | st => constr:(RS)
    | (N * st)%type => constr:(RNS)
    | _ => constr:(@eq A)
    end.

  Ltac pairs :=
    repeat match goal with
    | x : (_ * _)%type |- _ => destruct x
    | H : (_, _) = (_, _) |- _ => injection H as ? ?; subst
    | H : RNS (_, _) (_, _) |- _ =>
        let E := fresh in destruct H as (E & H); cbn [fst snd] in E, H; subst
    end.

  Ltac sim1 :=
    lazymatch goal with
    | |- relres _ _ _ (bind ?m1 ?k1) (bind ?m2 ?k2) =>
        lazymatch type of m1 with
        | res ?A => let R := rel_for A in
            apply (relres_bind_eq _ _ _ _ _ _ R);
            [ | let a := fresh "s" in let b := fresh "s" in
                intros a b ? ?; pairs; subst; norm ]
        end
    | |- relres _ _ _ (advance_tok _) (advance_tok _) => apply sim_advance; [auto using RS_set|notsemi]
    | |- relres _ _ _ (put _ _ _) (put _ _ _) => apply sim_put; auto using RS_set
    | |- relres _ _ _ (find_in_table _ _ _ _) (find_in_table _ _ _ _) => apply sim_find; auto using RS_set
    | |- relres _ _ _ (fail (s_tok ?a) _) (fail (s_tok ?b) _) => apply sim_fail; auto using RS_set
    | |- relres _ _ _ (add_reuse _ _ _) (add_reuse _ _ _) => apply sim_add_reuse
    | |- relres _ _ _ (Ok _) (Ok _) => cbn [relres]; unfold RNS; cbn [fst snd]; auto using RS_set
    | |- relres _ _ _ (Undef _) (Undef _) => reflexivity
    | |- relres _ _ _ (if ?b then _ else _) (if ?b then _ else _) => destruct b eqn:?
    | |- relres _ _ _ (match ?b with _ => _ end) (match ?b with _ => _ end) => destruct b eqn:?
    end.
  Ltac sim_all := norm; repeat sim1.

  Lemma sim_confirm : forall ty s1 s2, RS s1 s2 -> sim (confirm_type ty s1) (confirm_type ty s2).
  Proof. intros ty s1 s2 H. unfold confirm_type. sim_all. Qed.
  Lemma sim_confirm_next : forall ty s1 s2, RS s1 s2 -> s_kind s1 <> TSemi ->
    sim (confirm_type_next ty s1) (confirm_type_next ty s2).
  Proof. intros ty s1 s2 H NS. unfold confirm_type_next. sim_all; [exact NS|]. apply sim_confirm; auto. Qed.
  Lemma sim_convert : forall mn mx s1 s2, RS s1 s2 ->
    relres D lax eq (convert_integer s1 mn mx) (convert_integer s2 mn mx).
  Proof.
    intros mn mx s1 s2 H. unfold convert_integer. sim1; [apply sim_confirm; auto|]. sim_all.
  Qed.
  Lemma sim_try_reuse : forall a s1 s2, RS s1 s2 -> sim (try_reuse e1 a s1) (try_reuse e2 a s2).
  Proof.
    intros a s1 s2 H. unfold try_reuse. sim_all; cbn [s_cur s_tok s_op];
      split; cbn [s_cur s_tok s_op]; try reflexivity; apply H.
  Qed.

  Ltac sim2 :=
    lazymatch goal with
    | |- relres _ _ _ (confirm_type _ _) (confirm_type _ _) => apply sim_confirm; auto
    | |- relres _ _ _ (confirm_type_next _ _) (confirm_type_next _ _) => apply sim_confirm_next; [auto|notsemi]
    | |- relres _ _ _ (convert_integer _ _ _) (convert_integer _ _ _) => apply sim_convert; auto
    | |- relres _ _ _ (try_reuse _ _ _) (try_reuse _ _ _) => apply sim_try_reuse; auto
    | _ => sim1
    end.
  Ltac go := norm; repeat sim2.

  Lemma sim_gpr : forall a s1 s2, RS s1 s2 -> sim (assemble_gpr e1 a s1) (assemble_gpr e2 a s2).
  Proof. intros a s1 s2 H. unfold assemble_gpr. go. Qed.
  Lemma sim_imm20 : forall s1 s2, RS s1 s2 ->
    sim (assemble_signed_20bit_immediate e1 s1) (assemble_signed_20bit_immediate e2 s2).
  Proof. intros s1 s2 H. unfold assemble_signed_20bit_immediate. go. Qed.

  Lemma sim_bits : forall (f : st -> res st) (g : st -> res st) m s1 s2, RS s1 s2 ->
    relres D lax RS (if e_asserts e1 then Abort m else Ok s1) (if e_asserts e2 then Abort m else Ok s2).
  Proof.
    intros _ _ m s1 s2 H. destruct env_asserts as [-> | (-> & ->)].
    - destruct (e_asserts e2); cbn; auto.
    - destruct (e_asserts e1); cbn; auto.
  Qed.

  Lemma sim_fimm : forall b s1 s2, RS s1 s2 ->
    sim (assemble_float_immediate e1 b s1) (assemble_float_immediate e2 b s2).
  Proof.
    intros b s1 s2 H. unfold assemble_float_immediate. go.
    apply (sim_bits (fun x => Ok x) (fun x => Ok x)); auto.
  Qed.
  Lemma sim_dimm : forall s1 s2, RS s1 s2 ->
    sim (assemble_double_immediate e1 s1) (assemble_double_immediate e2 s2).
  Proof. intros s1 s2 H. unfold assemble_double_immediate. go. Qed.
  Lemma sim_half : forall b o n s1 s2, RS s1 s2 ->
    sim (assemble_half_float_immediate e1 b o n s1) (assemble_half_float_immediate e2 b o n s2).
  Proof.
    intros b o n s1 s2 H. unfold assemble_half_float_immediate. go;
    apply (sim_bits (fun x => Ok x) (fun x => Ok x)); auto.
  Qed.
  Lemma sim_cbuf : forall s1 s2, RS s1 s2 ->
    sim (assemble_constant_buffer e1 s1) (assemble_constant_buffer e2 s2).
  Proof.
    intros s1 s2 H. unfold assemble_constant_buffer. go.
  Qed.
  Lemma sim_uint : forall m a s1 s2, RS s1 s2 -> sim (assemble_uint e1 m a s1) (assemble_uint e2 m a s2).
  Proof. intros m a s1 s2 H. unfold assemble_uint. go. Qed.
  Lemma sim_int : forall m a s1 s2, RS s1 s2 -> sim (assemble_int e1 m a s1) (assemble_int e2 m a s2).
  Proof. intros m a s1 s2 H. unfold assemble_int. go. Qed.
  Lemma sim_label : forall s1 s2, e_pc e1 = e_pc e2 -> RS s1 s2 -> sim (run_label e1 s1) (run_label e2 s2).
  Proof.
    intros s1 s2 env_pc H. unfold run_label. rewrite env_pc. norm. sim1.
    - destruct (s_kind s1); try rewrite env_labels; go.
    - go; unfold sub64; go.
  Qed.
  Lemma sim_mirror : forall a s1 s2, RS s1 s2 -> sim (run_mirror_dgpr e1 a s1) (run_mirror_dgpr e2 a s2).
  Proof.
    intros a s1 s2 H. unfold run_mirror_dgpr. norm. sim1.
    - apply sim_gpr. apply RS_set; auto.
    - go.
  Qed.
  Lemma sim_memory : forall i a z h s1 s2, RS s1 s2 ->
    sim (run_memory_address e1 i a z h s1) (run_memory_address e2 i a z h s2).
  Proof. intros i a z h s1 s2 H. unfold run_memory_address. go. Qed.

  Ltac sim3 :=
    lazymatch goal with
    | |- relres _ _ _ (assemble_gpr _ _ _) (assemble_gpr _ _ _) => apply sim_gpr; auto
    | |- relres _ _ _ (assemble_uint _ _ _ _) (assemble_uint _ _ _ _) => apply sim_uint; auto
    | |- relres _ _ _ (assemble_int _ _ _ _) (assemble_int _ _ _ _) => apply sim_int; auto
    | |- relres _ _ _ (run_memory_address _ _ _ _ _ _) (run_memory_address _ _ _ _ _ _) =>
        apply sim_memory; auto
    | _ => sim2
    end.
  Ltac go3 := norm; repeat sim3.

  (** The relation holds behind a ';' too. *)
  Definition endless : Prop := forall c1 t1 c2 t2, RC c1 t1 c2 t2 -> R0 c1 c2.
  Lemma sim_advance_endless : forall s1 s2, endless -> RS s1 s2 -> sim (advance_tok s1) (advance_tok s2).
  Proof.
    intros s1 s2 E (H & O). unfold advance_tok. eapply relres_bind.
    - apply R0_tokenize. eapply E; eauto.
    - intros (t1, c1) (t2, c2) HT. split; auto.
  Qed.
  (** What the relation has to offer for an operand, and for a form. *)
  Definition fits (o : opnd) : Prop :=
    (semi_free o = true \/ endless) /\ (place_free o = true \/ e_pc e1 = e_pc e2).
  Definition fits_form (i : insn) : Prop := forall o, In o (i_operands i) -> fits o.
  Lemma fits_all : endless -> e_pc e1 = e_pc e2 -> forall i, fits_form i.
  Proof. intros E P i o _. split; right; assumption. Qed.
  Lemma sim_operand : forall o s1 s2, fits o -> RS s1 s2 -> sim (run_operand e1 o s1) (run_operand e2 o s2).
  Proof.
    induction o; intros s1 s2 (SF & PF) H; cbn [run_operand].
    - unfold run_comma. go3.
    - unfold assemble_flag. go3.
    - go3.
    - go3.
    - unfold dot_table. go3.
    - unfold req_table. go3.
    - unfold req_text. go3.
    - unfold req_text_after. go3.
    - unfold opt_text. go3.
    - unfold run_uimm_extended. go3.
    - apply sim_label; auto. destruct PF as [PF|PF]; [discriminate|exact PF].
    - go3.
    - apply sim_mirror; auto.
    - apply sim_cbuf; auto.
    - apply sim_imm20; auto.
    - apply sim_fimm; auto.
    - apply sim_dimm; auto.
    - apply sim_half; auto.
    - unfold run_pred. go3.
    - unfold run_inverted_pred. go3.
    - unfold opt_type. norm. destruct (ttype_eqb (type_of (s_kind s1)) ty) eqn:T; [|exact H]. sim1; [go3|]. destruct SF as [SF|SF].
      + apply sim_advance; [auto|]. apply (put_semi _ _ _ _ H0). apply (type_semi _ _ T). intros ->. discriminate.
      + apply sim_advance_endless; assumption.
    - unfold run_abs. assert (FI : fits o) by (split; assumption). go3; auto.
    - unfold run_po. go3.
    - go3.
    - go3.
    - unfold assemble_cc_tests. go3.
    - unfold run_imm_attr. go3.
    - unfold run_patch_attr. go3.
    - unfold run_phys_attr. go3.
    - unfold run_xmad_signs. go3.
    - unfold run_f2f_rounding. go3.
    - unfold run_int_format. go3.
    - unfold run_ldc_address. go3.
    - unfold run_s2r. go3.
    - unfold run_ldg_size. go3.
    - unfold run_selector. go3.
    - unfold run_atomic_size. go3.
    - unfold run_src_format. go3.
    - unfold run_tex_type. go3.
    - unfold run_zero. go3.
    - unfold run_texs_mode. go3.
    - unfold run_tlds_type. go3.
    - unfold run_texs_type. go3.
    - unfold run_texs_swizzle. go3.
  Qed.

  (** ** The rest of the instruction *)

  Lemma sim_sched_int : forall mx m s1 s2, RS s1 s2 -> s_kind s1 <> TSemi ->
    relres D lax RNS (sched_int s1 mx m) (sched_int s2 mx m).
  Proof. intros mx m s1 s2 H NS. unfold sched_int. go3. auto. Qed.

  Lemma sim_sched_loop : forall n v s1 s2, RS s1 s2 ->
    sim (assemble_sched_loop n v s1) (assemble_sched_loop n v s2).
  Proof.
    induction n as [|n IH]; intros v s1 s2 H; cbn [assemble_sched_loop]; [exact I|].
    norm. destruct (negb _) eqn:AT.
    { split; cbn; [apply H|]. reflexivity. }
    apply negb_false_iff in AT.
    assert (NS : s_kind s1 <> TSemi) by (apply (type_semi _ _ AT); discriminate).
    repeat first [apply sim_sched_int; [auto|notsemi] | apply IH; solve [auto] | sim1].
  Qed.

  Lemma sim_sched : forall s1 s2, RS s1 s2 -> sim (assemble_sched s1) (assemble_sched s2).
  Proof.
    intros s1 s2 H.
    set (n := S (Nat.max (len (s_cur s1)) (len (s_cur s2)))).
    rewrite (assemble_sched_fuel n s1), (assemble_sched_fuel n s2) by (unfold n; lia).
    apply sim_sched_loop; auto.
  Qed.

  Definition RA (a1 a2 : attempt) : Prop :=
    match a1, a2 with
    | Parsed s1, Parsed s2 => RS s1 s2
    | Failed d1 n1, Failed d2 n2 => D d1 d2 /\ n1 = n2
    | _, _ => False
    end.

  Lemma sim_scored : forall n m1 m2 k1 k2, sim m1 m2 ->
    (forall s1 s2, RS s1 s2 -> relres D lax RA (k1 s1) (k2 s2)) ->
    relres D lax RA (scored n m1 k1) (scored n m2 k2).
  Proof.
    intros n m1 m2 k1 k2 H K.
    destruct m1 as [a1|d1|d1|w1|u1|], m2 as [a2|d2|d2|w2|u2|];
      try exact (K _ _ H); try exact H; try (exfalso; exact H).
    - split; auto.
    - cbn in H |- *. destruct (k2 a2); auto.
  Qed.

  Lemma sim_operands : forall ops n s1 s2 k1 k2, (forall o, In o ops -> fits o) -> RS s1 s2 ->
    (forall n s1 s2, RS s1 s2 -> relres D lax RA (k1 n s1) (k2 n s2)) ->
    relres D lax RA (run_operands e1 ops n s1 k1) (run_operands e2 ops n s2 k2).
  Proof.
    induction ops as [|o ops IH]; intros n s1 s2 k1 k2 SF H K; cbn [run_operands]; auto.
    apply sim_scored; [apply sim_operand; [apply SF; left; reflexivity|auto]|]. intros; apply IH; auto.
    intros x X. apply SF. right. exact X.
  Qed.

  Lemma sim_insn : forall i c1 c2 op, fits_form i -> R0 c1 c2 ->
    relres D lax RA (parse_insn e1 i c1 op) (parse_insn e2 i c2 op).
  Proof.
    intros i c1 c2 op SF H. unfold parse_insn.
    eapply relres_bind; [apply sim_add_bits|]. intros op1 ? <-.
    eapply relres_bind; [apply R0_tokenize; auto|].
    intros (t1, c1') (t2, c2') HT. red in HT; cbn [fst snd] in HT.
    destruct (_ && _).
    { split; auto. eapply RC_diag; eauto. }
    apply sim_operands; [exact SF|split; auto|].
    intros n s1 s2 HS. apply sim_scored; [apply sim_sched; auto|].
    intros s1' s2' HS'. apply sim_scored; [apply sim_confirm; auto|].
    intros; auto.
  Qed.

  Definition RB (b1 b2 : option (diag * Z)) : Prop :=
    match b1, b2 with
    | Some (d1, n1), Some (d2, n2) => D d1 d2 /\ n1 = n2
    | None, None => True
    | _, _ => False
    end.

  (** The mnemonic tokens [t1], [t2] need not be followed by anything related. *)
  Lemma sim_table : forall tbl t1 t2 c1 c2 op b1 b2,
    (forall i, In i tbl -> equal t1 (i_mnemonic i) = true -> fits_form i) ->
    kind t1 = kind t2 -> (forall m, D (diag_at t1 m) (diag_at t2 m)) -> R0 c1 c2 -> RB b1 b2 ->
    sim (parse_table e1 tbl t1 c1 op b1) (parse_table e2 tbl t2 c2 op b2).
  Proof.
    induction tbl as [|i tbl IH]; intros t1 t2 c1 c2 op b1 b2 SF K HD HC HB; cbn [parse_table].
    - rewrite K. destruct b1 as [(d1, n1)|], b2 as [(d2, n2)|]; cbn in HB |- *; intuition.
    - assert (SF2 : forall i, In i tbl -> equal t1 (i_mnemonic i) = true -> fits_form i) by (intros x X; apply SF; right; exact X).
      replace (equal t2 (i_mnemonic i)) with (equal t1 (i_mnemonic i))
        by (unfold equal; rewrite K; reflexivity).
      destruct (equal t1 (i_mnemonic i)) eqn:EQ; cbn [negb]; [|apply IH; auto].
      eapply relres_bind; [apply sim_insn; auto; apply SF; [left; reflexivity|exact EQ]|].
      intros [s1|d1 n1] [s2|d2 n2] HA; cbn in HA; try contradiction; [exact HA|].
      destruct HA as (HA & <-). apply IH; auto.
      destruct b1 as [(x1, y1)|], b2 as [(x2, y2)|]; cbn in HB; try contradiction; [|cbn; auto].
      destruct HB as (HB & <-). destruct (_ <? _); cbn; auto.
  Qed.
End Param.
