(** * Stream: a program is what its tokens say.

    Two texts with the same tokens, read from the same place on, are parsed the
    same way.  With [ex] tokens are compared together with their positions,
    without it only their kinds are. *)
From Verif Require Import Base Float Lexer Operand Catalogue Table Parse Assemble Spec LexFacts SchedFuel Param Reach ParseFacts
  Outcomes Decode Program SpecInsn Operands Insn.
From Coq Require Import Lia.
Local Open Scope char_scope.
Local Open Scope list_scope.
Open Scope Z_scope.

(** What the tokenizer reports next. *)
Inductive event :=
| Read (k : tkind) (pos : option (Z * Z))
| Reject (msg : message) (pos : option (Z * Z))
| Crash (u : ub).
Definition view (ex : bool) (t : token) : event := Read (kind t) (if ex then Some (t_line t, t_col t) else None).
Definition dview (ex : bool) (d : diag) : event := Reject (d_msg d) (if ex then d_pos d else None).

(** The first [n] tokens. *)
Fixpoint stream (ex : bool) (n : nat) (c : cursor) : list event :=
  match n with
  | O => []
  | S n =>
      match tokenize c with
      | Ok (t, c') => view ex t :: stream ex n c'
      | Fatal d => [dview ex d]
      | Undef u => [Crash u]
      | _ => []
      end
  end.
Definition same_stream (ex : bool) (c1 c2 : cursor) : Prop := forall n, stream ex n c1 = stream ex n c2.
Definition same_diag (ex : bool) (d1 d2 : diag) : Prop := dview ex d1 = dview ex d2.
(** Related current tokens. *)
Definition SC (ex : bool) (c1 : cursor) (t1 : token) (c2 : cursor) (t2 : token) : Prop :=
  same_stream ex c1 c2 /\ view ex t1 = view ex t2.

Lemma SC_kind : forall ex c1 t1 c2 t2, SC ex c1 t1 c2 t2 -> kind t1 = kind t2.
Proof. intros ex c1 t1 c2 t2 (_ & H). unfold view in H. injection H as H _. exact H. Qed.
Lemma view_diag : forall ex t1 t2 m, view ex t1 = view ex t2 -> same_diag ex (diag_at t1 m) (diag_at t2 m).
Proof.
  intros ex t1 t2 m H. unfold view, same_diag, dview in *. cbn [diag_at d_msg d_pos].
  destruct ex; [|reflexivity]. injection H as _ H1 H2. rewrite H1, H2. reflexivity.
Qed.
Lemma view_line : forall t1 t2, view true t1 = view true t2 -> t_line t1 = t_line t2.
Proof. intros t1 t2 H. injection H as _ H _. exact H. Qed.

Lemma stream_tokenize : forall ex c1 c2, same_stream ex c1 c2 ->
  relres (same_diag ex) false (RT (SC ex)) (tokenize c1) (tokenize c2).
Proof.
  intros ex c1 c2 H. pose proof (tokenize_outcomes c1) as O1. pose proof (tokenize_outcomes c2) as O2.
  pose proof (H 1%nat) as H1. cbn [stream] in H1.
  destruct (tokenize c1) as [(t1, b1)|d1|d1|w1|u1|] eqn:E1, (tokenize c2) as [(t2, b2)|d2|d2|w2|u2|] eqn:E2;
    try contradiction; try discriminate H1; cbn [relres].
  - split; [|cbn [fst snd]; injection H1; intros E2' E1'; unfold view; rewrite E1', E2'; reflexivity]. cbn [fst snd]. intros n. specialize (H (S n)). cbn [stream] in H.
    rewrite E1, E2 in H. injection H as _ _ H. exact H.
  - unfold same_diag. congruence.
  - congruence.
Qed.

Section Same.
  Variable ex : bool.
  Variables ls1 ls2 : labels.
  Hypothesis same_labels : forall name, find_label ls1 name = find_label ls2 name.
  Notation rel := (relres (same_diag ex) false).

  Lemma stream_table : forall pc a tbl t1 t2 c1 c2 op, view ex t1 = view ex t2 -> same_stream ex c1 c2 ->
    rel (RS (SC ex)) (parse_table (Env ls1 pc a) tbl t1 c1 op None) (parse_table (Env ls2 pc a) tbl t2 c2 op None).
  Proof.
    intros pc a tbl t1 t2 c1 c2 op V H. apply (sim_table (same_stream ex) (SC ex) (same_diag ex) false).
    - intros ? ? ? ? (X & _) _. exact X.
    - apply SC_kind.
    - intros ? ? ? ? m (_ & X). apply view_diag, X.
    - apply stream_tokenize.
    - exact same_labels.
    - left. reflexivity.
    - intros i _ _. apply fits_all; [|reflexivity]. intros ? ? ? ? (X & _). exact X.
    - unfold view in V. injection V as V _. exact V.
    - intros m. apply view_diag, V.
    - exact H.
    - exact I.
  Qed.

  Definition SO (x y : token * cursor * options) : Prop :=
    SC ex (snd (fst x)) (fst (fst x)) (snd (fst y)) (fst (fst y)) /\ snd x = snd y.

  Definition SI (x y : Z * token * cursor) : Prop :=
    fst (fst x) = fst (fst y) /\ SC ex (snd x) (snd (fst x)) (snd y) (snd (fst y)).
  Lemma stream_option_int : forall c1 c2 m, same_stream ex c1 c2 -> rel SI (option_int c1 m) (option_int c2 m).
  Proof.
    intros c1 c2 m H. unfold option_int. eapply relres_bind; [apply stream_tokenize, H|]. intros (t1, b1) (t2, b2) (S1 & V). cbn [fst snd] in *.
    pose proof (SC_kind ex b1 t1 b2 t2 (conj S1 V)) as ->. destruct (kind t2); try apply view_diag, V. split; [reflexivity|]. split; assumption.
  Qed.
  Lemma check_line : forall l t1 t2, (ex = true) -> view ex t1 = view ex t2 ->
    rel eq (check_option_line l t1) (check_option_line l t2).
  Proof.
    intros l t1 t2 -> V. unfold check_option_line. rewrite (view_line _ _ V). destruct (Z.eqb _ _); [reflexivity|]. apply view_diag, V.
  Qed.
  Lemma equal_view : forall t1 t2 x, view ex t1 = view ex t2 -> equal t1 x = equal t2 x.
  Proof. intros t1 t2 x V. unfold view in V. injection V as V _. unfold equal. rewrite V. reflexivity. Qed.
  Lemma stream_type : forall l t1 t2 c1 c2 o, ex = true -> view ex t1 = view ex t2 -> same_stream ex c1 c2 ->
    rel SO (parse_type l t1 c1 o) (parse_type l t2 c2 o).
  Proof.
    intros l t1 t2 c1 c2 o X V H. unfold parse_type. destruct (o_type o); [apply view_diag, V|].
    eapply relres_bind; [apply stream_tokenize, H|]. intros (k1, b1) (k2, b2) (S1 & V1). cbn [fst snd] in *.
    eapply relres_bind; [apply check_line; assumption|]. intros ? ? _. unfold program_type. rewrite !(equal_view k1 k2) by exact V1.
    pose proof (SC_kind ex b1 k1 b2 k2 (conj S1 V1)) as ->.
    repeat match goal with |- context [if ?b then Some _ else _] => destruct b end; try (split; [split; assumption|reflexivity]).
    destruct (string_is_active _); [apply view_diag, V1|reflexivity].
  Qed.
  Lemma stream_option : forall t1 t2 c1 c2 o, ex = true -> view ex t1 = view ex t2 -> same_stream ex c1 c2 ->
    rel SO (parse_option t1 c1 o) (parse_option t2 c2 o).
  Proof.
    intros t1 t2 c1 c2 o X V H. unfold parse_option. assert (EL : t_line t1 = t_line t2) by (subst ex; apply view_line, V).
    rewrite EL. rewrite !(equal_view t1 t2) by exact V.
    apply (relres_bind _ _ _ _ _ _ SO).
    - destruct (equal t2 ".dksh"); [apply stream_type; assumption|]. destruct (equal t2 ".type"); [apply stream_type; assumption|].
      destruct (equal t2 ".num_gprs").
      { eapply relres_bind; [apply stream_tokenize, H|]. intros (k1, b1) (k2, b2) (S1 & V1). cbn [fst snd] in *.
        pose proof (SC_kind ex b1 k1 b2 k2 (conj S1 V1)) as ->. destruct (kind k2); try reflexivity. apply view_diag, V1. }
      destruct (equal t2 ".workgroup_size").
      { eapply relres_bind; [apply stream_option_int, H|]. intros ((x1, k1), b1) ((x2, k2), b2) (E' & S1 & V1). cbn [fst snd] in *. subst.
        eapply relres_bind; [apply stream_option_int, S1|]. intros ((y1, l1), d1) ((y2, l2), d2) (E' & S2 & V2). cbn [fst snd] in *. subst.
        eapply relres_bind; [apply stream_option_int, S2|]. intros ((z1, m1), e1) ((z2, m2), e2) (E' & S3 & V3). cbn [fst snd] in *. subst.
        eapply relres_bind; [apply check_line; assumption|]. intros ? ? _. split; [split; assumption|reflexivity]. }
      destruct (equal t2 ".shared_memory").
      { eapply relres_bind; [apply stream_option_int, H|]. intros ((x1, k1), b1) ((x2, k2), b2) (E' & S1 & V1). cbn [fst snd] in *. subst.
        split; [split; assumption|reflexivity]. }
      destruct (equal t2 ".local_memory").
      { eapply relres_bind; [apply stream_option_int, H|]. intros ((x1, k1), b1) ((x2, k2), b2) (E' & S1 & V1). cbn [fst snd] in *. subst.
        split; [split; assumption|reflexivity]. }
      split; [split; assumption|reflexivity].
    - intros ((k1, b1), o1) ((k2, b2), o2) ((S1 & V1) & E). cbn [fst snd] in *. subst o2.
      eapply relres_bind; [apply stream_tokenize, S1|]. intros (l1, d1) (l2, d2) (S2 & V2). cbn [fst snd] in *.
      assert (EL2 : t_line l1 = t_line l2) by (subst ex; apply view_line, V2). rewrite EL2.
      destruct (Z.eqb _ _); [apply view_diag, V2|]. split; [split; assumption|reflexivity].
  Qed.
  Lemma is_option_view : forall t1 t2, view ex t1 = view ex t2 -> is_option t1 = is_option t2.
  Proof. intros t1 t2 V. unfold view in V. injection V as V _. unfold is_option. rewrite V. reflexivity. Qed.
  Lemma stream_options_fuel : forall n t1 t2 c1 c2 o, ex = true \/ is_option t1 = false ->
    view ex t1 = view ex t2 -> same_stream ex c1 c2 -> rel SO (parse_options n t1 c1 o) (parse_options n t2 c2 o).
  Proof.
    induction n as [|n IH]; intros t1 t2 c1 c2 o X V H; [exact I|]. cbn [parse_options]. rewrite <- (is_option_view _ _ V).
    destruct (is_option t1) eqn:O; [|split; [split; assumption|reflexivity]].
    destruct X as [X|X]; [|discriminate]. eapply relres_bind; [apply stream_option; assumption|].
    intros ((k1, b1), o1) ((k2, b2), o2) ((S1 & V1) & E). cbn [fst snd] in *. subst o2. apply IH; auto.
  Qed.
  Lemma stream_options : forall t1 t2 c1 c2 o, ex = true \/ is_option t1 = false ->
    view ex t1 = view ex t2 -> same_stream ex c1 c2 ->
    rel SO (parse_options (S (S (len c1))) t1 c1 o) (parse_options (S (S (len c2))) t2 c2 o).
  Proof.
    intros t1 t2 c1 c2 o X V H. set (n := (2 + len c1 + len c2)%nat).
    assert (Q : forall t, ((if is_option t then 1 else 0) <= 1)%nat) by (intros t; destruct (is_option t); lia).
    pose proof (Q t1). pose proof (Q t2).
    rewrite (proj1 (parse_options_fuel (S (S (len c1))) n t1 c1 o ltac:(lia) ltac:(unfold n; lia))).
    rewrite (proj1 (parse_options_fuel (S (S (len c2))) n t2 c2 o ltac:(lia) ltac:(unfold n; lia))).
    apply stream_options_fuel; assumption.
  Qed.

  (** ** Instructions *)

  Definition same_ctx (x1 x2 : ctx) : Prop :=
    same_stream ex (c_cur x1) (c_cur x2) /\ c_pc x1 = c_pc x2 /\ c_opts x1 = c_opts x2.
  Definition same_result (r1 r2 : option (ctx * opcode)) : Prop :=
    match r1, r2 with
    | None, None => True
    | Some (x1, o1), Some (x2, o2) => same_ctx x1 x2 /\ o1 = o2
    | _, _ => False
    end.
  (** The instruction does not start with options. *)
  Definition no_option (c : cursor) : Prop := forall t c', tokenize c = Ok (t, c') -> is_option t = false.

  Definition SP (x y : token * cursor * opcode) : Prop :=
    SC ex (snd (fst x)) (fst (fst x)) (snd (fst y)) (fst (fst y)) /\ snd x = snd y.
  Lemma stream_predicate : forall a t1 t2 op s n, view ex t1 = view ex t2 ->
    rel eq (assemble_predicate a t1 op s n) (assemble_predicate a t2 op s n).
  Proof.
    intros a t1 t2 op s n V. unfold assemble_predicate.
    assert (K : kind t1 = kind t2) by (unfold view in V; injection V as V _; exact V). rewrite K.
    destruct (kind t2); try apply view_diag, V. destruct (_ && _); [apply view_diag, V|].
    unfold add_bits. destruct (_ && _); cbn; auto.
  Qed.
  Lemma relres_raise : forall A B (R : A -> B -> Prop) m1 m2, rel R m1 m2 -> rel R (raise m1) (raise m2).
  Proof. intros A B R [] [] H; cbn in *; auto; try contradiction; try discriminate. Qed.

  Theorem stream_instruction : forall tbl a x1 x2 op, same_ctx x1 x2 -> ex = true \/ no_option (c_cur x1) ->
    rel same_result (parse_instruction_with tbl a ls1 x1 op) (parse_instruction_with tbl a ls2 x2 op).
  Proof.
    intros tbl a x1 x2 op (S0 & P & O) X. rewrite !parse_instruction_eq.
    pose proof (stream_tokenize ex _ _ S0) as T.
    destruct (tokenize (c_cur x1)) as [(t1, c1)|d1|d1|w1|u1|] eqn:E1, (tokenize (c_cur x2)) as [(t2, c2)|d2|d2|w2|u2|];
      cbn [bind]; try exact T; try (exfalso; exact T); try discriminate T.
    destruct T as (S1 & V). cbn [fst snd] in *.
    assert (X1 : ex = true \/ is_option t1 = false) by (destruct X as [X|X]; [left; exact X|right; apply (X _ _ E1)]).
    assert (K : kind t1 = kind t2) by (unfold view in V; injection V as V _; exact V). rewrite K. destruct (ttype_eqb _ _); [exact I|].
    unfold rest_of_instruction. rewrite P, O.
    eapply relres_bind; [apply stream_options; assumption|]. intros ((k1, b1), o1) ((k2, b2), o2) ((S2 & V2) & E). cbn [fst snd] in *. subst o2.
    assert (K2 : kind k1 = kind k2) by (unfold view in V2; injection V2 as V2 _; exact V2). rewrite K2.
    apply (relres_bind _ _ _ _ _ _ SP).
    - destruct (ttype_eqb _ _).
      + eapply relres_bind; [apply stream_tokenize, S2|]. intros (l1, e1) (l2, e2) (S3 & V3). cbn [fst snd] in *.
        eapply relres_bind; [apply relres_raise, stream_predicate, V3|]. intros q ? <-.
        eapply relres_bind; [apply stream_tokenize, S3|]. intros (m1, f1) (m2, f2) (S4 & V4). cbn [fst snd] in *.
        split; [split; assumption|reflexivity].
      + eapply (relres_bind _ _ _ _ _ _ eq).
        { unfold add_bits. destruct (_ && _); cbn; auto. }
        intros q ? <-. split; [split; assumption|reflexivity].
    - intros ((l1, e1), q1) ((l2, e2), q2) ((S3 & V3) & E). cbn [fst snd] in *. subst q2.
      assert (K3 : kind l1 = kind l2) by (unfold view in V3; injection V3 as V3 _; exact V3). rewrite K3.
      destruct (kind l2); try apply view_diag, V3.
      eapply relres_bind; [apply stream_table; assumption|]. intros s1 s2 ((S4 & _) & OP).
      split; [|exact OP]. split; [exact S4|]. split; reflexivity.
  Qed.
End Same.

(** ** Programs *)

(** No option stands at the start or after a ';'. *)
Definition plain (c0 : cursor) : Prop := forall ks c, scan c0 ks c -> last ks TSemi = TSemi -> no_option c.

Lemma plain_after : forall c ks c', plain c -> scan c (ks ++ [TSemi]) c' -> plain c'.
Proof.
  intros c ks c' P S ks' c2 S' L. apply (P ((ks ++ [TSemi]) ++ ks') c2); [eapply scan_app; eauto|].
  destruct ks' as [|k ks'] using rev_ind; [rewrite app_nil_r; apply last_last|]. rewrite app_assoc, last_last. rewrite last_last in L. exact L.
Qed.

Lemma instruction_scan : forall a ls x x' op, no_option (c_cur x) ->
  parse_instruction a ls x opcode0 = Ok (Some (x', op)) -> exists ks, scan (c_cur x) (ks ++ [TSemi]) (c_cur x').
Proof.
  intros a ls x x' op N H. apply instruction_meets in H as
    (t & c & t1 & c1 & o & pre & i & post & kg & gi & gn & cm & kf & T & _ & PO & _ & _ & (k0 & ks0 & E & K & S0) & S & F & _).
  cbn [parse_options] in PO. rewrite (N _ _ T) in PO. injection PO as <- <- _.
  destruct F as (ko & kn & _ & _ & _ & -> & _).
  exists (k0 :: ks0 ++ ko ++ kn). rewrite <- K. cbn [app]. econstructor; [exact T|]. rewrite <- !app_assoc. eapply scan_app; [exact S0|].
  exact S.
Qed.

Lemma stream_decode : forall ex ls1 ls2 a max1 max2 n1 n2 idx x1 x2 acc,
  (forall name, find_label ls1 name = find_label ls2 name) -> (a = true -> max1 = max2) ->
  same_ctx ex x1 x2 -> ex = true \/ plain (c_cur x1) ->
  (len (c_cur x1) < n1)%nat -> (len (c_cur x2) < n2)%nat ->
  (idx + semis (rest (c_cur x1)) < max1)%nat -> (idx + semis (rest (c_cur x2)) < max2)%nat ->
  relres (same_diag ex) false eq (decode_loop n1 a ls1 max1 idx x1 acc) (decode_loop n2 a ls2 max2 idx x2 acc).
Proof.
  intros ex ls1 ls2 a max1 max2 n1. induction n1 as [|n1 IH]; intros n2 idx x1 x2 acc L M S P N1 N2 I1 I2; [lia|].
  destruct n2 as [|n2]; [lia|]. cbn [decode_loop].
  rewrite (proj2 (Nat.leb_gt max1 idx)), (proj2 (Nat.leb_gt max2 idx)) by lia.
  assert (X : ex = true \/ no_option (c_cur x1)).
  { destruct P as [P|P]; [left; exact P|right]. apply (P [] (c_cur x1)); [constructor|reflexivity]. }
  pose proof (stream_instruction ex ls1 ls2 L table a x1 x2 opcode0 S X) as T.
  change (parse_instruction_with table) with parse_instruction in T.
  destruct (parse_instruction a ls1 x1 opcode0) as [r1|d1|d1|w1|u1|] eqn:E1, (parse_instruction a ls2 x2 opcode0) as [r2|d2|d2|w2|u2|] eqn:E2;
    cbn [bind]; try exact T; try (exfalso; exact T); try discriminate T.
  destruct r1 as [(y1, o1)|], r2 as [(y2, o2)|]; cbn in T; try contradiction.
  - destruct T as (T & <-). apply instruction_counts in E1 as C1. apply instruction_counts in E2 as C2. unfold len in *.
    apply IH; try assumption; try lia. destruct P as [P|P]; [left; exact P|right].
    destruct X as [X|X]; [|destruct (instruction_scan _ _ _ _ _ X E1) as (ks & SC); eapply plain_after; eauto].
    subst ex. destruct (instruction_scan _ _ _ _ _ (P [] (c_cur x1) (scan_nil _) eq_refl) E1) as (ks & SC); eapply plain_after; eauto.
  - destruct S as (_ & _ & <-). destruct a; [rewrite <- (M eq_refl); destruct (_ && _); cbn; auto|]. reflexivity.
Qed.

Lemma stream_binary : forall ex ls1 ls2 o code, (forall name, find_label ls1 name = find_label ls2 name) ->
  relres (same_diag ex) false eq (binary ls1 o code) (binary ls2 o code).
Proof.
  intros ex ls1 ls2 o code L. replace (binary ls2 o code) with (binary ls1 o code); [apply relres_eq; intros d; reflexivity|].
  unfold binary, write_dksh. rewrite L. reflexivity.
Qed.

Definition start (code : text) : cursor := Cursor code 0 0.
Definition same_labels (ls1 ls2 : labels) : Prop := forall name, find_label ls1 name = find_label ls2 name.

(** Two texts with the same tokens and labels assemble to the same words, or
    fail in the same way. *)
Theorem stream_program : forall ex a code1 code2,
  same_stream ex (start code1) (start code2) -> ex = true \/ plain (start code1) ->
  relres (same_diag ex) false same_labels (generate_labels code1) (generate_labels code2) ->
  (a = true -> semis code1 = semis code2) ->
  relres (same_diag ex) false eq (assemble a code1) (assemble a code2).
Proof.
  intros ex a code1 code2 S P L M. unfold assemble. eapply relres_bind; [exact L|]. intros ls1 ls2 LS.
  apply (relres_bind _ _ _ _ _ _ eq); [|intros (o1, l1) (o2, l2) E; injection E as <- <-; apply stream_binary, LS].
  apply stream_decode; try assumption; rewrite ?count_semi_semis; cbn [c_cur rest]; unfold len; cbn [c_cur rest]; try lia.
  - split; [exact S|]. split; reflexivity.
Qed.
