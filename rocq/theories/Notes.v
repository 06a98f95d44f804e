(** * Notes: the scheduling annotations against their description. *)
From Verif Require Import Base Float Lexer Operand Catalogue Table Parse Spec SpecOperand Bits LexFacts
  SchedFuel ParseFacts Decode Footprint Operands Encode.
From Coq Require Import Lia.
Local Open Scope string_scope.
Local Open Scope list_scope.
Open Scope Z_scope.

(** ** One annotation *)

Lemma some_eq : forall (A : Type) (a b : A), Some a = Some b -> a = b.
Proof. intros A a b H. now injection H. Qed.

Definition within (n mx : Z) : bool := (0 <=? n) && (n <=? mx).
Definition apply_note (v : sched_vars) (x : note) : option sched_vars :=
  match x with
  | Stall n =>
      match v_stall v with
      | None => if within n 15 then Some (Sched (Some (Z.to_N n)) (v_write v) (v_read v) (v_wait v) (v_yield v)) else None
      | Some _ => None
      end
  | WriteBarrier n =>
      match v_write v with
      | None => if within n 5 then Some (Sched (v_stall v) (Some (Z.to_N n)) (v_read v) (v_wait v) (v_yield v)) else None
      | Some _ => None
      end
  | ReadBarrier n =>
      match v_read v with
      | None => if within n 5 then Some (Sched (v_stall v) (v_write v) (Some (Z.to_N n)) (v_wait v) (v_yield v)) else None
      | Some _ => None
      end
  | Yield => if v_yield v then None else Some (Sched (v_stall v) (v_write v) (v_read v) (v_wait v) true)
  | Wait n =>
      if within n 5 then
        if N.testbit (v_wait v) (Z.to_N n) then None
        else Some (Sched (v_stall v) (v_write v) (v_read v) (N.lor (v_wait v) (N.shiftl 1 (Z.to_N n))) (v_yield v))
      else None
  end.
Fixpoint apply_notes (v : sched_vars) (l : list note) : option sched_vars :=
  match l with
  | [] => Some v
  | x :: l => match apply_note v x with Some v' => apply_notes v' l | None => None end
  end.

Lemma sched_int_iff : forall c t op mx msg n c' t' op',
  sched_int (St c t op) mx msg = Ok (n, St c' t' op') <->
  exists z, tokenize c = Ok (t', c') /\ kind t' = TImm z /\ within z mx = true /\ n = Z.to_N z /\ op' = op.
Proof.
  intros c t op mx msg n c' t' op'. unfold sched_int, within. split.
  - intros H. unfold advance_tok, confirm_type in H. cbn [s_cur s_op] in H.
    destruct (tokenize c) as [(t1, c1)| | | | |] eqn:E; try discriminate H. cbn [bind] in H.
    unfold s_kind in H. cbn [s_tok bind] in H. destruct (kind t1) as [| | | |z| | | | | | | | | |] eqn:K; try discriminate H.
    cbn [bind type_of ttype_eqb s_tok] in H. rewrite K in H.
    destruct (Z.ltb_spec z 0); cbn [orb] in H; [discriminate|]. destruct (Z.ltb_spec mx z); [discriminate|].
    inversion H; subst. exists z. repeat split; auto. apply andb_true_iff. split; apply Z.leb_le; lia.
  - intros (z & E & K & W & -> & ->). apply andb_true_iff in W as (W1 & W2). apply Z.leb_le in W1, W2. gg.
    destruct (Z.ltb_spec z 0); [lia|]. destruct (Z.ltb_spec mx z); [lia|]. reflexivity.
Qed.
Lemma wait_bit : forall w n, negb (N.eqb (N.land w (N.shiftl 1 n)) 0) = N.testbit w n.
Proof.
  intros w n. rewrite N.shiftl_1_l.
  assert (E : N.land w (2 ^ n) = if N.testbit w n then (2 ^ n)%N else 0%N).
  { apply N.bits_inj. intros k. rewrite N.land_spec, N.pow2_bits_eqb. destruct (N.eqb_spec n k) as [<-|H].
    - rewrite andb_true_r. destruct (N.testbit w n); [|reflexivity]. now rewrite N.pow2_bits_true.
    - rewrite andb_false_r. destruct (N.testbit w n); [|reflexivity]. now rewrite N.pow2_bits_false. }
  rewrite E. destruct (N.testbit w n); [|reflexivity].
  destruct (N.eqb_spec (2 ^ n) 0) as [Q|Q]; [|reflexivity]. exfalso. eapply N.pow_nonzero; [|exact Q]. discriminate.
Qed.

Lemma round_iff : forall n v c t op s', kind t = TAt ->
  (assemble_sched_loop (Datatypes.S n) v (St c t op) = Ok s' <->
   exists x ks v' t1 c1, note_tokens x ks /\ reads t c ks t1 c1 /\ apply_note v x = Some v' /\
     assemble_sched_loop n v' (St c1 t1 op) = Ok s').
Proof.
  intros n v c t op s' K. cbn [assemble_sched_loop]. unfold s_kind at 1. cbn [s_tok]. rewrite K. cbn [type_of ttype_eqb negb].
  unfold advance_tok at 1. cbn [s_cur s_op].
  assert (AN : forall c t op, advance_tok (St c t op) = let* (t1, c1) := tokenize c in Ok (St c1 t1 op)) by reflexivity.
  split.
  - intros H. destruct (tokenize c) as [(t1, c1)| | | | |] eqn:E; try discriminate H. cbn [bind s_tok] in H.
    assert (SI : forall mx msg (k : N -> st -> res st), (let* (n, s) := sched_int (St c1 t1 op) mx msg in k n s) = Ok s' ->
      exists z t2 c2, tokenize c1 = Ok (t2, c2) /\ kind t2 = TImm z /\ within z mx = true /\ k (Z.to_N z) (St c2 t2 op) = Ok s').
    { intros mx msg k Q. apply bind_ok in Q as ((m, [c2 t2 op2]) & Q1 & Q2).
      apply sched_int_iff in Q1 as (z & E1 & K1 & W & -> & ->). exists z, t2, c2. auto. }
    destruct (equal t1 "WAIT") eqn:EW; [apply equal_iff in EW|].
    { destruct (v_stall v) eqn:V; [discriminate|]. apply SI in H as (z & t2 & c2 & E2 & K2 & W & H).
      rewrite AN in H. destruct (tokenize c2) as [(t3, c3)| | | | |] eqn:E3; try discriminate H. cbn [bind] in H.
      eexists (Stall z), _, _, t3, c3. split; [reflexivity|]. split; [mk|]. split; [|exact H].
      cbn [apply_note]. rewrite V, W. reflexivity. }
    destruct (equal t1 "WB") eqn:EB; [apply equal_iff in EB|]; cbn [orb] in H.
    { destruct (v_write v) eqn:V; [discriminate|]. apply SI in H as (z & t2 & c2 & E2 & K2 & W & H).
      rewrite AN in H. destruct (tokenize c2) as [(t3, c3)| | | | |] eqn:E3; try discriminate H. cbn [bind] in H.
      eexists (WriteBarrier z), _, _, t3, c3. split; [reflexivity|]. split; [mk|]. split; [|exact H].
      cbn [apply_note]. rewrite V, W. reflexivity. }
    destruct (equal t1 "RB") eqn:ER; [apply equal_iff in ER|]; cbn [orb] in H.
    { destruct (v_read v) eqn:V; [discriminate|]. apply SI in H as (z & t2 & c2 & E2 & K2 & W & H).
      rewrite AN in H. destruct (tokenize c2) as [(t3, c3)| | | | |] eqn:E3; try discriminate H. cbn [bind] in H.
      eexists (ReadBarrier z), _, _, t3, c3. split; [reflexivity|]. split; [mk|]. split; [|exact H].
      cbn [apply_note]. rewrite V, W. reflexivity. }
    destruct (equal t1 "Y" || equal t1 "YIELD") eqn:EY.
    { destruct (v_yield v) eqn:V; [discriminate|]. rewrite AN in H.
      destruct (tokenize c1) as [(t2, c2)| | | | |] eqn:E2; try discriminate H. cbn [bind] in H.
      exists Yield. apply orb_true_iff in EY.
      destruct EY as [EY|EY]; apply equal_iff in EY;
        [exists [TAt; id "Y"]|exists [TAt; id "YIELD"]]; eexists _, t2, c2; (split; [cbn; auto|]); (split; [mk|]);
        cbn [apply_note]; rewrite V; auto. }
    destruct (equal t1 "DEP") eqn:ED; [apply equal_iff in ED|discriminate].
    apply SI in H as (z & t2 & c2 & E2 & K2 & W & H). cbv zeta in H. rewrite wait_bit in H.
    destruct (N.testbit (v_wait v) (Z.to_N z)) eqn:V; [discriminate|].
    rewrite AN in H. destruct (tokenize c2) as [(t3, c3)| | | | |] eqn:E3; try discriminate H. cbn [bind] in H.
    eexists (Wait z), _, _, t3, c3. split; [reflexivity|]. split; [mk|]. split; [|exact H].
    cbn [apply_note]. rewrite V, W. reflexivity.
  - intros (x & ks & v' & t1 & c1 & NT & R & A & H).
    assert (SI : forall c t t1 c1 z mx msg (k : N -> st -> res st), tokenize c = Ok (t1, c1) -> kind t1 = TImm z -> within z mx = true ->
      (let* (n, s) := sched_int (St c t op) mx msg in k n s) = k (Z.to_N z) (St c1 t1 op)).
    { intros c0 t0 t2 c2 z mx msg k E1 K1 W.
      rewrite (proj2 (sched_int_iff c0 t0 op mx msg (Z.to_N z) c2 t2 op)) by eauto 8. reflexivity. }
    destruct x as [z|z|z|z|]; cbn [note_tokens] in NT; [subst ks..|destruct NT as [-> | ->]]; rd R;
      match goal with E : tokenize c = Ok _ |- _ => rewrite E end; cbn [bind s_tok]; cbn [apply_note] in A.
    + destruct (v_stall v) eqn:V; [discriminate|]. destruct (within z 15) eqn:W; [|discriminate]. apply some_eq in A as <-.
      rewrite equal_true by known. erewrite SI by eassumption. rewrite AN.
      match goal with E : tokenize ?y = Ok _ |- context [tokenize ?y] => rewrite E end. exact H.
    + destruct (v_write v) eqn:V; [discriminate|]. destruct (within z 5) eqn:W; [|discriminate]. apply some_eq in A as <-.
      rewrite (equal_false _ "WAIT"), equal_true by known. cbn [orb]. erewrite SI by eassumption. rewrite AN.
      match goal with E : tokenize ?y = Ok _ |- context [tokenize ?y] => rewrite E end. exact H.
    + destruct (v_read v) eqn:V; [discriminate|]. destruct (within z 5) eqn:W; [|discriminate]. apply some_eq in A as <-.
      rewrite (equal_false _ "WAIT"), (equal_false _ "WB"), equal_true by known. cbn [orb]. erewrite SI by eassumption. rewrite AN.
      match goal with E : tokenize ?y = Ok _ |- context [tokenize ?y] => rewrite E end. exact H.
    + destruct (within z 5) eqn:W; [|discriminate]. destruct (N.testbit (v_wait v) (Z.to_N z)) eqn:V; [discriminate|]. apply some_eq in A as <-.
      rewrite (equal_false _ "WAIT"), (equal_false _ "WB"), (equal_false _ "RB"), (equal_false _ "Y"), (equal_false _ "YIELD"), equal_true by known.
      cbn [orb]. erewrite SI by eassumption. cbv zeta. rewrite wait_bit, V, AN.
      match goal with E : tokenize ?y = Ok _ |- context [tokenize ?y] => rewrite E end. exact H.
    + destruct (v_yield v) eqn:V; [discriminate|]. apply some_eq in A as <-.
      rewrite (equal_false _ "WAIT"), (equal_false _ "WB"), (equal_false _ "RB"), (equal_true _ "Y") by known. cbn [orb].
      rewrite AN. match goal with E : tokenize ?y = Ok _ |- context [tokenize ?y] => rewrite E end. exact H.
    + destruct (v_yield v) eqn:V; [discriminate|]. apply some_eq in A as <-.
      rewrite (equal_false _ "WAIT"), (equal_false _ "WB"), (equal_false _ "RB"), (equal_false _ "Y"), (equal_true _ "YIELD") by known. cbn [orb].
      rewrite AN. match goal with E : tokenize ?y = Ok _ |- context [tokenize ?y] => rewrite E end. exact H.
Qed.

(** ** The loop *)

Lemma loop_fwd : forall n v c t op s', assemble_sched_loop n v (St c t op) = Ok s' ->
  exists l ks v' t' c', reads t c ks t' c' /\ notes_tokens l ks /\ apply_notes v l = Some v' /\ kind t' <> TAt /\
    s' = St c' t' (Opcode (value op) (reuse op) (pack_sched v')).
Proof.
  induction n as [|n IH]; intros v c t op s' H; [discriminate|].
  destruct (ttype_eqb (type_of (kind t)) ty_at) eqn:T.
  - assert (K : kind t = TAt) by (destruct (kind t); try discriminate; reflexivity).
    apply round_iff in H as (x & ks & v1 & t1 & c1 & N & R & A & H); [|exact K].
    apply IH in H as (l & ks2 & v' & t' & c' & R2 & N2 & A2 & K2 & ->).
    exists (x :: l), (ks ++ ks2), v', t', c'. split; [eapply reads_app; eauto|]. split; [now constructor|].
    cbn [apply_notes]. rewrite A. auto.
  - cbn [assemble_sched_loop] in H. unfold s_kind in H. cbn [s_tok] in H. rewrite T in H. cbn [negb] in H. injection H as <-.
    exists [], [], v, t, c. split; [constructor|]. split; [constructor|]. split; [reflexivity|]. split; [|reflexivity].
    intros K. rewrite K in T. discriminate.
Qed.
Lemma loop_bwd : forall l n v c t op ks v' t' c', (List.length l < n)%nat ->
  reads t c ks t' c' -> notes_tokens l ks -> apply_notes v l = Some v' -> kind t' <> TAt ->
  assemble_sched_loop n v (St c t op) = Ok (St c' t' (Opcode (value op) (reuse op) (pack_sched v'))).
Proof.
  induction l as [|x l IH]; intros [|n] v c t op ks v' t' c' L R N A K; try (cbn in L; lia); inversion N; subst; clear N.
  - rd R. apply some_eq in A as <-. cbn [assemble_sched_loop]. unfold s_kind. cbn [s_tok].
    destruct (ttype_eqb (type_of (kind t')) ty_at) eqn:T; [|reflexivity].
    exfalso. apply K. destruct (kind t'); try discriminate; reflexivity.
  - cbn [apply_notes] in A. destruct (apply_note v x) as [v1|] eqn:A1; [|discriminate].
    apply reads_split in R as (t1 & c1 & R1 & R2).
    apply round_iff.
    { apply reads_hd in R1. rewrite R1. clear -H1. destruct x; cbn in H1; [subst; reflexivity..|destruct H1; subst; reflexivity]. }
    exists x, k, v1, t1, c1. split; [assumption|]. split; [assumption|]. split; [assumption|].
    eapply IH; eauto. cbn in L. lia.
Qed.
Lemma reads_len : forall t c ks t' c', reads t c ks t' c' -> ~ In TNone ks ->
  (List.length ks <= Datatypes.S (len c))%nat /\ (len c' <= len c)%nat.
Proof.
  intros t c ks t' c' R. induction R as [|t c k t1 c1 ks t' c' K E R IH]; cbn [List.length]; intros N; [lia|].
  apply tokenize_len in E as (L1 & L2). destruct IH as (L3 & L4); [intros I; apply N; now right|].
  destruct ks as [|k2 ks]; [cbn in *; lia|]. inversion R; subst.
  specialize (L2 ltac:(intros Q; apply N; right; left; exact Q)). lia.
Qed.
Lemma notes_tokens_len : forall l ks, notes_tokens l ks -> (2 * List.length l <= List.length ks)%nat /\ ~ In TNone ks.
Proof.
  intros l ks N. induction N as [|x l k ks T N IH]; [cbn; auto|]. rewrite app_length. destruct IH as (L & IH). cbn [List.length].
  destruct x; cbn [note_tokens] in T; [subst k..|destruct T as [-> | ->]]; cbn [List.length List.app]; (split; [lia|]);
    intros I; cbn in I; intuition discriminate.
Qed.
Lemma sched_iff : forall c t op s', assemble_sched (St c t op) = Ok s' <->
  exists l ks v' t' c', reads t c ks t' c' /\ notes_tokens l ks /\ apply_notes sched0 l = Some v' /\ kind t' <> TAt /\
    s' = St c' t' (Opcode (value op) (reuse op) (pack_sched v')).
Proof.
  intros c t op s'. split; [apply loop_fwd|]. intros (l & ks & v' & t' & c' & R & N & A & K & ->).
  unfold assemble_sched. cbn [s_cur]. eapply loop_bwd; eauto.
  destruct (notes_tokens_len _ _ N) as (L1 & NI). destruct (reads_len _ _ _ _ _ R NI) as (L2 & _). unfold len in L2. lia.
Qed.

(** ** Notes and their record *)

Definition used (v : sched_vars) (x : note) : Prop :=
  match x with
  | Stall _ => v_stall v <> None
  | WriteBarrier _ => v_write v <> None
  | ReadBarrier _ => v_read v <> None
  | Yield => v_yield v = true
  | Wait n => N.testbit (v_wait v) (Z.to_N n) = true
  end.
Lemma within_iff : forall n mx, within n mx = true <-> 0 <= n <= mx.
Proof. intros n mx. unfold within. rewrite andb_true_iff, !Z.leb_le. reflexivity. Qed.
Lemma apply_some : forall v x, (exists v', apply_note v x = Some v') <-> note_range x /\ ~ used v x.
Proof.
  intros v x. destruct x as [n|n|n|n|]; cbn [apply_note note_range used].
  - rewrite <- (within_iff n 15). destruct (v_stall v), (within n 15); split; intros H;
      try (destruct H as (? & H); discriminate H); try (destruct H as (H1 & H2); try discriminate H1; exfalso; apply H2; discriminate);
      [split; [reflexivity|congruence]|eauto].
  - rewrite <- (within_iff n 5). destruct (v_write v), (within n 5); split; intros H;
      try (destruct H as (? & H); discriminate H); try (destruct H as (H1 & H2); try discriminate H1; exfalso; apply H2; discriminate);
      [split; [reflexivity|congruence]|eauto].
  - rewrite <- (within_iff n 5). destruct (v_read v), (within n 5); split; intros H;
      try (destruct H as (? & H); discriminate H); try (destruct H as (H1 & H2); try discriminate H1; exfalso; apply H2; discriminate);
      [split; [reflexivity|congruence]|eauto].
  - rewrite <- (within_iff n 5). destruct (within n 5), (N.testbit (v_wait v) (Z.to_N n)); split; intros H;
      try (destruct H as (? & H); discriminate H); try (destruct H as (H1 & H2); try discriminate H1; exfalso; apply H2; reflexivity);
      [split; [reflexivity|discriminate]|eauto].
  - destruct (v_yield v); split; intros H; try (destruct H as (? & H); discriminate H); eauto.
    destruct H as (_ & H). congruence.
Qed.
Lemma apply_used : forall v x v', apply_note v x = Some v' -> forall y, note_range y -> (used v' y <-> used v y \/ same_note x y).
Proof.
  intros v x v' A y Y. assert (X : note_range x) by (apply (proj1 (apply_some v x)); eauto).
  destruct x as [n|n|n|n|]; cbn [apply_note] in A.
  - destruct (v_stall v) eqn:V; [discriminate|]. destruct (within n 15); [|discriminate]. apply some_eq in A as <-.
    destruct y; cbn [used same_note v_stall v_write v_read v_wait v_yield]; try tauto. intuition congruence.
  - destruct (v_write v) eqn:V; [discriminate|]. destruct (within n 5); [|discriminate]. apply some_eq in A as <-.
    destruct y; cbn [used same_note v_stall v_write v_read v_wait v_yield]; try tauto. intuition congruence.
  - destruct (v_read v) eqn:V; [discriminate|]. destruct (within n 5); [|discriminate]. apply some_eq in A as <-.
    destruct y; cbn [used same_note v_stall v_write v_read v_wait v_yield]; try tauto. intuition congruence.
  - destruct (within n 5); [|discriminate]. destruct (N.testbit _ _) eqn:V; [discriminate|]. apply some_eq in A as <-.
    destruct y as [m|m|m|m|]; cbn [used same_note v_stall v_write v_read v_wait v_yield]; try tauto.
    rewrite N.lor_spec, N.shiftl_1_l, N.pow2_bits_eqb, orb_true_iff, N.eqb_eq. cbn in X, Y.
    assert (Q : Z.to_N n = Z.to_N m <-> n = m) by (split; [lia|congruence]). rewrite Q. tauto.
  - destruct (v_yield v) eqn:V; [discriminate|]. apply some_eq in A as <-.
    destruct y; cbn [used same_note v_stall v_write v_read v_wait v_yield]; try tauto.
Qed.
Lemma notes_range : forall l, notes_ok l -> Forall note_range l.
Proof. intros l H. induction H; constructor; auto. Qed.
Lemma apply_notes_some : forall l v, (exists v', apply_notes v l = Some v') <-> notes_ok l /\ Forall (fun x => ~ used v x) l.
Proof.
  induction l as [|x l IH]; intros v; cbn [apply_notes].
  - split; [intros _; split; constructor|eauto].
  - split.
    + intros (v' & H). destruct (apply_note v x) as [v1|] eqn:A; [|discriminate].
      assert (H' : exists v', apply_notes v1 l = Some v') by eauto. apply IH in H' as (N & U).
      pose proof (notes_range _ N) as NR. pose proof (proj1 (apply_some v x) (ex_intro _ v1 A)) as (X & UX).
      assert (G : Forall (fun y => ~ used v y /\ ~ same_note x y) l).
      { rewrite Forall_forall in *. intros y I. specialize (NR y I). specialize (U y I).
        rewrite (apply_used _ _ _ A y NR) in U. tauto. }
      split; constructor; auto; eapply Forall_impl; try exact G; cbn; tauto.
    + intros (N & U). inversion N; subst. inversion U; subst.
      destruct (proj2 (apply_some v x) (conj H1 H4)) as (v1 & A). rewrite A. apply IH. split; [assumption|].
      pose proof (notes_range _ H3) as NR. rewrite Forall_forall in *. intros y I.
      rewrite (apply_used _ _ _ A y (NR y I)). specialize (H2 y I). specialize (H5 y I). tauto.
Qed.
Lemma unused0 : forall l, Forall (fun x => ~ used sched0 x) l.
Proof. intros l. apply Forall_forall. intros x _. destruct x; cbn; try congruence. Qed.

(** The parts that add up. *)
Definition sum_part (v : sched_vars) : N :=
  (value_or (v_stall v) 0 + (if v_yield v then 16 else 0) + v_wait v * 2 ^ 11)%N.
Definition sum_bits (l : list note) : N := fold_right (fun x acc => (note_bits x + acc)%N) 0%N l.
Lemma apply_vars : forall v x v', apply_note v x = Some v' -> vars_ok v -> vars_ok v'.
Proof.
  intros v x v' A (V1 & V2 & V3 & V4). unfold vars_ok. change (2 ^ 4)%N with 16%N in *. change (2 ^ 3)%N with 8%N in *.
  destruct x as [n|n|n|n|]; cbn [apply_note] in A.
  - destruct (v_stall v); [discriminate|]. destruct (within n 15) eqn:W; [|discriminate]. apply within_iff in W. apply some_eq in A as <-.
    cbn [v_stall v_write v_read v_wait value_or]. repeat split; auto. lia.
  - destruct (v_write v); [discriminate|]. destruct (within n 5) eqn:W; [|discriminate]. apply within_iff in W. apply some_eq in A as <-.
    cbn [v_stall v_write v_read v_wait value_or]. repeat split; auto. lia.
  - destruct (v_read v); [discriminate|]. destruct (within n 5) eqn:W; [|discriminate]. apply within_iff in W. apply some_eq in A as <-.
    cbn [v_stall v_write v_read v_wait value_or]. repeat split; auto. lia.
  - destruct (within n 5) eqn:W; [|discriminate]. apply within_iff in W. destruct (N.testbit _ _); [discriminate|]. apply some_eq in A as <-.
    cbn [v_stall v_write v_read v_wait value_or]. repeat split; auto. apply lor_lt; [exact V4|]. apply pow2_bits_lt. lia.
  - destruct (v_yield v); [discriminate|]. apply some_eq in A as <-. cbn [v_stall v_write v_read v_wait value_or]. auto.
Qed.
Lemma lor_fresh : forall w n, N.testbit w n = false -> N.lor w (N.shiftl 1 n) = (w + 2 ^ n)%N.
Proof.
  intros w n H. rewrite N.shiftl_1_l, N.add_nocarry_lxor, N.lxor_lor; try reflexivity;
    apply N.bits_inj_0; intros k; rewrite N.land_spec, N.pow2_bits_eqb; destruct (N.eqb_spec n k) as [<-|Q];
    rewrite ?H, ?andb_false_r; reflexivity.
Qed.
Lemma apply_sum : forall v x v', apply_note v x = Some v' -> sum_part v' = (sum_part v + note_bits x)%N.
Proof.
  intros v x v' A. unfold sum_part. destruct x as [n|n|n|n|]; cbn [apply_note note_bits] in *.
  - destruct (v_stall v); [discriminate|]. destruct (within n 15); [|discriminate]. apply some_eq in A as <-.
    cbn [v_stall v_yield v_wait value_or]. lia.
  - destruct (v_write v); [discriminate|]. destruct (within n 5); [|discriminate]. apply some_eq in A as <-.
    cbn [v_stall v_yield v_wait value_or]. lia.
  - destruct (v_read v); [discriminate|]. destruct (within n 5); [|discriminate]. apply some_eq in A as <-.
    cbn [v_stall v_yield v_wait value_or]. lia.
  - destruct (within n 5); [|discriminate]. destruct (N.testbit _ _) eqn:T; [discriminate|]. apply some_eq in A as <-.
    cbn [v_stall v_yield v_wait value_or]. rewrite lor_fresh by exact T. rewrite N.pow_add_r. lia.
  - destruct (v_yield v); [discriminate|]. apply some_eq in A as <-. cbn [v_stall v_yield v_wait value_or]. lia.
Qed.
Lemma apply_barriers : forall v x v', apply_note v x = Some v' ->
  v_write v' = match v_write v with Some n => Some n | None => option_map Z.to_N (write_of x) end /\
  v_read v' = match v_read v with Some n => Some n | None => option_map Z.to_N (read_of x) end.
Proof.
  intros v x v' A. destruct x as [n|n|n|n|]; cbn [apply_note] in A;
    repeat match type of A with
    | match ?o with Some _ => _ | None => _ end = _ => destruct o eqn:?
    | (if ?b then _ else _) = _ => destruct b eqn:?
    end; try discriminate; apply some_eq in A as <-; cbn [v_write v_read write_of read_of option_map];
    repeat match goal with |- context [match ?o with Some _ => _ | None => _ end] => destruct o eqn:? end; auto; congruence.
Qed.
Lemma apply_notes_value : forall l v v', apply_notes v l = Some v' -> vars_ok v ->
  vars_ok v' /\ sum_part v' = (sum_part v + sum_bits l)%N /\
  value_or (v_write v') 7 = value_or (v_write v) (barrier_of write_of l) /\
  value_or (v_read v') 7 = value_or (v_read v) (barrier_of read_of l).
Proof.
  induction l as [|x l IH]; intros v v' H V; cbn [apply_notes] in H.
  - injection H as <-. cbn. repeat split; auto; try apply V. lia.
  - destruct (apply_note v x) as [v1|] eqn:A; [|discriminate]. apply IH in H as (H1 & H2 & H3 & H4); [|eapply apply_vars; eauto].
    apply apply_barriers in A as B. destruct B as (B1 & B2). apply apply_sum in A. split; [exact H1|].
    cbn [sum_bits fold_right barrier_of]. fold (sum_bits l). split; [lia|]. rewrite H3, H4, B1, B2.
    destruct (v_write v), (v_read v), (write_of x), (read_of x); auto.
Qed.
Lemma pack_sum : forall v, vars_ok v ->
  pack_sched v = (sum_part v + value_or (v_write v) 7 * 2 ^ 5 + value_or (v_read v) 7 * 2 ^ 8)%N.
Proof.
  intros v (V1 & V2 & V3 & V4). unfold pack_sched, sum_part.
  set (st := value_or (v_stall v) 0%N) in *. set (wb := value_or (v_write v) 7%N) in *.
  set (rb := value_or (v_read v) 7%N) in *. set (wt := v_wait v) in *.
  assert (Y : ((if v_yield v then 1 else 0) < 2)%N) by (destruct (v_yield v); reflexivity).
  replace (if v_yield v then 16%N else 0%N) with ((if v_yield v then 1 else 0) * 16)%N by (destruct (v_yield v); reflexivity).
  set (y := if v_yield v then 1%N else 0%N) in *. clearbody st wb rb wt y.
  change (2 ^ 4)%N with 16%N in *. change (2 ^ 3)%N with 8%N in *. change (2 ^ 6)%N with 64%N in *.
  rewrite !N.lor_assoc.
  rewrite (lor_shift_add st y 4) by (change (2 ^ 4)%N with 16%N; lia).
  rewrite (lor_shift_add _ wb 5) by (change (2 ^ 5)%N with 32%N; change (2 ^ 4)%N with 16%N; lia).
  rewrite (lor_shift_add _ rb 8) by (change (2 ^ 8)%N with 256%N; change (2 ^ 5)%N with 32%N; change (2 ^ 4)%N with 16%N; lia).
  rewrite (lor_shift_add _ wt 11)
    by (change (2 ^ 11)%N with 2048%N; change (2 ^ 8)%N with 256%N; change (2 ^ 5)%N with 32%N; change (2 ^ 4)%N with 16%N; lia).
  change (2 ^ 4)%N with 16%N. lia.
Qed.

(** The annotations of an instruction, declaratively. *)
Theorem sched_meets : forall c t op c' t' op',
  assemble_sched (St c t op) = Ok (St c' t' op') <->
  exists l ks, reads t c ks t' c' /\ notes_tokens l ks /\ notes_ok l /\ kind t' <> TAt /\
    op' = Opcode (value op) (reuse op) (notes_record l).
Proof.
  intros c t op c' t' op'. rewrite sched_iff. split.
  - intros (l & ks & v' & t1 & c1 & R & N & A & K & [= <- <- ->]).
    exists l, ks. split; [exact R|]. split; [exact N|].
    split; [apply (proj1 (apply_notes_some l sched0)); eauto|]. split; [exact K|].
    apply apply_notes_value in A as (V & S1 & S2 & S3); [|exact sched0_ok].
    rewrite (pack_sum _ V), S1, S2, S3. reflexivity.
  - intros (l & ks & R & N & O & K & ->).
    destruct (proj2 (apply_notes_some l sched0) (conj O (unused0 l))) as (v' & A).
    exists l, ks, v', t', c'. split; [exact R|]. split; [exact N|]. split; [exact A|]. split; [exact K|].
    apply apply_notes_value in A as (V & S1 & S2 & S3); [|exact sched0_ok].
    rewrite (pack_sum _ V), S1, S2, S3. reflexivity.
Qed.
