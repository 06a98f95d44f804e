(** * Sched: the scheduling annotations of whole instructions. *)
From Verif Require Import Base Float Lexer Operand Catalogue Table Parse Spec SpecOperand SpecInsn Bits LexFacts
  SchedFuel ParseFacts Decode Footprint Operands Encode Notes Insn Recover Stream.
From Coq Require Import Lia Permutation.
Local Open Scope string_scope.
Local Open Scope list_scope.
Open Scope Z_scope.

(** ** The record decodes to the annotations *)

(** Two bits or more of [w] hold the value given by a note of [l] that [pick]
    selects, or [d] if there is none. *)
Definition holds (pick : note -> option Z) (d : N) (l : list note) (v : N) : Prop :=
  (forall x n, In x l -> pick x = Some n -> v = Z.to_N n) /\ ((forall x, In x l -> pick x = None) -> v = d).
Definition stall_of (x : note) : option Z := match x with Stall n => Some n | _ => None end.
(** The record [w] says exactly [l]. *)
Definition record_says (w : N) (l : list note) : Prop :=
  (w < 2 ^ 17)%N /\
  holds stall_of 0 l (field w 0 4) /\
  (N.testbit w 4 = true <-> In Yield l) /\
  holds write_of 7 l (field w 5 3) /\
  holds read_of 7 l (field w 8 3) /\
  (forall n, 0 <= n <= 5 -> (N.testbit w (11 + Z.to_N n) = true <-> In (Wait n) l)).

(** What the variables hold after some annotations. *)
Definition gives (pick : note -> option Z) (l : list note) (m : N) : Prop :=
  exists x n, In x l /\ pick x = Some n /\ m = Z.to_N n.
Definition wait_of (x : note) : option Z := match x with Wait n => Some n | _ => None end.
Definition follows (v v' : sched_vars) (l : list note) : Prop :=
  (forall m, v_stall v' = Some m <-> v_stall v = Some m \/ gives stall_of l m) /\
  (forall m, v_write v' = Some m <-> v_write v = Some m \/ gives write_of l m) /\
  (forall m, v_read v' = Some m <-> v_read v = Some m \/ gives read_of l m) /\
  (v_yield v' = true <-> v_yield v = true \/ In Yield l) /\
  (forall m, N.testbit (v_wait v') m = true <-> N.testbit (v_wait v) m = true \/ gives wait_of l m).

Lemma gives_cons : forall pick x l m, gives pick (x :: l) m <-> (exists n, pick x = Some n /\ m = Z.to_N n) \/ gives pick l m.
Proof.
  intros pick x l m. split.
  - intros (y & n & [<-|I] & P & ->); [left; eauto|right; exists y, n; auto].
  - intros [(n & P & ->)|(y & n & I & P & ->)]; [exists x, n|exists y, n]; cbn; auto.
Qed.
Lemma gives_nil : forall pick m, ~ gives pick [] m.
Proof. intros pick m (x & n & [] & _). Qed.
Lemma step_follows : forall v x v', apply_note v x = Some v' -> follows v v' [x].
Proof.
  assert (E : forall pick x m, gives pick [x] m <-> exists n, pick x = Some n /\ m = Z.to_N n).
  { intros pick x m. rewrite gives_cons. split; [intros [H|H]; [exact H|destruct (gives_nil _ _ H)]|auto]. }
  intros v x v' A. unfold follows.
  assert (G : forall P Q R S T : Prop, P -> Q -> R -> S -> T -> P /\ Q /\ R /\ S /\ T) by auto.
  destruct x as [n|n|n|n|]; cbn [apply_note] in A;
    repeat match type of A with
    | match ?o with Some _ => _ | None => _ end = _ => destruct o eqn:?
    | (if ?b then _ else _) = _ => destruct b eqn:?
    end; try discriminate; apply some_eq in A as <-; cbn [v_stall v_write v_read v_wait v_yield];
    (apply G; [intros m; rewrite E; cbn [stall_of]|intros m; rewrite E; cbn [write_of]|intros m; rewrite E; cbn [read_of]
      |cbn [In]|intros m; rewrite E; cbn [wait_of]]);
    try (split; [auto|intros [?|(? & ? & ?)]; [assumption|discriminate]]; fail);
    try (split; [auto|intros [?|[?|[]]]; [assumption|discriminate]]; fail).
  - split; [intros [= <-]; eauto|intros [H|(z & [= <-] & ->)]; [congruence|reflexivity]].
  - split; [intros [= <-]; eauto|intros [H|(z & [= <-] & ->)]; [congruence|reflexivity]].
  - split; [intros [= <-]; eauto|intros [H|(z & [= <-] & ->)]; [congruence|reflexivity]].
  - rewrite N.lor_spec, N.shiftl_1_l, N.pow2_bits_eqb, orb_true_iff, N.eqb_eq. split; intros [H|H]; auto.
    + right. exists n. auto.
    + destruct H as (z & [= <-] & ->). auto.
  - split; auto.
Qed.
Lemma follows_trans : forall v v1 v' x l, follows v v1 [x] -> follows v1 v' l -> follows v v' (x :: l).
Proof.
  assert (E : forall pick x l m (P Q R : Prop), (Q <-> P \/ gives pick [x] m) -> (R <-> Q \/ gives pick l m) ->
    (R <-> P \/ gives pick (x :: l) m)).
  { intros pick x l m P Q R H1 H2. rewrite H2, H1, !gives_cons. pose proof (gives_nil pick m). tauto. }
  intros v v1 v' x l (A1 & A2 & A3 & A4 & A5) (B1 & B2 & B3 & B4 & B5).
  split; [intros m; eapply E; eauto|]. split; [intros m; eapply E; eauto|]. split; [intros m; eapply E; eauto|].
  split; [|intros m; eapply E; eauto]. rewrite B4, A4. cbn [In]. tauto.
Qed.
Lemma notes_follow : forall l v v', apply_notes v l = Some v' -> follows v v' l.
Proof.
  induction l as [|x l IH]; intros v v' H; cbn [apply_notes] in H.
  - injection H as <-. assert (E : forall pick m (P : Prop), P <-> P \/ gives pick [] m).
    { intros pick m P. pose proof (gives_nil pick m). tauto. }
    split; [intros m; apply E|]. split; [intros m; apply E|]. split; [intros m; apply E|]. split; [|intros m; apply E].
    cbn [In]. tauto.
  - destruct (apply_note v x) as [v1|] eqn:A; [|discriminate]. apply step_follows in A. apply IH in H.
    eapply follows_trans; eauto.
Qed.

Lemma pack_fields : forall v, vars_ok v ->
  (pack_sched v < 2 ^ 17)%N /\
  field (pack_sched v) 0 4 = value_or (v_stall v) 0%N /\
  N.testbit (pack_sched v) 4 = v_yield v /\
  field (pack_sched v) 5 3 = value_or (v_write v) 7%N /\
  field (pack_sched v) 8 3 = value_or (v_read v) 7%N /\
  (forall n, N.testbit (pack_sched v) (11 + n) = N.testbit (v_wait v) n).
Proof.
  intros v (V1 & V2 & V3 & V4).
  assert (O : forall x n k, (x < 2 ^ n)%N -> (n <= k)%N -> N.testbit x k = false).
  { intros x n k L K. destruct (N.eqb_spec x 0) as [->|X]; [apply N.bits_0|].
    apply N.bits_above_log2. apply N.log2_lt_pow2; [lia|]. eapply N.lt_le_trans; [exact L|]. apply N.pow_le_mono_r; lia. }
  unfold pack_sched. set (st := value_or (v_stall v) 0%N) in *. set (wb := value_or (v_write v) 7%N) in *.
  set (rb := value_or (v_read v) 7%N) in *. set (wt := v_wait v) in *.
  assert (Y : ((if v_yield v then 1 else 0) < 2 ^ 1)%N) by (destruct (v_yield v); reflexivity).
  assert (YB : N.testbit (if v_yield v then 1%N else 0%N) 0 = v_yield v) by (destruct (v_yield v); reflexivity).
  set (y := if v_yield v then 1%N else 0%N) in *. clearbody st wb rb wt y.
  assert (TB : forall k, N.testbit (N.lor st (N.lor (N.shiftl y 4) (N.lor (N.shiftl wb 5) (N.lor (N.shiftl rb 8) (N.shiftl wt 11))))) k
    = (N.testbit st k || ((4 <=? k) && N.testbit y (k - 4) || ((5 <=? k) && N.testbit wb (k - 5)
      || ((8 <=? k) && N.testbit rb (k - 8) || (11 <=? k) && N.testbit wt (k - 11)))))%N).
  { intros k. rewrite !N.lor_spec.
    assert (SH : forall x a, N.testbit (N.shiftl x a) k = (a <=? k)%N && N.testbit x (k - a)).
    { intros x a. destruct (N.leb_spec a k); [now apply N.shiftl_spec_high'|now apply N.shiftl_spec_low]. }
    rewrite !SH. reflexivity. }
  set (w := N.lor st _) in *. clearbody w.
  assert (B : forall a n x, (x < 2 ^ n)%N -> (forall k, (k < n)%N -> N.testbit w (k + a) = N.testbit x k) -> field w a n = x).
  { intros a n x L K. apply N.bits_inj. intros k. rewrite field_spec. destruct (N.ltb_spec k n) as [H|H].
    - cbn [andb]. apply K. exact H.
    - symmetry. apply (O _ n); assumption. }
  assert (D : forall a k, (a <= k)%N -> (a <=? k)%N = true) by (intros; now apply N.leb_le).
  assert (D' : forall a k, (k < a)%N -> (a <=? k)%N = false) by (intros; now apply N.leb_gt).
  split.
  { destruct (N.eqb_spec w 0) as [->|W]; [reflexivity|]. apply N.log2_lt_pow2; [lia|]. apply N.nle_gt. intros L.
    pose proof (N.bit_log2 w W) as L2. rewrite TB in L2. set (k := N.log2 w) in *. clearbody k.
    rewrite (O st 4%N), (O y 1%N), (O wb 3%N), (O rb 3%N), (O wt 6%N), !andb_false_r in L2 by (assumption || lia). discriminate. }
  split.
  { apply B; [exact V1|]. intros k K. rewrite N.add_0_r, TB. rewrite !D' by lia. cbn [andb]. now rewrite !orb_false_r. }
  split.
  { rewrite TB. rewrite (O st 4%N) by (assumption || lia). exact (eq_trans (orb_false_r _) YB). }
  split.
  { apply B; [exact V2|]. intros k K. rewrite TB. replace (k + 5 - 5)%N with k by lia.
    rewrite (O st 4%N), (O y 1%N), (D 5%N), (D' 8%N), (D' 11%N) by (assumption || lia). rewrite andb_false_r. cbn [orb andb]. apply orb_false_r. }
  split.
  { apply B; [exact V3|]. intros k K. rewrite TB. replace (k + 8 - 8)%N with k by lia.
    rewrite (O st 4%N), (O y 1%N), (O wb 3%N), (D 8%N), (D' 11%N) by (assumption || lia). rewrite !andb_false_r. cbn [orb andb]. apply orb_false_r. }
  intros n. rewrite TB. replace (11 + n - 11)%N with n by lia.
  rewrite (O st 4%N), (O y 1%N), (O wb 3%N), (O rb 3%N), (D 11%N), !andb_false_r by (assumption || lia). reflexivity.
Qed.

Lemma holds_value : forall pick d l o, (forall m, o = Some m <-> gives pick l m) -> holds pick d l (value_or o d).
Proof.
  intros pick d l o H. split.
  - intros x n I P. rewrite (proj2 (H (Z.to_N n))); [reflexivity|exists x, n; auto].
  - intros A. destruct o as [m|]; [|reflexivity]. destruct (proj1 (H m) eq_refl) as (x & n & I & P & _).
    rewrite (A x I) in P. discriminate.
Qed.
Theorem record_decodes : forall l, notes_ok l -> record_says (notes_record l) l.
Proof.
  intros l L. destruct (proj2 (apply_notes_some l sched0) (conj L (unused0 l))) as (v & A).
  pose proof (notes_follow _ _ _ A) as (F1 & F2 & F3 & F4 & F5).
  apply apply_notes_value in A as (V & S1 & S2 & S3); [|exact sched0_ok].
  assert (E : notes_record l = pack_sched v) by (rewrite (pack_sum _ V), S1, S2, S3; reflexivity).
  rewrite E. destruct (pack_fields v V) as (P1 & P2 & P3 & P4 & P5 & P6).
  split; [exact P1|]. rewrite P2, P3, P4, P5.
  assert (G : forall pick o (H : forall m, o = Some m <-> None = Some m \/ gives pick l m) m, o = Some m <-> gives pick l m).
  { intros pick o H m. rewrite H. split; [intros [Q|Q]; [discriminate|exact Q]|auto]. }
  split; [apply holds_value, G, F1|]. split; [rewrite F4; split; [intros [Q|Q]; [discriminate|exact Q]|auto]|].
  split; [apply holds_value, G, F2|]. split; [apply holds_value, G, F3|].
  intros n N. rewrite P6, F5. cbn [sched0 v_wait]. rewrite N.bits_0. split.
  - intros [Q|(x & m & I & W & Q)]; [discriminate|]. destruct x as [z|z|z|z|]; try discriminate W. injection W as ->.
    pose proof (notes_range _ L) as R. rewrite Forall_forall in R. specialize (R _ I). cbn in R. replace n with m by lia. exact I.
  - intros I. right. exists (Wait n), n. auto.
Qed.

(** The record is the only number that says so, and the order is irrelevant. *)
Lemma holds_det : forall pick d l v v', holds pick d l v -> holds pick d l v' -> v = v'.
Proof.
  intros pick d l v v' (A1 & A2) (B1 & B2).
  assert (D : (exists x n, In x l /\ pick x = Some n) \/ forall x, In x l -> pick x = None).
  { clear. induction l as [|x l IH]; [right; intros x []|]. destruct (pick x) as [n|] eqn:P; [left; exists x, n; cbn; auto|].
    destruct IH as [(y & n & I & Q)|IH]; [left; exists y, n; cbn; auto|]. right. intros y [<-|I]; auto. }
  destruct D as [(x & n & I & P)|D]; [rewrite (A1 x n), (B1 x n)|rewrite A2, B2]; auto.
Qed.
Theorem record_unique : forall l w w', record_says w l -> record_says w' l -> w = w'.
Proof.
  intros l w w' (A1 & A2 & A3 & A4 & A5 & A6) (B1 & B2 & B3 & B4 & B5 & B6).
  pose proof (holds_det _ _ _ _ _ A2 B2) as E2. pose proof (holds_det _ _ _ _ _ A4 B4) as E4.
  pose proof (holds_det _ _ _ _ _ A5 B5) as E5.
  assert (F : forall a n k, field w a n = field w' a n -> (a <= k < a + n)%N -> N.testbit w k = N.testbit w' k).
  { intros a n k E K. apply (f_equal (fun x => N.testbit x (k - a))) in E. rewrite !field_spec in E.
    replace (k - a + a)%N with k in E by lia. rewrite (proj2 (N.ltb_lt (k - a) n)) in E by lia. exact E. }
  apply N.bits_inj. intros k.
  assert (T : forall P Q : bool, (P = true <-> Q = true) -> P = Q).
  { intros [] [] [H1 H2]; auto; symmetry; auto. }
  destruct (N.lt_ge_cases k 4); [apply (F 0%N 4%N); [exact E2|lia]|].
  destruct (N.eqb_spec k 4) as [->|]; [apply T; rewrite A3, B3; reflexivity|].
  destruct (N.lt_ge_cases k 8); [apply (F 5%N 3%N); [exact E4|lia]|].
  destruct (N.lt_ge_cases k 11); [apply (F 8%N 3%N); [exact E5|lia]|].
  destruct (N.lt_ge_cases k 17).
  - apply T. replace k with (11 + Z.to_N (Z.of_N (k - 11)))%N by lia. rewrite A6, B6 by lia. reflexivity.
  - assert (O : forall x, (x < 2 ^ 17)%N -> N.testbit x k = false).
    { intros x L. destruct (N.eqb_spec x 0) as [->|X]; [apply N.bits_0|].
      apply N.bits_above_log2. apply N.log2_lt_pow2; [lia|]. eapply N.lt_le_trans; [exact L|]. apply N.pow_le_mono_r; lia. }
    rewrite !O by assumption. reflexivity.
Qed.
Lemma same_sym : forall x y, same_note x y -> same_note y x.
Proof. intros [] []; cbn; auto. Qed.
Lemma notes_ok_perm : forall l l', Permutation l l' -> notes_ok l -> notes_ok l'.
Proof.
  intros l l' P. induction P as [|x l l' P IH|x y l|l1 l2 l3 P1 IH1 P2 IH2]; intros H; auto.
  - inversion H; subst. constructor; auto. rewrite Forall_forall in *. intros y I. apply H3. eapply Permutation_in; [|exact I].
    now apply Permutation_sym.
  - inversion H as [|? ? R1 F1 H1]; subst. inversion H1 as [|? ? R2 F2 H2]; subst.
    pose proof (Forall_inv F1) as N. pose proof (Forall_inv_tail F1) as F3.
    constructor; [exact R2| |]; constructor; auto. intros Q. apply N. now apply same_sym.
Qed.
Theorem notes_order : forall l l', Permutation l l' -> notes_ok l -> notes_ok l' /\ notes_record l' = notes_record l.
Proof.
  intros l l' P H. pose proof (notes_ok_perm _ _ P H) as H'. split; [exact H'|].
  apply (record_unique l'); [now apply record_decodes|]. destruct (record_decodes l H) as (A1 & A2 & A3 & A4 & A5 & A6).
  assert (I : forall x, In x l' <-> In x l).
  { intros x. split; apply Permutation_in; [now apply Permutation_sym|exact P]. }
  assert (G : forall pick d v, holds pick d l v -> holds pick d l' v).
  { intros pick d v (B1 & B2). split; [intros x n J; apply B1, I, J|]. intros B. apply B2. intros x J. apply B, I, J. }
  split; [exact A1|]. split; [apply G, A2|]. split; [rewrite I; exact A3|]. split; [apply G, A4|]. split; [apply G, A5|].
  intros n N. rewrite I. apply A6, N.
Qed.

(** ** Annotations among the tokens of an instruction *)

(** No operand of the table is written with '@' or ';'. *)
Definition marks (k : tkind) : Prop := k = TAt \/ k = TSemi.
Fixpoint mark_free (o : opnd) : bool :=
  match o with
  | OOptType ty _ => negb (ttype_eqb ty ty_at) && negb (ttype_eqb ty ty_semi)
  | OAbs _ inner => mark_free inner
  | _ => true
  end.
Lemma table_mark_free : forallb (fun i => forallb mark_free (i_operands i)) table = true.
Proof. vm_compute. reflexivity. Qed.

Definition unmarked (ks : list tkind) : Prop := Forall (fun k => ~ marks k) ks.
Lemma unmarked_id : forall s, ~ marks (id s).
Proof. intros s [H|H]; discriminate. Qed.
Lemma entry_unmarked : forall tbl p k i, entry tbl p k i -> ~ marks k.
Proof. intros tbl p k i (s & _ & -> & _) [H|H]; discriminate. Qed.
Lemma register_unmarked : forall a ks nx n r, register a ks nx n r -> unmarked ks.
Proof.
  intros a ks nx n r [(-> & _)|(-> & _)]; repeat constructor; try apply unmarked_id; intros [H|H]; discriminate.
Qed.
Lemma signed_unmarked : forall s ks neg, signed_name s ks neg -> unmarked ks.
Proof.
  intros s ks neg [(-> & _)|[(-> & _)|(-> & _)]]; repeat constructor; try apply unmarked_id; intros [H|H]; discriminate.
Qed.
Ltac um := repeat constructor; try apply unmarked_id; try (eapply entry_unmarked; eassumption); try (intros [?|?]; discriminate).
Lemma memory_unmarked : forall imm ad sz sh ks b r, memory imm ad sz sh ks b r -> unmarked ks.
Proof.
  intros imm ad sz sh ks b r (kr & ki & n & o & -> & R & I & _). apply Forall_cons; [um|]. rewrite !Forall_app.
  split; [destruct R as [(-> & _)|[(-> & _)|(-> & _)]]; um|]. split; [destruct I as [(-> & _)|(_ & -> & _)]; um|um].
Qed.
Lemma spells_unmarked : forall lab pc o w ks nx b r, mark_free o = true -> spells lab pc o w ks nx b r -> unmarked ks.
Proof.
  intros lab pc o. induction o; intros w ks nx b r M H; cbn [spells mark_free] in *;
    repeat match goal with
    | H : _ /\ _ |- _ => destruct H
    | H : exists _, _ |- _ => destruct H
    | H : _ \/ _ |- _ => destruct H
    end; subst; try (um; fail).
  all: try (eapply register_unmarked; eassumption).
  all: try (eapply memory_unmarked; eassumption).
  all: try match goal with H : single _ _ |- _ => destruct H as [-> |[(z & -> & _)|[(neg & S & _)|(neg & S & _)]]] end;
    try match goal with H : double _ _ _ |- _ => destruct H as [(f & -> & _)|[(z & -> & _)|[(S & _)|(S & _)]]] end;
    try match goal with H : half _ _ _ _ |- _ => destruct H as [(f & -> & _)|[(z & -> & _)|[(S & _)|(S & _)]]] end;
    try (um; fail); try (eapply signed_unmarked; eassumption).
  - apply andb_true_iff in M as (M1 & M2). constructor; [|constructor]. intros [-> | ->]; discriminate.
  - apply Forall_cons; [um|]. apply Forall_app. split; [eapply IHo; eauto|um].
  - eapply IHo; eauto.
  - do 2 (apply Forall_cons; [um|]). rewrite !Forall_app. split; [eapply register_unmarked; eassumption|]. split; um.
  - do 2 (apply Forall_cons; [um|]). rewrite !Forall_app. split; [eapply register_unmarked; eassumption|]. split; um.
  - do 2 (apply Forall_cons; [um|]). rewrite !Forall_app. split; [eapply register_unmarked; eassumption|um].
  - do 4 (apply Forall_cons; [um|]). eapply memory_unmarked; eassumption.
Qed.
Lemma spell_list_unmarked : forall lab pc nx ops w ks w' r, forallb mark_free ops = true ->
  spell_list lab pc nx ops w ks w' r -> unmarked ks.
Proof.
  intros lab pc nx ops w ks w' r M H. induction H as [|o ops w ks1 ks2 b r1 r2 w' S H IH]; [constructor|].
  cbn [forallb] in M. apply andb_true_iff in M as (M1 & M2). apply Forall_app. split; [exact (spells_unmarked _ _ _ _ _ _ _ _ M1 S)|exact (IH M2)].
Qed.

(** The token after the operands only matters as '@' or ';' do alike. *)
Lemma spells_next : forall lab pc o w ks nx nx' b r, mark_free o = true -> marks nx -> marks nx' ->
  spells lab pc o w ks nx b r -> spells lab pc o w ks nx' b r.
Proof.
  intros lab pc o w ks nx nx' b r M X X' H.
  assert (NI : forall s, nx' <> id s) by (intros s; destruct X' as [-> | ->]; discriminate).
  assert (NE : forall tbl p, no_entry tbl p nx') by (intros tbl p s _; destruct X' as [-> | ->]; discriminate).
  assert (NU : forall l, unlisted l nx') by (intros l s v _; apply NI).
  assert (ND : forall s, nx' <> TIdent ("."%char :: s)) by (intros s; destruct X' as [-> | ->]; discriminate).
  assert (NR : forall a n r, register a ks nx n r -> register a ks nx' n r) by (intros a n r0 [(-> & _ & ->)|Q]; [left|right]; auto).
  revert w ks nx' b r M X X' H NI NE NU ND NR. induction o; intros w ks nx' b r M X X' H NI NE NU ND NR; cbn [spells mark_free] in *;
    try exact H;
    try (destruct H as (H0 & [H1|(H1 & H2)]); (split; [exact H0|]); [left; exact H1|right; intuition eauto]; fail).
  - destruct H as (H0 & H1 & [H2|(H2 & _)]); auto.
  - destruct H as (n & H & H'). eauto.
  - destruct H as (n & H & H'). eauto.
  - destruct H as (H0 & [H1|(H1 & _ & H2)]); (split; [exact H0|]); [left; exact H1|right]. split; [exact H1|]. split; [|exact H2].
    apply andb_true_iff in M as (M1 & M2). intros <-. destruct X' as [-> | ->]; discriminate.
  - destruct H as [H|(H1 & H)]; [left; exact H|right]. split.
    + destruct ks as [|k ks]; [|exact H1]. cbn [hd]. destruct X' as [-> | ->]; discriminate.
    + eapply IHo; eauto.
  - destruct H as (H0 & [H|[(H1 & _ & H2)|H]]); (split; [exact H0|]); [left; exact H|right; left; auto|right; right; exact H].
  - destruct H as (H0 & [H|[H|(H1 & _ & H2)]]); (split; [exact H0|]); [left; exact H|right; left; exact H|right; right; auto].
  - destruct H as (H0 & [H|[H|[H|(H1 & _ & H2)]]]); (split; [exact H0|]); auto 6.
  - destruct H as (H0 & [H|[H|(H1 & _ & _ & H2)]]); (split; [exact H0|]); auto 8.
  - destruct H as (kl & kd & lod & dc & H1 & H2 & H3 & H4 & H5). exists kl, kd, lod, dc. do 3 (split; [assumption|]).
    assert (H5' : kd = [id ".DC"] /\ dc = 4%N \/ kd = [] /\ dc = 0%N /\ nx' <> id ".DC") by (destruct H5 as [H5|(-> & -> & _)]; auto).
    split; [|exact H5']. destruct H4 as [H4|[H4|(-> & -> & H6 & H7)]]; [auto..|]. right. right. split; [reflexivity|]. split; [reflexivity|].
    destruct kd; [cbn [hd]; auto|auto].
Qed.
Lemma spell_list_next : forall lab pc nx nx' ops w ks w' r, forallb mark_free ops = true -> marks nx -> marks nx' ->
  spell_list lab pc nx ops w ks w' r -> spell_list lab pc nx' ops w ks w' r.
Proof.
  intros lab pc nx nx' ops w ks w' r M X X' H. induction H as [|o ops w ks1 ks2 b r1 r2 w' S H IH]; [constructor|].
  cbn [forallb] in M. apply andb_true_iff in M as (M1 & M2). econstructor; [|exact (IH M2)].
  destruct ks2 as [|k ks2]; [|exact S]. cbn [hd] in *. exact (spells_next _ _ _ _ _ _ _ _ _ M1 X X' S).
Qed.

(** ** Reading the annotations off the tokens *)

Lemma note_hd : forall x k, note_tokens x k -> exists k', k = TAt :: k'.
Proof. intros x k H. destruct x; cbn in H; [subst; eauto..|destruct H as [-> | ->]; eauto]. Qed.
Lemma notes_hd : forall l ks, notes_tokens l ks -> marks (hd TSemi ks).
Proof. intros l ks H. inversion H as [|x l' k ks' T N]; [right; reflexivity|]. apply note_hd in T as (k' & ->). left. reflexivity. Qed.
Lemma notes_no_semi : forall l ks, notes_tokens l ks -> ~ In TSemi ks.
Proof.
  intros l ks H. induction H as [|x l k ks T N IH]; [intros []|]. intros I. apply in_app_or in I as [I|I]; [|auto].
  destruct x; cbn in T; [subst..|destruct T as [-> | ->]]; cbn in I; intuition discriminate.
Qed.
Lemma notes_det : forall l ks, notes_tokens l ks -> forall l', notes_tokens l' ks -> l = l'.
Proof.
  intros l ks H. induction H as [|x l k ks T N IH]; intros l' H'.
  - inversion H' as [|x' l2 k' ks' T' N' E1 E2]; [reflexivity|]. apply note_hd in T' as (k2 & ->). discriminate.
  - inversion H' as [E1 E2|x' l2 k' ks' T' N' E1 E2]; subst.
    + apply note_hd in T as (k2 & ->). discriminate.
    + assert (X : x = x' /\ ks = ks').
      { destruct x; cbn in T; [subst k..|destruct T as [-> | ->]]; destruct x'; cbn in T'; try subst k'; try (destruct T' as [-> | ->]);
          cbn [app] in E2; try discriminate; injection E2; intros; subst; auto. }
      destruct X as (-> & ->). f_equal. apply IH. exact N'.
Qed.
(** Where the operands end and the annotations begin. *)
Lemma split_marks : forall a1 b1 a2 b2, unmarked a1 -> unmarked a2 -> marks (hd TSemi b1) -> marks (hd TSemi b2) ->
  a1 ++ b1 ++ [TSemi] = a2 ++ b2 ++ [TSemi] -> a1 = a2 /\ b1 = b2.
Proof.
  assert (HD : forall b, marks (hd TSemi b) -> exists k r, b ++ [TSemi] = k :: r /\ marks k).
  { intros [|k b] H; cbn [app hd] in *; eauto. }
  induction a1 as [|k1 a1 IH]; intros b1 [|k2 a2] b2 U1 U2 M1 M2 E; cbn [app] in E.
  - split; [reflexivity|]. apply app_inv_tail in E. exact E.
  - exfalso. destruct (HD _ M1) as (k & r & Q & K). rewrite Q in E. injection E as -> _. exact (Forall_inv U2 K).
  - exfalso. destruct (HD _ M2) as (k & r & Q & K). rewrite Q in E. injection E as -> _. exact (Forall_inv U1 K).
  - injection E as -> E. destruct (IH b1 a2 b2 (Forall_inv_tail U1) (Forall_inv_tail U2) M1 M2 E) as (-> & ->). auto.
Qed.
Lemma form_free : forall i, In i table -> forallb mark_free (i_operands i) = true.
Proof. intros i I. exact (forallb_in _ _ _ _ table_mark_free I). Qed.

(** The annotations of a form and its other tokens are independent: operands
    without annotations and a correct list of annotations, no more and no less. *)
Theorem form_notes : forall lab pc i gi gn ko kn l op, In i table -> unmarked ko -> notes_tokens l kn ->
  (form_spells lab pc i gi gn (ko ++ kn ++ [TSemi]) op <->
   notes_ok l /\ sched op = notes_record l /\
   form_spells lab pc i gi gn (ko ++ [TSemi]) (Opcode (value op) (reuse op) (notes_record []))).
Proof.
  intros lab pc i gi gn ko kn l op I U N. pose proof (form_free i I) as M. split.
  - intros (ko' & kn' & l' & w & r & E & A & S & N' & O & ->).
    destruct (split_marks _ _ _ _ U (spell_list_unmarked _ _ _ _ _ _ _ _ M S) (notes_hd _ _ N) (notes_hd _ _ N') E) as (<- & <-).
    rewrite (notes_det _ _ N _ N'). split; [exact O|]. split; [reflexivity|]. cbn [value reuse].
    exists ko, [], [], w, r. split; [reflexivity|]. split; [exact A|]. split; [|repeat split; constructor].
    eapply spell_list_next; [exact M|eapply notes_hd; exact N|right; reflexivity|exact S].
  - intros (O & SC & ko' & kn' & l' & w & r & E & A & S & N' & _ & Q).
    destruct (split_marks ko [] ko' kn' U (spell_list_unmarked _ _ _ _ _ _ _ _ M S) (or_intror eq_refl) (notes_hd _ _ N') E) as (<- & <-).
    destruct op as [v ru sc]. cbn [value reuse sched] in *. inversion Q; subst.
    exists ko, kn, l, w, r. split; [reflexivity|]. split; [exact A|]. split; [|auto].
    eapply spell_list_next; [exact M|right; reflexivity|eapply notes_hd; exact N|exact S].
Qed.

(** ** Instructions *)

Lemma scan_same : forall c a k c1 c2, scan c (a ++ [TSemi]) c1 -> scan c (k ++ [TSemi]) c2 -> ~ In TSemi a -> ~ In TSemi k ->
  a = k /\ c1 = c2.
Proof.
  assert (G : forall c a k c1 c2, scan c (a ++ [TSemi]) c1 -> scan c (k ++ [TSemi]) c2 -> ~ In TSemi k ->
    (List.length a <= List.length k)%nat -> a = k /\ c1 = c2).
  { intros c a k c1 c2 S1 S2 NK L. destruct (scan_det _ _ _ S1 _ _ S2) as (r & E & R); [rewrite !app_length; cbn; lia|].
    destruct (exists_last (l := r ++ [TSemi])) as (r' & z & Q); [destruct r; discriminate|].
    destruct r as [|z' r0] using rev_ind.
    - rewrite app_nil_r in E. apply app_inj_tail in E as (-> & _). inversion R; auto.
    - exfalso. clear IHr0 Q. rewrite app_assoc in E. apply app_inj_tail in E as (-> & _). apply NK.
      rewrite !in_app_iff. cbn. auto. }
  intros c a k c1 c2 S1 S2 NA NK. destruct (Nat.le_ge_cases (List.length a) (List.length k)) as [L|L].
  - eapply G; eauto.
  - destruct (G c k a c2 c1 S2 S1 NA L). auto.
Qed.
Lemma unmarked_semi : forall ks, unmarked ks -> ~ In TSemi ks.
Proof. intros ks U I. unfold unmarked in U. rewrite Forall_forall in U. apply (U _ I). right. reflexivity. Qed.

(** An instruction that starts without option and is written with the guard
    [kg], a mnemonic, the tokens [ko] and the annotations [l] is accepted only
    if the annotations are correct, and its record says exactly them. *)
Theorem instruction_notes : forall a ls x r kg gi gn name ko l kn c', no_option (c_cur x) ->
  guard_tokens gi gn kg -> unmarked ko -> notes_tokens l kn ->
  scan (c_cur x) (kg ++ TIdent name :: ko ++ kn ++ [TSemi]) c' ->
  parse_instruction a ls x opcode0 = Ok r ->
  notes_ok l /\ exists x' op, r = Some (x', op) /\ c_cur x' = c' /\ record_says (sched op) l.
Proof.
  intros a ls x r kg gi gn name ko l kn c' NO G U N SC P.
  destruct r as [(x', op)|].
  2:{ exfalso. apply parse_instruction_none in P as (t & c & T & K).
      destruct G as [(-> & _)| ->]; cbn [app] in SC; inversion SC as [|? t2 c2 ? ? T2 SC2]; subst; rewrite T in T2; injection T2 as <- <-; congruence. }
  apply instruction_meets in P as (t & c & t1 & c1 & o & pre & i & post & kg' & gi' & gn' & cm & kf & T & K & O & E & G' & (k0 & ks0 & GE & GK & GS) & S & F & _ & X).
  assert (Q : (t1, c1) = (t, c)).
  { specialize (NO _ _ T). cbn [parse_options] in O. rewrite NO in O. inversion O. reflexivity. }
  injection Q as -> ->.
  assert (I : In i table) by (rewrite E; apply in_elt).
  assert (SC' : scan (c_cur x) (kg' ++ id (i_mnemonic i) :: kf) (c_cur x')).
  { replace (kg' ++ id (i_mnemonic i) :: kf) with ((kg' ++ [id (i_mnemonic i)]) ++ kf) by (rewrite <- app_assoc; reflexivity).
    rewrite GE. cbn [app]. rewrite <- GK. econstructor; [exact T|]. eapply scan_app; eassumption. }
  pose proof F as (ko' & kn' & l' & w & ru & -> & _ & SP & N' & O' & ->).
  assert (U' : unmarked ko') by exact (spell_list_unmarked _ _ _ _ _ _ _ _ (form_free i I) SP).
  assert (NG : forall kg gi gn, guard_tokens gi gn kg -> ~ In TSemi kg).
  { intros k1 g1 g2 [(-> & _)| ->]; cbn; intuition discriminate. }
  assert (B : kg ++ TIdent name :: ko ++ kn = kg' ++ id (i_mnemonic i) :: ko' ++ kn' /\ c' = c_cur x').
  { apply (scan_same (c_cur x)).
    - rewrite <- app_assoc. cbn [app]. rewrite <- app_assoc. exact SC.
    - rewrite <- app_assoc. cbn [app]. rewrite <- app_assoc. exact SC'.
    - rewrite in_app_iff. cbn [In]. rewrite in_app_iff. intros [Q|[Q|[Q|Q]]]; [exact (NG _ _ _ G Q)|discriminate|exact (unmarked_semi _ U Q)|exact (notes_no_semi _ _ N Q)].
    - rewrite in_app_iff. cbn [In]. rewrite in_app_iff. intros [Q|[Q|[Q|Q]]]; [exact (NG _ _ _ G' Q)|discriminate|exact (unmarked_semi _ U' Q)|exact (notes_no_semi _ _ N' Q)]. }
  destruct B as (B & ->).
  assert (B2 : ko ++ kn = ko' ++ kn').
  { destruct G as [(-> & _)| ->], G' as [(-> & _)| ->]; cbn [app] in B; try discriminate; injection B; auto. }
  destruct (split_marks ko kn ko' kn' U U' (notes_hd _ _ N) (notes_hd _ _ N')) as (<- & <-); [rewrite !app_assoc, B2; reflexivity|].
  rewrite (notes_det _ _ N _ N'). split; [exact O'|]. exists x', (Opcode w ru (notes_record l')).
  split; [reflexivity|]. split; [reflexivity|]. apply record_decodes. exact O'.
Qed.
