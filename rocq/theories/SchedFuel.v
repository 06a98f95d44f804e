(** * SchedFuel: the annotation loop and the option loop never run out of fuel. *)
From Verif Require Import Base Float Lexer Operand Catalogue Table Parse LexFacts.
From Coq Require Import Lia.
Open Scope Z_scope.

Definition len (c : cursor) : nat := List.length (rest c).

(** Reading a token never lengthens the rest, and shortens it unless the end
    of the text was reached. *)
Lemma tokenize_len : forall c t c', tokenize c = Ok (t, c') ->
  (len c' <= len c)%nat /\ (kind t <> TNone -> (len c' < len c)%nat).
Proof.
  intros c t c' H. apply tokenize_spec in H as (q & cq & b & M1 & M2 & _ & _ & _ & N & _).
  apply moves_length in M1, M2. unfold len. split; [lia|]. intros K. specialize (N K).
  destruct b; [congruence|]. cbn in M2. lia.
Qed.
Lemma advance_len : forall s s', advance_tok s = Ok s' ->
  (len (s_cur s') <= len (s_cur s))%nat /\ (s_kind s' <> TNone -> (len (s_cur s') < len (s_cur s))%nat).
Proof.
  intros s s' H. unfold advance_tok in H. inv_bind H. destruct x as (t, c). injection H as <-.
  apply tokenize_len in Hx. exact Hx.
Qed.
Lemma equal_not_none : forall t x, equal t x = true -> kind t <> TNone.
Proof. intros t x H E. unfold equal in H. rewrite E in H. discriminate. Qed.

Lemma advance_not_fuel : forall s, advance_tok s <> OutOfFuel.
Proof.
  intros s. unfold advance_tok. pose proof (tokenize_never_out_of_fuel (s_cur s)).
  destruct (tokenize (s_cur s)) as [(t, c)|e|d|w|u|]; cbn; congruence.
Qed.
Lemma sched_int_len : forall s mx m n s', sched_int s mx m = Ok (n, s') ->
  (len (s_cur s') <= len (s_cur s))%nat.
Proof.
  intros s mx m n s' H. unfold sched_int in H. inv_bind H. apply advance_len in Hx as (L & _).
  inv_bind H. unfold confirm_type in Hx. destruct (ttype_eqb _ _); [|discriminate].
  injection Hx as <-. destruct (s_kind x); try discriminate.
  destruct (_ || _); [discriminate|]. injection H as _ <-. exact L.
Qed.
Lemma sched_int_not_fuel : forall s mx m, sched_int s mx m <> OutOfFuel.
Proof.
  intros s mx m. unfold sched_int. pose proof (advance_not_fuel s).
  destruct (advance_tok s); cbn; try congruence.
  unfold confirm_type. destruct (ttype_eqb _ _); cbn; [|discriminate].
  destruct (s_kind a); try discriminate. destruct (_ || _); discriminate.
Qed.

Lemma sched_loop_fuel : forall n m v s,
  (len (s_cur s) < n)%nat -> (len (s_cur s) < m)%nat ->
  assemble_sched_loop n v s = assemble_sched_loop m v s /\ assemble_sched_loop n v s <> OutOfFuel.
Proof.
  induction n as [|n IH]; intros m v s Hn Hm; [lia|]. destruct m as [|m]; [lia|].
  cbn [assemble_sched_loop].
  destruct (negb _); [split; [reflexivity|discriminate]|].
  pose proof (advance_not_fuel s) as NF.
  destruct (advance_tok s) as [s1| | | | |] eqn:E1; cbn [bind]; try (split; [reflexivity|congruence]).
  apply advance_len in E1 as (_ & L1). unfold s_kind in L1.
  Ltac rd L1 := match goal with
    | |- context [sched_int ?s ?mx ?m] =>
        let NI := fresh in pose proof (sched_int_not_fuel s mx m) as NI;
        let E := fresh "E" in
        destruct (sched_int s mx m) as [(?, ?)| | | | |] eqn:E; cbn [bind];
        try (split; [reflexivity|congruence]); apply sched_int_len in E
    | |- context [advance_tok ?s] =>
        let NI := fresh in pose proof (advance_not_fuel s) as NI;
        let E := fresh "E" in
        destruct (advance_tok s) as [?| | | | |] eqn:E; cbn [bind];
        try (split; [reflexivity|congruence]); apply advance_len in E as (? & _)
    | |- context [if ?b then _ else _] => destruct b
    | |- context [match ?b with Some _ => _ | None => _ end] => destruct b
    end.
  destruct (equal (s_tok s1) "WAIT") eqn:Q1.
  { specialize (L1 (equal_not_none _ _ Q1)).
    repeat rd L1; try (split; [reflexivity|discriminate]); apply IH; lia. }
  destruct (equal (s_tok s1) "WB" || equal (s_tok s1) "RB") eqn:Q2.
  { assert (kind (s_tok s1) <> TNone) as K.
    { apply orb_true_iff in Q2 as [Q|Q]; eapply equal_not_none; eauto. }
    specialize (L1 K). destruct (equal (s_tok s1) "WB");
    repeat rd L1; try (split; [reflexivity|discriminate]); apply IH; lia. }
  destruct (equal (s_tok s1) "Y" || equal (s_tok s1) "YIELD") eqn:Q3.
  { assert (kind (s_tok s1) <> TNone) as K.
    { apply orb_true_iff in Q3 as [Q|Q]; eapply equal_not_none; eauto. }
    specialize (L1 K).
    repeat rd L1; try (split; [reflexivity|discriminate]); apply IH; lia. }
  destruct (equal (s_tok s1) "DEP") eqn:Q4.
  { specialize (L1 (equal_not_none _ _ Q4)).
    repeat rd L1; try (split; [reflexivity|discriminate]); apply IH; lia. }
  split; [reflexivity|discriminate].
Qed.

Lemma assemble_sched_fuel : forall n s, (len (s_cur s) < n)%nat ->
  assemble_sched s = assemble_sched_loop n sched0 s.
Proof.
  intros n s H. unfold assemble_sched. apply sched_loop_fuel; unfold len in *; lia.
Qed.
Lemma assemble_sched_not_fuel : forall s, assemble_sched s <> OutOfFuel.
Proof.
  intros s. unfold assemble_sched.
  apply (sched_loop_fuel _ (S (S (len (s_cur s))))); unfold len; lia.
Qed.

(** ** Options *)

Lemma option_int_facts : forall c m,
  option_int c m <> OutOfFuel /\
  forall z t c', option_int c m = Ok (z, t, c') -> (len c' < len c)%nat.
Proof.
  intros c m. unfold option_int. pose proof (tokenize_never_out_of_fuel c) as NF.
  destruct (tokenize c) as [(t, c')| | | | |] eqn:E; cbn; try (split; [congruence|discriminate]).
  apply tokenize_len in E as (_ & L). destruct (kind t) eqn:K; try (split; [discriminate|discriminate]).
  split; [discriminate|]. intros z0 t0 c0 [= _ _ <-]. apply L. discriminate.
Qed.

Lemma parse_type_facts : forall l t c o,
  parse_type l t c o <> OutOfFuel /\
  forall t' c' o', parse_type l t c o = Ok (t', c', o') -> (len c' <= len c)%nat.
Proof.
  intros l t c o. unfold parse_type. destruct (o_type o); [split; discriminate|].
  pose proof (tokenize_never_out_of_fuel c) as NF.
  destruct (tokenize c) as [(t1, c1)| | | | |] eqn:E; cbn [bind]; try (split; [congruence|discriminate]).
  apply tokenize_len in E as (L & _).
  unfold check_option_line. destruct (_ =? _); cbn [bind]; [|split; discriminate].
  destruct (program_type t1).
  - split; [discriminate|]. intros t' c' o' [= _ <- _]. exact L.
  - destruct (string_is_active _); split; discriminate.
Qed.

Lemma parse_option_facts : forall t c o,
  parse_option t c o <> OutOfFuel /\
  forall t' c' o', parse_option t c o = Ok (t', c', o') ->
    (len c' <= len c)%nat /\ (kind t' <> TNone -> (len c' < len c)%nat).
Proof.
  intros t c o. unfold parse_option.
  match goal with |- context [bind ?m _] => set (m0 := m) end.
  assert (F : m0 <> OutOfFuel /\ forall t' c' o', m0 = Ok (t', c', o') -> (len c' <= len c)%nat).
  { subst m0. destruct (equal t ".dksh"); [apply parse_type_facts|].
    destruct (equal t ".type"); [apply parse_type_facts|].
    destruct (equal t ".num_gprs").
    { pose proof (tokenize_never_out_of_fuel c) as NF.
      destruct (tokenize c) as [(t1, c1)| | | | |]; cbn [bind]; try (split; [congruence|discriminate]).
      destruct (kind t1); split; discriminate. }
    destruct (equal t ".workgroup_size").
    { destruct (option_int_facts c "expected workgroup sizes") as (N1 & L1).
      destruct (option_int c _) as [((z1, t1), c1)| | | | |]; cbn [bind]; try (split; [congruence|discriminate]).
      specialize (L1 _ _ _ eq_refl).
      destruct (option_int_facts c1 "expected workgroup sizes") as (N2 & L2).
      destruct (option_int c1 _) as [((z2, t2), c2)| | | | |]; cbn [bind]; try (split; [congruence|discriminate]).
      specialize (L2 _ _ _ eq_refl).
      destruct (option_int_facts c2 "expected workgroup sizes") as (N3 & L3).
      destruct (option_int c2 _) as [((z3, t3), c3)| | | | |]; cbn [bind]; try (split; [congruence|discriminate]).
      specialize (L3 _ _ _ eq_refl).
      unfold check_option_line. destruct (_ =? _); cbn [bind]; [|split; discriminate].
      split; [discriminate|]. intros t' c' o' [= _ <- _]. lia. }
    destruct (equal t ".shared_memory").
    { destruct (option_int_facts c "expected shared memory size") as (N1 & L1).
      destruct (option_int c _) as [((z1, t1), c1)| | | | |]; cbn [bind]; try (split; [congruence|discriminate]).
      specialize (L1 _ _ _ eq_refl). split; [discriminate|]. intros t' c' o' [= _ <- _]. lia. }
    destruct (equal t ".local_memory").
    { destruct (option_int_facts c "expected local memory size") as (N1 & L1).
      destruct (option_int c _) as [((z1, t1), c1)| | | | |]; cbn [bind]; try (split; [congruence|discriminate]).
      specialize (L1 _ _ _ eq_refl). split; [discriminate|]. intros t' c' o' [= _ <- _]. lia. }
    split; [discriminate|]. intros t' c' o' [= _ <- _]. lia. }
  destruct F as (F & L).
  destruct m0 as [((t1, c1), o1)| | | | |]; cbn [bind]; try (split; [congruence|discriminate]).
  specialize (L _ _ _ eq_refl).
  pose proof (tokenize_never_out_of_fuel c1) as NF.
  destruct (tokenize c1) as [(t2, c2)| | | | |] eqn:E; cbn [bind]; try (split; [congruence|discriminate]).
  apply tokenize_len in E as (L2 & L3).
  destruct (_ =? _); [split; discriminate|].
  split; [discriminate|]. intros t' c' o' [= <- <- _]. split; [lia|]. intros K. specialize (L3 K). lia.
Qed.

Lemma is_option_not_none : forall t, is_option t = true -> kind t <> TNone.
Proof. intros t H E. unfold is_option in H. rewrite E in H. discriminate. Qed.

Lemma parse_options_fuel : forall n m t c o,
  (len c + (if is_option t then 1 else 0) < n)%nat -> (len c + (if is_option t then 1 else 0) < m)%nat ->
  parse_options n t c o = parse_options m t c o /\ parse_options n t c o <> OutOfFuel.
Proof.
  induction n as [|n IH]; intros m t c o Hn Hm; [lia|]. destruct m as [|m]; [lia|].
  cbn [parse_options]. destruct (is_option t); [|split; [reflexivity|discriminate]].
  destruct (parse_option_facts t c o) as (NF & L).
  destruct (parse_option t c o) as [((t1, c1), o1)| | | | |]; cbn [bind];
    try (split; [reflexivity|congruence]).
  destruct (L _ _ _ eq_refl) as (L1 & L2).
  apply IH; destruct (is_option t1) eqn:O; try lia;
    specialize (L2 (is_option_not_none _ O)); lia.
Qed.

Lemma parse_options_len : forall n t c o t' c' o', parse_options n t c o = Ok (t', c', o') ->
  (len c' <= len c)%nat /\ is_option t' = false.
Proof.
  induction n as [|n IH]; intros t c o t' c' o' H; [discriminate|]. cbn in H.
  destruct (is_option t) eqn:O.
  - inv_bind H. destruct x as ((t1, c1), o1). apply parse_option_facts in Hx as (L & _).
    apply IH in H as (L' & O'). split; [lia|exact O'].
  - injection H as <- <- <-. split; [lia|exact O].
Qed.
