(** * Operands: the model of every operand accepts exactly the spellings of
    [SpecOperand] and writes exactly their bits. *)
From Verif Require Import Base Float Lexer Operand Catalogue Table Parse Spec SpecOperand Bits LexFacts
  ParseFacts Decode Footprint.
From Coq Require Import Lia.
Local Open Scope string_scope.
Local Open Scope list_scope.
Open Scope Z_scope.

(** [ks] are the kinds of the current token [t] and of those read after it
    from [c]; [t'] is the token after them, read up to [c']. *)
Inductive reads : token -> cursor -> list tkind -> token -> cursor -> Prop :=
| reads_nil : forall t c, reads t c [] t c
| reads_cons : forall t c k t1 c1 ks t' c',
    kind t = k -> tokenize c = Ok (t1, c1) -> reads t1 c1 ks t' c' -> reads t c (k :: ks) t' c'.

Lemma reads_app : forall t c ks1 t1 c1 ks2 t2 c2,
  reads t c ks1 t1 c1 -> reads t1 c1 ks2 t2 c2 -> reads t c (ks1 ++ ks2) t2 c2.
Proof. intros t c ks1 t1 c1 ks2 t2 c2 H. induction H; intros K; cbn; [exact K|]. econstructor; eauto. Qed.
Lemma reads_split : forall ks1 t c ks2 t2 c2, reads t c (ks1 ++ ks2) t2 c2 ->
  exists t1 c1, reads t c ks1 t1 c1 /\ reads t1 c1 ks2 t2 c2.
Proof.
  induction ks1 as [|k ks1 IH]; cbn; intros t c ks2 t2 c2 H.
  - exists t, c. split; [constructor|exact H].
  - inversion H; subst. edestruct IH as (t3 & c3 & A & B); [eassumption|].
    exists t3, c3. split; [econstructor; eauto|exact B].
Qed.
Lemma reads_one : forall t c t' c', tokenize c = Ok (t', c') -> reads t c [kind t] t' c'.
Proof. intros. econstructor; [reflexivity|eassumption|constructor]. Qed.
Lemma reads_hd : forall t c ks t' c', reads t c ks t' c' -> kind t = hd (kind t') ks.
Proof. intros t c ks t' c' H. destruct H; cbn; auto. Qed.
Lemma token_ok : forall c t c', tokenize c = Ok (t, c') -> kind_ok (kind t).
Proof. intros c t c' H. apply tokenize_spec in H as (q & cq & b & _ & _ & _ & _ & _ & _ & _ & K). exact K. Qed.
Lemma reads_ok : forall t c ks t' c', kind_ok (kind t) -> reads t c ks t' c' ->
  Forall kind_ok ks /\ kind_ok (kind t').
Proof.
  intros t c ks t' c' K H. induction H; [auto|]. subst. destruct IHreads; [|auto].
  eapply token_ok; eassumption.
Qed.

(** ** Names *)

Lemma equal_iff : forall t s, equal t s = true <-> kind t = id s.
Proof.
  intros t s. unfold equal, id. destruct (kind t); try (split; discriminate).
  rewrite text_eqb_eq. split; [intros ->; reflexivity|intros [= ->]; reflexivity].
Qed.
Lemma equal_true : forall t s, kind t = id s -> equal t s = true.
Proof. intros. now apply equal_iff. Qed.
Lemma equal_false : forall t s, kind t <> id s -> equal t s = false.
Proof. intros t s H. destruct (equal t s) eqn:E; [|reflexivity]. apply equal_iff in E. contradiction. Qed.
Lemma equal_ne : forall t s, equal t s = false -> kind t <> id s.
Proof. intros t s H E. apply equal_iff in E. congruence. Qed.

Lemma lit_inj : forall a b, lit a = lit b -> a = b.
Proof.
  intros a b H. rewrite <- (string_of_list_ascii_of_string a), <- (string_of_list_ascii_of_string b).
  unfold lit in H. now rewrite H.
Qed.
Lemma id_inj : forall a b, id a = id b -> a = b.
Proof. intros a b [= H]. apply lit_inj. exact H. Qed.

Lemma index_of_some : forall tbl i t j, index_of i tbl t = Some j <->
  (i <= j)%N /\ exists s, nth_error tbl (N.to_nat (j - i)) = Some s /\ t = lit s /\
    forall k, (k < N.to_nat (j - i))%nat -> nth_error tbl k <> Some s.
Proof.
  induction tbl as [|x tbl IH]; intros i t j; cbn [index_of].
  - split; [discriminate|]. intros (_ & s & H & _). destruct (N.to_nat (j - i)); discriminate.
  - destruct (text_eqb t (lit x)) eqn:E.
    + apply text_eqb_eq in E. split.
      * intros [= <-]. split; [lia|]. exists x. replace (N.to_nat (i - i)) with 0%nat by lia.
        split; [reflexivity|]. split; [exact E|]. intros k L. lia.
      * intros (L & s & H & -> & F). apply lit_inj in E. subst s. f_equal.
        destruct (N.to_nat (j - i)) eqn:D; [lia|]. exfalso. apply (F 0%nat); [lia|reflexivity].
    + rewrite IH. assert (N : t <> lit x) by (intros ->; rewrite text_eqb_refl in E; discriminate).
      split.
      * intros (L & s & H & -> & F). split; [lia|]. exists s.
        replace (N.to_nat (j - i)) with (Datatypes.S (N.to_nat (j - (i + 1)))) by lia.
        split; [exact H|]. split; [reflexivity|]. intros [|k] Lk; cbn.
        -- intros [= ->]. contradiction.
        -- apply F. lia.
      * intros (L & s & H & -> & F).
        assert (j <> i).
        { intros ->. replace (N.to_nat (i - i)) with 0%nat in H by lia. cbn in H. congruence. }
        split; [lia|]. exists s.
        replace (N.to_nat (j - i)) with (Datatypes.S (N.to_nat (j - (i + 1)))) in * by lia.
        split; [exact H|]. split; [reflexivity|]. intros k Lk. apply (F (Datatypes.S k)). lia.
Qed.
Lemma index_of_none : forall tbl i t, index_of i tbl t = None <-> forall s, In s tbl -> t <> lit s.
Proof.
  induction tbl as [|x tbl IH]; intros i t; cbn [index_of].
  - split; [intros _ s []|reflexivity].
  - destruct (text_eqb t (lit x)) eqn:E.
    + apply text_eqb_eq in E. split; [discriminate|]. intros H. exfalso. apply (H x); [now left|exact E].
    + rewrite IH. split.
      * intros H s [->|I]; [|auto]. intros ->. rewrite text_eqb_refl in E. discriminate.
      * intros H s I. apply H. now right.
Qed.
Lemma strip_some : forall p t r, strip_prefix p t = Some r <-> t = p ++ r.
Proof.
  induction p as [|x p IH]; intros t r; cbn.
  - split; [intros [= ->]; reflexivity|intros ->; reflexivity].
  - destruct t as [|y t]; [split; discriminate|]. destruct (Ascii.eqb x y) eqn:E.
    + apply Ascii.eqb_eq in E as ->. rewrite IH. split; [intros ->; reflexivity|intros [= ->]; reflexivity].
    + split; [discriminate|]. intros [= -> _]. rewrite Ascii.eqb_refl in E. discriminate.
Qed.

Lemma find_some : forall b tbl p t i, find_in_table b tbl p t = Ok (Some i) <-> entry tbl p (kind t) i.
Proof.
  intros b tbl p t i. unfold find_in_table, entry. split.
  - destruct (kind t) as [|x| | | | | | | | | | | | |]; try discriminate.
    destruct (strip_prefix (lit p) x) as [r|] eqn:E; [|discriminate].
    apply strip_some in E as ->. destruct (index_of 0 tbl r) as [j|] eqn:J; [|destruct b; discriminate].
    intros [= ->]. apply index_of_some in J as (_ & s & H & -> & F). rewrite N.sub_0_r in *. eauto.
  - intros (s & H & -> & F).
    assert (E : strip_prefix (lit p) (lit p ++ lit s) = Some (lit s)) by now apply strip_some.
    rewrite E. assert (J : index_of 0 tbl (lit s) = Some i).
    { apply index_of_some. split; [lia|]. exists s. rewrite N.sub_0_r. auto. }
    rewrite J. reflexivity.
Qed.
Lemma find_none : forall tbl p t, find_in_table true tbl p t = Ok None <-> no_entry tbl p (kind t).
Proof.
  intros tbl p t. unfold find_in_table, no_entry. destruct (kind t) as [|x| | | | | | | | | | | | |];
    try (split; [intros _ s _; discriminate|reflexivity]).
  destruct (strip_prefix (lit p) x) as [r|] eqn:E.
  - apply strip_some in E as ->. destruct (index_of 0 tbl r) as [j|] eqn:J.
    + split; [discriminate|]. intros H. exfalso. apply index_of_some in J as (_ & s & J & -> & _).
      apply (H s); [eapply nth_error_In; exact J|reflexivity].
    + split; [|reflexivity]. intros _ s I [= Q]. apply app_inv_head in Q as ->.
      eapply index_of_none in J; [|exact I]. now apply J.
  - split; [|reflexivity]. intros _ s I [= ->]. assert (strip_prefix (lit p) (lit p ++ lit s) = Some (lit s))
      by now apply strip_some. congruence.
Qed.
(** Tables without sentinel. *)
Lemma find_none' : forall tbl p t, find_in_table false tbl p t = Ok None <->
  forall s, kind t <> TIdent (lit p ++ s).
Proof.
  intros tbl p t. unfold find_in_table. destruct (kind t) as [|x| | | | | | | | | | | | |];
    try (split; [intros _ s; discriminate|reflexivity]).
  destruct (strip_prefix (lit p) x) as [r|] eqn:E.
  - apply strip_some in E as ->. destruct (index_of 0 tbl r); (split; [discriminate|]); intros H; exfalso;
      now apply (H r).
  - split; [|reflexivity]. intros _ s [= ->]. assert (strip_prefix (lit p) (lit p ++ s) = Some s)
      by now apply strip_some. congruence.
Qed.
Lemma entry_lt : forall tbl p k i, entry tbl p k i -> (i < N.of_nat (List.length tbl))%N.
Proof.
  intros tbl p k i (s & H & _). assert (nth_error tbl (N.to_nat i) <> None) as L by congruence.
  apply nth_error_Some in L. lia.
Qed.
Lemma entry_no : forall tbl p k i, entry tbl p k i -> no_entry tbl p k -> False.
Proof. intros tbl p k i (s & H & -> & _) N. apply (N s); [eapply nth_error_In; exact H|reflexivity]. Qed.
Lemma entry_fun : forall tbl p k i j, entry tbl p k i -> entry tbl p k j -> i = j.
Proof.
  intros tbl p k i j (s & H & -> & F) (s' & H' & [= Q] & F'). apply app_inv_head in Q.
  apply lit_inj in Q as <-. destruct (Nat.lt_trichotomy (N.to_nat i) (N.to_nat j)) as [L|[L|L]].
  - now apply F' in L.
  - lia.
  - now apply F in L.
Qed.
Lemma entry_dec : forall tbl p k, (exists i, entry tbl p k i) \/ no_entry tbl p k.
Proof.
  intros tbl p k. destruct (find_in_table true tbl p (Token k 0 0)) as [[i|]|e|d|w|u|] eqn:E.
  - left. exists i. apply find_some in E. exact E.
  - right. apply find_none in E. exact E.
  - exfalso. unfold find_in_table in E. destruct (kind _); try discriminate.
    destruct (strip_prefix _ _); [|discriminate]. destruct (index_of _ _ _); discriminate.
  - exfalso. unfold find_in_table in E. destruct (kind _); try discriminate.
    destruct (strip_prefix _ _); [|discriminate]. destruct (index_of _ _ _); discriminate.
  - exfalso. unfold find_in_table in E. destruct (kind _); try discriminate.
    destruct (strip_prefix _ _); [|discriminate]. destruct (index_of _ _ _); discriminate.
  - exfalso. unfold find_in_table in E. destruct (kind _); try discriminate.
    destruct (strip_prefix _ _); [|discriminate]. destruct (index_of _ _ _); discriminate.
  - exfalso. unfold find_in_table in E. destruct (kind _); try discriminate.
    destruct (strip_prefix _ _); [|discriminate]. destruct (index_of _ _ _); discriminate.
Qed.

(** ** Bits *)

Lemma shl_place : forall v a n, (v < 2 ^ n)%N -> (a + n <= 64)%N -> shl64 v a = place v a.
Proof. intros v a n H L. apply (shl64_bound v a n); [exact H|lia]. Qed.
Lemma shl_one : forall a, (a < 64)%N -> shl64 1 a = (2 ^ a)%N.
Proof. intros a H. rewrite (shl_place 1 a 1); [apply N.mul_1_l|reflexivity|lia]. Qed.
Lemma shl_flag : forall (b : bool) a, (a < 64)%N -> shl64 (if b then 1 else 0) a = flag_bit b a.
Proof. intros [] a H; [now apply shl_one|]. unfold shl64. rewrite N.shiftl_0_l. reflexivity. Qed.
Lemma place_0 : forall a, place 0 a = 0%N.
Proof. reflexivity. Qed.
Lemma place_1 : forall a, place 1 a = (2 ^ a)%N.
Proof. intros a. apply N.mul_1_l. Qed.


Lemma u64_nonneg : forall z, 0 <= z <= INT64_MAX -> u64_of_Z z = Z.to_N z.
Proof. intros z H. unfold u64_of_Z, INT64_MAX, two64 in *. rewrite Z.mod_small by lia. reflexivity. Qed.
Lemma s64_u64 : forall z, INT64_MIN <= z <= INT64_MAX -> s64_of_N (u64_of_Z z) = z.
Proof.
  intros z H. unfold s64_of_N, u64_of_Z, INT64_MIN, INT64_MAX in *.
  change (two64 / 2)%N with 9223372036854775808%N. change (Z.of_N two64) with 18446744073709551616.
  pose proof (Z.mod_pos_bound z 18446744073709551616).
  destruct (Z.ltb_spec z 0) as [L|L].
  - assert (E : z mod 18446744073709551616 = z + 18446744073709551616).
    { symmetry. apply Z.mod_unique with (-1); lia. }
    destruct (N.ltb_spec (Z.to_N (z mod 18446744073709551616)) 9223372036854775808); lia.
  - rewrite Z.mod_small by lia. destruct (N.ltb_spec (Z.to_N z) 9223372036854775808); lia.
Qed.
Lemma max_bits_ones : forall n, max_bits n = N.ones n.
Proof. intros n. unfold max_bits, N.ones. apply N.sub_1_r. Qed.
Lemma Z_max_bits : forall n, Z.of_N (max_bits n) = 2 ^ Z.of_N n - 1.
Proof.
  intros n. unfold max_bits. rewrite N.shiftl_1_l, N2Z.inj_sub, N2Z.inj_pow; [reflexivity|].
  pose proof (N.pow_nonzero 2 n). lia.
Qed.
Lemma mod_mod_pow : forall z a b, 0 <= a <= b -> (z mod 2 ^ b) mod 2 ^ a = z mod 2 ^ a.
Proof.
  intros z a b H. symmetry. apply Znumtheory.Zmod_div_mod; try (apply Z.pow_pos_nonneg; lia).
  exists (2 ^ (b - a)). rewrite <- Z.pow_add_r by lia. f_equal. lia.
Qed.
Lemma to_N_mod_lt : forall z n, (Z.to_N (z mod 2 ^ Z.of_N n) < 2 ^ n)%N.
Proof.
  intros z n. pose proof (Z.mod_pos_bound z (2 ^ Z.of_N n) ltac:(apply Z.pow_pos_nonneg; lia)).
  apply N2Z.inj_lt. rewrite Z2N.id, N2Z.inj_pow by lia. exact (proj2 H).
Qed.
Lemma u64_low : forall z n, (n <= 64)%N -> N.land (u64_of_Z z) (N.ones n) = Z.to_N (z mod 2 ^ Z.of_N n).
Proof.
  intros z n H. rewrite N.land_ones. unfold u64_of_Z. change (Z.of_N two64) with (2 ^ 64).
  apply N2Z.inj. rewrite N2Z.inj_mod, N2Z.inj_pow. change (Z.of_N 2) with 2.
  pose proof (Z.mod_pos_bound z (2 ^ 64) ltac:(reflexivity)).
  pose proof (Z.mod_pos_bound z (2 ^ Z.of_N n) ltac:(apply Z.pow_pos_nonneg; lia)).
  rewrite !Z2N.id by lia. apply mod_mod_pow. lia.
Qed.
Lemma to_N_lt : forall z n, 0 <= z < 2 ^ Z.of_N n -> (Z.to_N z < 2 ^ n)%N.
Proof. intros z n H. apply N2Z.inj_lt. rewrite Z2N.id, N2Z.inj_pow by lia. exact (proj2 H). Qed.

(** Tables as lists of names with values. *)
Definition named (p : string) (tbl : list string) : list (string * N) :=
  combine (map (append p) tbl) (map N.of_nat (seq 0 (List.length tbl))).
Lemma lit_append : forall a b, lit (append a b) = lit a ++ lit b.
Proof. induction a as [|x a IH]; intros b; cbn; [reflexivity|]. f_equal. apply IH. Qed.
Lemma named_in : forall p tbl n i s, In (s, i) (combine (map (append p) tbl) (map N.of_nat (seq n (List.length tbl)))) <->
  exists x, s = append p x /\ (N.of_nat n <= i)%N /\ nth_error tbl (N.to_nat i - n) = Some x.
Proof.
  intros p. induction tbl as [|y tbl IH]; intros n i s; cbn [map List.length seq combine In].
  - split; [intros []|]. intros (x & _ & _ & H). destruct (N.to_nat i - n)%nat; discriminate.
  - rewrite IH. split.
    + intros [[= <- <-]|(x & -> & L & H)].
      * exists y. rewrite Nat2N.id, Nat.sub_diag. repeat split. lia.
      * exists x. replace (N.to_nat i - n)%nat with (Datatypes.S (N.to_nat i - Datatypes.S n)) by lia.
        repeat split; [lia|exact H].
    + intros (x & -> & L & H). destruct (Nat.eq_dec (N.to_nat i) n) as [E|E].
      * left. rewrite E, Nat.sub_diag in H. cbn in H. injection H as ->. f_equal. lia.
      * right. exists x. replace (N.to_nat i - n)%nat with (Datatypes.S (N.to_nat i - Datatypes.S n)) in H by lia.
        repeat split; [lia|exact H].
Qed.
Lemma entry_named : forall p tbl k i, NoDup tbl ->
  (entry tbl p k i <-> exists s, In (s, i) (named p tbl) /\ k = id s).
Proof.
  intros p tbl k i D. unfold entry, named. split.
  - intros (s & H & -> & _). exists (append p s). unfold id. rewrite lit_append. split; [|reflexivity].
    apply named_in. exists s. rewrite Nat.sub_0_r. repeat split; [lia|exact H].
  - intros (s & I & ->). apply named_in in I as (x & -> & _ & H). rewrite Nat.sub_0_r in H.
    exists x. unfold id. rewrite lit_append. repeat split; [exact H|]. intros j L Q.
    rewrite <- Q in H. apply NoDup_nth_error in H; [lia|exact D|].
    apply nth_error_Some. congruence.
Qed.
Lemma no_entry_named : forall p tbl k, no_entry tbl p k <-> unlisted (named p tbl) k.
Proof.
  intros p tbl k. unfold no_entry, unlisted, named. split.
  - intros H s v I. apply named_in in I as (x & -> & _ & N). unfold id. rewrite lit_append. apply H.
    eapply nth_error_In. exact N.
  - intros H s I. apply In_nth_error in I as (n & I).
    specialize (H (append p s) (N.of_nat n)). unfold id in H. rewrite lit_append in H. apply H.
    apply named_in. exists s. rewrite Nat.sub_0_r, Nat2N.id. repeat split; [lia|exact I].
Qed.
Fixpoint distinct (l : list string) : bool :=
  match l with [] => true | x :: l => negb (existsb (String.eqb x) l) && distinct l end.
Lemma distinct_NoDup : forall l, distinct l = true -> NoDup l.
Proof.
  induction l as [|x l IH]; cbn; intros H; [constructor|].
  apply andb_true_iff in H as (H & K). constructor; [|auto]. intros I.
  apply negb_true_iff in H. assert (existsb (String.eqb x) l = true); [|congruence].
  apply existsb_exists. exists x. split; [exact I|apply String.eqb_refl].
Qed.

(** ** Symbolic execution *)

Lemma confirm_ok : forall ty c t op, type_of (kind t) = ty -> confirm_type ty (St c t op) = Ok (St c t op).
Proof. intros ty c t op <-. unfold confirm_type, s_kind. cbn [s_tok]. destruct (kind t); reflexivity. Qed.
Lemma convert_ok : forall c t op z mn mx, kind t = TImm z -> mn <= z <= mx ->
  convert_integer (St c t op) mn mx = Ok (u64_of_Z z).
Proof.
  intros c t op z mn mx K L. unfold convert_integer. rewrite confirm_ok by (rewrite K; reflexivity).
  unfold s_kind. cbn [bind s_tok]. rewrite K. destruct (Z.ltb_spec z mn), (Z.ltb_spec mx z); try lia. reflexivity.
Qed.

Lemma ok_st : forall c t op c' t' op', Ok (St c t op) = Ok (St c' t' op') -> c = c' /\ t = t' /\ op = op'.
Proof. intros c t op c' t' op' H. inversion H. auto. Qed.

Ltac rel := unfold s_kind, confirm_type_next, advance_tok, put, add_bits, add_reuse, set_value;
  cbv zeta; cbn [bind s_cur s_tok s_op value reuse sched e_asserts e_labels e_pc andb].
Ltac rel_in H := unfold s_kind, confirm_type_next, advance_tok, put, add_bits, add_reuse, set_value in H;
  cbv zeta in H; cbn [bind s_cur s_tok s_op value reuse sched e_asserts e_labels e_pc andb] in H.

(** Decide names from what is known about the kind of a token. *)
Ltac known :=
  solve [assumption | congruence
        | match goal with K : kind ?t = _ |- kind ?t <> _ => rewrite K; discriminate end
        | match goal with K : kind ?t = _ |- type_of (kind ?t) = _ => rewrite K; reflexivity end].

(** Forward: one step of the hypothesis [H : ... = Ok _]. *)
Ltac xs H :=
  rel_in H;
  lazymatch type of H with
  | Ok (St _ _ _) = Ok (St _ _ _) =>
      let H1 := fresh in let H2 := fresh in let H3 := fresh in
      apply ok_st in H; destruct H as (H1 & H2 & H3); subst
  | fail _ _ = Ok _ => discriminate H
  | Err _ = Ok _ => discriminate H
  | Undef _ = Ok _ => discriminate H
  | Abort _ = Ok _ => discriminate H
  | bind (fail _ _) _ = Ok _ => discriminate H
  | bind (bind _ _) _ = Ok _ => rewrite bind_assoc in H
  | bind (tokenize ?c) _ = Ok _ =>
      let t := fresh "t" in let c1 := fresh "c" in let E := fresh "E" in
      destruct (tokenize c) as [(t, c1)| | | | |] eqn:E; try discriminate H
  | bind (confirm_type _ _) _ = Ok _ =>
      let T := fresh "T" in let s1 := fresh "s" in let K := fresh "K" in
      apply bind_ok in H; destruct H as (s1 & T & H); apply en_confirm in T; destruct T as (-> & T);
      unfold s_kind in T; cbn [s_tok] in T;
      lazymatch type of T with
      | type_of (kind ?t) = _ => destruct (kind t) eqn:K; try discriminate T; clear T
      end
  | bind (convert_integer _ _ _) _ = Ok _ =>
      let T := fresh "T" in let v := fresh "v" in let z := fresh "z" in let K := fresh "K" in
      apply bind_ok in H; destruct H as (v & T & H); apply en_convert in T; destruct T as (z & K & T & ->);
      unfold s_kind in K; cbn [s_tok] in K
  | bind (if equal ?t ?s then _ else _) _ = Ok _ =>
      let E := fresh "E" in destruct (equal t s) eqn:E; [apply equal_iff in E|apply equal_ne in E]
  | (if equal ?t ?s then _ else _) = Ok _ =>
      let E := fresh "E" in destruct (equal t s) eqn:E; [apply equal_iff in E|apply equal_ne in E]
  | bind (if negb (equal ?t ?s) then _ else _) _ = Ok _ =>
      let E := fresh "E" in destruct (equal t s) eqn:E; [apply equal_iff in E|apply equal_ne in E]; cbn [negb] in H
  | (if negb (equal ?t ?s) then _ else _) = Ok _ =>
      let E := fresh "E" in destruct (equal t s) eqn:E; [apply equal_iff in E|apply equal_ne in E]; cbn [negb] in H
  | match kind ?t with _ => _ end = Ok _ =>
      first [match goal with K : kind t = _ |- _ => rewrite K in H end
            |let K := fresh "K" in destruct (kind t) eqn:K]
  | bind (match kind ?t with _ => _ end) _ = Ok _ =>
      first [match goal with K : kind t = _ |- _ => rewrite K in H end
            |let K := fresh "K" in destruct (kind t) eqn:K]
  end.

(** Backward: one step of the goal. *)
Ltac gs :=
  rel;
  match goal with
  | K : tokenize ?c = Ok _ |- context [tokenize ?c] => rewrite K
  | |- context [confirm_type ?ty (St ?c ?t ?op)] => rewrite (confirm_ok ty c t op) by known
  | K : kind ?t = TImm ?z |- context [convert_integer (St ?c ?t ?op) ?a ?b] =>
      rewrite (convert_ok c t op z a b K) by lia
  | |- context [equal ?t ?x] =>
      first [rewrite (equal_true t x) by known | rewrite (equal_false t x) by known]; cbn [negb]
  | K : kind ?t = _ |- context [match kind ?t with _ => _ end] => rewrite K
  end.

Ltac gg := repeat gs; rel.

(** Tokens of a known spelling. *)
Ltac rd H :=
  lazymatch type of H with
  | reads _ _ [] _ _ => inversion H; subst; clear H
  | reads _ _ (_ :: _) _ _ =>
      let t := fresh "t" in let c := fresh "c" in let K := fresh "K" in let E := fresh "E" in
      let R := fresh "R" in
      inversion H as [|? ? ? t c ? ? ? K E R]; subst; clear H; rd R
  | reads _ _ (_ ++ _) _ _ =>
      let t := fresh "t" in let c := fresh "c" in let R1 := fresh "R" in let R2 := fresh "R" in
      apply reads_split in H; destruct H as (t & c & R1 & R2); rd R1; rd R2
  | _ => idtac
  end.
(** Build a spelling. *)
Ltac mk :=
  lazymatch goal with
  | |- reads _ _ _ _ _ =>
      first [ apply reads_nil | eapply reads_cons; [known | eassumption | mk] ]
  end.

Ltac opeq := cbn [clears flag_bit]; rewrite ?place_0, ?place_1, ?N.ldiff_0_r, ?N.lor_0_l, ?N.lor_0_r, ?N.lor_assoc; try reflexivity.
Ltac give ks b r := exists ks, b, r; split; [mk|]; split; [|].
Ltac give' ks b r := exists ks, b, r;
  lazymatch goal with |- ?A /\ ?B /\ ?C => cut (A /\ C); [intros (? & ?); split; [assumption|split; [|assumption]]|] end.
Ltac start := intros c t w ru sc c' t' op' KO; cbn [run_operand]; split;
  [intros H|intros (ks & b & r & R & S & ->); cbn [spells] in S].
Ltac imm_range := match goal with KO : kind_ok ?k, K : ?k = TImm ?z |- _ => rewrite K in KO; cbn in KO end.
Ltac xfind H := lazymatch type of H with
  | bind (find_in_table _ _ _ _) _ = Ok _ =>
      let r := fresh "r" in let F := fresh "F" in let i := fresh "i" in
      apply bind_ok in H; destruct H as (r & F & H); destruct r as [i|];
      [apply find_some in F|first [apply find_none in F|rewrite find_none' in F]]
  end.
Ltac gfind := rel; match goal with
  | F : entry ?tbl ?p ?k ?i, K : kind ?t = ?k |- context [find_in_table ?b ?tbl ?p ?t] =>
      rewrite (proj2 (find_some b tbl p t i)) by (rewrite K; exact F)
  | F : entry ?tbl ?p (kind ?t) ?i |- context [find_in_table ?b ?tbl ?p ?t] =>
      rewrite (proj2 (find_some b tbl p t i) F)
  | F : no_entry ?tbl ?p (kind ?t) |- context [find_in_table true ?tbl ?p ?t] =>
      rewrite (proj2 (find_none tbl p t) F)
  end.
Ltac inl I := cbn [In] in I; repeat (destruct I as [I|I]; [injection I as <- <-|]); [..|destruct I].
Ltac eqcase t s := let E := fresh "E" in destruct (equal t s) eqn:E; [apply equal_iff in E|apply equal_ne in E].

Section Run.
  Variable ls : labels.
  Variable pc : Z.
  Local Notation env0 := (Env ls pc false).
  Local Notation sp := (spells (find_label ls) pc).

  Definition meets (o : opnd) : Prop := forall c t w ru sc c' t' op', kind_ok (kind t) ->
    (run_operand env0 o (St c t (Opcode w ru sc)) = Ok (St c' t' op') <->
     exists ks b r, reads t c ks t' c' /\ sp o w ks (kind t') b r /\
       op' = Opcode (N.lor (N.ldiff w (clears o)) b) (N.lor ru r) sc).


  Lemma m_comma : meets OComma.
  Proof.
    start.
    - unfold run_comma in H. repeat xs H. give [TComma] 0%N 0%N; [cbn; auto|opeq].
    - destruct S as (-> & -> & ->). rd R. unfold run_comma. gg. opeq.
  Qed.
  Lemma m_zero : meets OZero.
  Proof.
    start.
    - unfold run_zero in H. xs H; try discriminate H. destruct z; try discriminate H. repeat xs H.
      give [TImm 0] 0%N 0%N; [cbn; auto|opeq].
    - destruct S as (-> & -> & ->). rd R. unfold run_zero. gg. opeq.
  Qed.
  Lemma m_rz : forall a, (a + 8 <= 64)%N -> meets (ODefaultRz a).
  Proof.
    intros a A. start; rewrite (shl_place 255 a 8) in * by (auto; reflexivity).
    - repeat xs H. give (@nil tkind) (place 255 a) 0%N; [cbn; auto|opeq].
    - destruct S as (-> & -> & ->). rd R. gg. opeq.
  Qed.
  Lemma m_flag : forall s a, (a < 64)%N -> meets (OFlag s a).
  Proof.
    intros s a A. start; unfold assemble_flag in *; rewrite (shl_one a) in * by auto.
    - repeat xs H.
      + give [id s] (2 ^ a)%N 0%N; [cbn; auto|opeq].
      + give (@nil tkind) 0%N 0%N; [cbn; auto 6|opeq].
    - destruct S as (-> & [(-> & ->)|(-> & NE & ->)]); rd R; gg; opeq.
  Qed.
  Lemma m_po : forall a1 a2, (a1 < 64)%N -> (a2 < 64)%N -> meets (OPo a1 a2).
  Proof.
    intros a1 a2 A1 A2. start; unfold run_po in *; rewrite (shl_one a1), (shl_one a2) in * by auto.
    - repeat xs H.
      + give [id ".PO"] (N.lor (2 ^ a1) (2 ^ a2))%N 0%N; [cbn; auto|opeq].
      + give (@nil tkind) 0%N 0%N; [cbn; auto 6|opeq].
    - destruct S as (-> & [(-> & ->)|(-> & NE & ->)]); rd R; gg; opeq.
  Qed.
  Lemma m_opttype : forall ty a, (a < 64)%N -> meets (OOptType ty a).
  Proof.
    intros ty a A. start; unfold opt_type in *; rewrite (shl_one a) in * by auto; unfold s_kind in *;
      cbn [s_tok] in *.
    - destruct (ttype_eqb _ _) eqn:E.
      + apply ttype_eqb_eq in E. repeat xs H.
        give [kind t] (2 ^ a)%N 0%N; [|opeq]. cbn. split; [auto|]. left. eauto.
      + repeat xs H. give (@nil tkind) 0%N 0%N; [|opeq]. cbn. split; [auto|]. right.
        repeat split; auto. intros Q. apply ttype_eqb_eq in Q. congruence.
    - destruct S as (-> & [(k & -> & T & ->)|(-> & NE & ->)]); rd R.
      + replace (ttype_eqb _ _) with true by (symmetry; apply ttype_eqb_eq; congruence). gg. opeq.
      + destruct (ttype_eqb _ _) eqn:E; [apply ttype_eqb_eq in E; congruence|]. opeq.
  Qed.
  Lemma m_opttext : forall s, meets (OOptText s).
  Proof.
    intros s. start; unfold opt_text in *.
    - repeat xs H.
      + give [id s] 0%N 0%N; [cbn; auto|opeq].
      + give (@nil tkind) 0%N 0%N; [cbn; auto 6|opeq].
    - destruct S as (-> & -> & [->|(-> & NE)]); rd R; gg; opeq.
  Qed.
  Lemma m_reqtext : forall s bits msg, meets (OReqText s bits msg).
  Proof.
    intros s bits msg. start; unfold req_text in *.
    - repeat xs H. give [id s] bits 0%N; [cbn; auto|opeq].
    - destruct S as (-> & -> & ->). rd R; gg; opeq.
  Qed.
  Lemma m_reqafter : forall s b1 b2 msg, meets (OReqTextAfter s b1 b2 msg).
  Proof.
    intros s b1 b2 msg. start; unfold req_text_after in *.
    - repeat xs H. give [id s] (N.lor b1 b2) 0%N; [cbn; auto|opeq].
    - destruct S as (-> & -> & ->). rd R; gg; opeq.
  Qed.

  (** Integers. *)
  Lemma uint_bits : forall mx a z, (a + N.size (Z.to_N mx) <= 64)%N -> 0 <= z <= mx -> z <= INT64_MAX ->
    shl64 (u64_of_Z z) a = place (Z.to_N z) a.
  Proof.
    intros mx a z A Z1 Z2. rewrite u64_nonneg by lia. apply (shl_place _ _ _) with (2 := A).
    apply size_lt. lia.
  Qed.
  Lemma m_uint : forall mx a, (a + N.size (Z.to_N mx) <= 64)%N -> meets (OUint mx a).
  Proof.
    intros mx a A. start; unfold assemble_uint in *.
    - repeat xs H. imm_range. rewrite (uint_bits mx) by lia.
      give [TImm z] (place (Z.to_N z) a) 0%N; [cbn; eauto|opeq].
    - destruct S as (z & -> & Z & -> & ->). rd R. imm_range. gg. rewrite (uint_bits mx) by lia. opeq.
  Qed.
  Lemma int_bits : forall n a z, (a + n <= 64)%N ->
    shl64 (N.land (u64_of_Z z) (N.shiftl 1 n - 1)) a = place (Z.to_N (z mod 2 ^ Z.of_N n)) a.
  Proof.
    intros n a z A. change (N.shiftl 1 n - 1)%N with (max_bits n). rewrite max_bits_ones, u64_low by lia.
    apply (shl_place _ _ n); [apply to_N_mod_lt|exact A].
  Qed.
  Lemma m_int : forall n a, (a + n <= 64)%N -> meets (OInt n a).
  Proof.
    intros n a A. start; unfold assemble_int in *.
    - repeat xs H. rewrite int_bits by auto.
      give [TImm z] (place (Z.to_N (z mod 2 ^ Z.of_N n)) a) 0%N; [|opeq]. cbn. exists z. repeat split; try reflexivity; lia.
    - destruct S as (z & -> & Z & -> & ->). rd R. gg. rewrite int_bits by auto. opeq.
  Qed.
  Lemma imm20_bits : forall z, - 2 ^ 19 <= z < 2 ^ 19 ->
    shl64 (if z <? 0 then N.land (u64_of_Z (z - 2 ^ 19)) (max_bits 19) else u64_of_Z z) 20 =
    place (Z.to_N (z mod 2 ^ 19)) 20.
  Proof.
    intros z H. replace (if z <? 0 then _ else _) with (Z.to_N (z mod 2 ^ Z.of_N 19)).
    - apply (shl_place _ _ 19); [apply to_N_mod_lt|lia].
    - destruct (Z.ltb_spec z 0).
      + rewrite max_bits_ones, u64_low by lia. f_equal. change (Z.of_N 19) with 19.
        replace z with (z - 2 ^ 19 + 1 * 2 ^ 19) at 1 by lia. apply Z.mod_add. discriminate.
      + rewrite u64_nonneg by (unfold INT64_MAX; lia). f_equal. apply Z.mod_small. change (Z.of_N 19) with 19. lia.
  Qed.
  Lemma m_imm20 : meets OImm20.
  Proof.
    assert (M : Z.of_N (max_bits 19) = 2 ^ 19 - 1) by reflexivity.
    start; unfold assemble_signed_20bit_immediate in *; rewrite M in *.
    - repeat xs H. imm_range. rewrite s64_u64, imm20_bits, shl_flag by (reflexivity || lia).
      give [TImm z] (N.lor (place (Z.to_N (z mod 2 ^ 19)) 20) (flag_bit (z <? 0) 56)) 0%N; [|opeq].
      cbn [spells]. exists z. repeat split; try reflexivity; lia.
    - destruct S as (z & -> & Z & -> & ->). rd R. imm_range. gg.
      rewrite s64_u64, imm20_bits, shl_flag by (reflexivity || lia). opeq.
  Qed.
  Lemma m_uimm : meets OUimmExtended.
  Proof.
    assert (P : 2 ^ 19 = 524288) by reflexivity. assert (P' : 2 ^ 20 = 1048576) by reflexivity.
    start; unfold run_uimm_extended in *.
    - xs H. imm_range. rewrite u64_nonneg in * by lia. rewrite P' in *.
      give' [TImm z] (N.lor (flag_bit (2 ^ 19 <=? z) 56) (place (Z.to_N (if 2 ^ 19 <=? z then z - 2 ^ 19 else z)) 20)) 0%N.
      + cbn [spells]. exists z. rewrite P'. repeat split; try reflexivity; lia.
      + rewrite P. destruct (N.leb_spec 524288 (Z.to_N z)), (Z.leb_spec 524288 z); try lia; repeat xs H;
          (split; [mk|]); opeq; try (rewrite shl_one by lia);
          rewrite (shl_place _ _ 20) by (change (2 ^ 20)%N with 1048576%N; lia);
          try (replace (Z.to_N z - 524288)%N with (Z.to_N (z - 524288)) by lia);
          cbn [flag_bit]; rewrite ?N.lor_0_r; reflexivity.
    - destruct S as (z & -> & Z & -> & ->). rd R. imm_range. rewrite P' in *. gg. rewrite u64_nonneg in * by lia. rewrite P.
      destruct (N.leb_spec 524288 (Z.to_N z)), (Z.leb_spec 524288 z); try lia; gg;
          opeq; try (rewrite shl_one by lia);
          rewrite (shl_place _ _ 20) by (change (2 ^ 20)%N with 1048576%N; lia);
          try (replace (Z.to_N z - 524288)%N with (Z.to_N (z - 524288)) by lia);
          cbn [flag_bit]; rewrite ?N.lor_0_r; reflexivity.
  Qed.
  Lemma label_bits : forall d, - 2 ^ 23 <= d < 2 ^ 23 ->
    N.lor (shl64 (N.land (u64_of_Z d) 0x7FFFFF) 20) (shl64 (if d <? 0 then 1 else 0) 43) =
    place (Z.to_N (d mod 2 ^ 24)) 20.
  Proof.
    intros d H. change 0x7FFFFF%N with (N.ones 23). rewrite u64_low by lia.
    rewrite (shl_place _ _ 23) by (lia || apply to_N_mod_lt). rewrite shl_flag by reflexivity.
    change (Z.of_N 23) with 23.
    assert (P : 2 ^ 23 = 8388608) by reflexivity. assert (P' : 2 ^ 24 = 16777216) by reflexivity.
    rewrite P, P' in *. pose proof (Z.mod_pos_bound d 8388608 ltac:(lia)) as B.
    rewrite lor_add.
    - unfold place, flag_bit. change (2 ^ 43)%N with (8388608 * 2 ^ 20)%N.
      destruct (Z.ltb_spec d 0).
      + replace (d mod 8388608) with (d + 8388608) by (apply Z.mod_unique with (-1); lia).
        replace (d mod 16777216) with (d + 16777216) by (apply Z.mod_unique with (-1); lia).
        rewrite <- N.mul_add_distr_r. f_equal. lia.
      + rewrite !Z.mod_small by lia. lia.
    - unfold flag_bit. destruct (d <? 0); [|apply N.land_0_r].
      rewrite <- (N.mul_1_l (2 ^ 43)), <- N.shiftl_mul_pow2. apply land_low_shift. unfold place.
      change (2 ^ 43)%N with (8388608 * 2 ^ 20)%N. apply N.mul_lt_mono_pos_r; [reflexivity|lia].
  Qed.
  Lemma label_cond : forall v, (Z.of_N (max_bits 23) <? v) || (v <? - Z.of_N (max_bits 23) - 1) = false <->
    - 2 ^ 23 <= v < 2 ^ 23.
  Proof.
    intros v. change (Z.of_N (max_bits 23)) with 8388607. change (2 ^ 23) with 8388608.
    rewrite orb_false_iff, !Z.ltb_ge. lia.
  Qed.
  Lemma sub64_ok : forall a b r, sub64 a b = Ok r <-> r = a - b /\ INT64_MIN <= r <= INT64_MAX.
  Proof.
    intros a b r. unfold sub64. destruct (_ || _) eqn:E.
    - split; [discriminate|]. intros (-> & H). apply orb_true_iff in E as [E|E]; apply Z.ltb_lt in E; lia.
    - apply orb_false_iff in E as (E1 & E2). apply Z.ltb_ge in E1, E2. split.
      + intros [= <-]. lia.
      + intros (-> & _). reflexivity.
  Qed.
  Lemma m_label : meets OLabel.
  Proof.
    start; unfold run_label in *.
    - assert (G : exists a, (kind t = TImm a \/ exists n, kind t = TIdent n /\ find_label ls n = Some a) /\
        (let* d := sub64 a pc in
         let* value := sub64 d 8 in
         if (Z.of_N (max_bits 23) <? value) || (value <? - Z.of_N (max_bits 23) - 1)
         then fail t "label out of range"
         else
           let* s := put env0 (shl64 (N.land (u64_of_Z value) 0x7FFFFF) 20) (St c t (Opcode w ru sc)) in
           let* s := put env0 (shl64 (if value <? 0 then 1 else 0) 43) s in
           advance_tok s) = Ok (St c' t' op')).
      { cbv zeta in H. unfold s_kind in H. cbn [s_tok e_labels e_pc] in H.
        destruct (kind t) eqn:K; try discriminate H.
        - destruct (find_label ls s) as [a|] eqn:F; [|discriminate H]. exists a. split; [eauto|exact H].
        - exists z. split; [eauto|exact H]. }
      clear H. destruct G as (a & L & H). inv_bind H. inv_bind H.
      apply sub64_ok in Hx as (-> & _). apply sub64_ok in Hx0 as (-> & _).
      destruct (_ || _) eqn:C; [discriminate H|]. apply label_cond in C. repeat xs H.
      rewrite <- N.lor_assoc, label_bits by exact C.
      give [kind t] (place (Z.to_N ((a - (pc + 8)) mod 2 ^ 24)) 20) 0%N.
      + cbn [spells]. exists a. replace (a - pc - 8) with (a - (pc + 8)) in * by lia. repeat split; try lia.
        destruct L as [->|(n & -> & F)]; eauto.
      + replace (a - pc - 8) with (a - (pc + 8)) in * by lia. opeq.
    - destruct S as (a & L & (D & ->) & ->).
      assert (G : match kind t with
        | TIdent name => match find_label ls name with
                         | Some a0 => Ok a0 | None => fail t (label_message name) end
        | TImm z => Ok z | _ => fail t "expected label" end = Ok a /\ exists k, ks = [k]).
      { destruct L as [(n & -> & F)| ->]; rd R; rewrite K; [rewrite F|]; eauto. }
      destruct G as (G & k & ->). rd R. unfold s_kind. cbn [s_tok e_labels e_pc]. rewrite G.
      set (d := a - (pc + 8)) in *. assert (E1 : sub64 a pc = Ok (d + 8)).
      { apply sub64_ok. unfold INT64_MIN, INT64_MAX. lia. }
      assert (E2 : sub64 (d + 8) 8 = Ok d).
      { apply sub64_ok. unfold INT64_MIN, INT64_MAX. lia. }
      cbn [bind]. rewrite E1. cbn [bind]. rewrite E2. cbv zeta. cbn [bind].
      rewrite (proj2 (label_cond d) D). gg. rewrite <- N.lor_assoc, label_bits by exact D. opeq.
  Qed.

  (** Tables of names. *)
  Lemma entry_bits : forall d tbl p k i a, entry tbl p k i -> (a + index_bits d tbl <= 64)%N ->
    shl64 i a = place i a.
  Proof.
    intros d tbl p k i a F A. apply (shl_place _ _ (index_bits d tbl)); [|exact A].
    apply index_lt. eapply entry_lt. exact F.
  Qed.
  Lemma default_bits : forall tbl i a, (a + index_bits (Some i) tbl <= 64)%N -> shl64 i a = place i a.
  Proof. intros tbl i a A. apply (shl_place _ _ (index_bits (Some i) tbl)); [|exact A]. apply default_lt. Qed.
  Lemma m_dot : forall d a tbl, (a + index_bits d tbl <= 64)%N -> meets (ODotTable d a tbl).
  Proof.
    intros d a tbl A. start; unfold dot_table in *; cbn [s_tok] in *.
    - xfind H.
      + repeat xs H. give [kind t] (place i a) 0%N; [cbn; eauto 8|]. erewrite entry_bits by eassumption. opeq.
      + destruct d as [d|]; repeat xs H. give (@nil tkind) (place d a) 0%N; [cbn; eauto 8|].
        erewrite default_bits by eassumption. opeq.
    - destruct S as (-> & [(k & i & -> & F & ->)|(i & -> & F & -> & ->)]); rd R; gfind; gg.
      + erewrite entry_bits by eassumption. opeq.
      + erewrite default_bits by eassumption. opeq.
  Qed.
  Lemma m_req : forall p a tbl msg, (a + index_bits None tbl <= 64)%N -> meets (OReqTable p a tbl msg).
  Proof.
    intros p a tbl msg A. start; unfold req_table in *; cbn [s_tok] in *.
    - xfind H; repeat xs H. give [kind t] (place i a) 0%N; [cbn; eauto 8|]. erewrite entry_bits by eassumption. opeq.
    - destruct S as (k & i & -> & F & -> & ->); rd R; gfind; gg. erewrite entry_bits by eassumption. opeq.
  Qed.
  Lemma m_cc : forall tests a, (a + index_bits (Some 15%N) tests <= 64)%N -> meets (OCcTests tests a).
  Proof.
    intros tests a A. start; unfold assemble_cc_tests in *; cbn [s_tok] in *.
    - repeat xs H. 
      + xfind H; repeat xs H. give [id "CC"; kind t0] (place i a) 0%N; [cbn; eauto 8|].
        erewrite entry_bits by eassumption. opeq.
      + give (@nil tkind) (place 15 a) 0%N; [cbn; eauto 8|].
        erewrite default_bits by eassumption. opeq.
    - destruct S as (-> & [(k & i & -> & F & ->)|(-> & F & ->)]); rd R; gg.
      + pose proof F as (s & _ & K1 & _). gg. gfind; gg.
        erewrite entry_bits by eassumption. opeq.
      + erewrite default_bits by eassumption. opeq.
  Qed.
  Lemma m_intformat : forall u sg a sa msg,
    (a + N.max (index_bits None u) (index_bits None sg) <= 64)%N -> (sa < 64)%N -> meets (OIntFormat u sg a sa msg).
  Proof.
    intros u sg a sa msg A B. start; unfold run_int_format in *; cbn [s_tok] in *; rewrite ?(shl_one sa) in * by auto.
    - xfind H; [|xfind H].
      + repeat xs H. give [kind t] (place i a) 0%N; [cbn; eauto 8|]. rewrite (entry_bits None _ _ _ _ _ F) by lia. opeq.
      + repeat xs H. give [kind t] (N.lor (2 ^ sa) (place i a)) 0%N; [cbn; eauto 10|].
        rewrite (entry_bits None _ _ _ _ _ F0) by lia. opeq.
      + repeat xs H.
    - destruct S as (k & i & -> & -> & [(F & ->)|(N & F & ->)]); rd R.
      + gfind. gg. rewrite (entry_bits None _ _ _ _ _ F) by lia. opeq.
      + gfind. gfind. gg. rewrite (entry_bits None _ _ _ _ _ F) by lia. opeq.
  Qed.
  Lemma m_selector : forall ta short shorts a, (a + N.max 2 (index_bits None shorts) <= 64)%N ->
    meets (OSelector ta short shorts a).
  Proof.
    intros ta short shorts a A. start; unfold run_selector in *; cbn [s_tok s_op value] in *; 
      cbv zeta in *; change 7%N with (N.ones 3) in *; fold (field w ta 3) in *;
      set (tbl := if N.eqb (field w ta 3) short then shorts else ["B0"; "B1"; "B2"; "B3"]) in *;
      (assert (B : forall p k i, entry tbl p k i -> shl64 i a = place i a)
        by (intros p k i F; subst tbl; destruct (N.eqb _ _);
            [apply (entry_bits None _ _ _ _ _ F); lia
            |apply (shl_place _ _ 2); [apply entry_lt in F; exact F|lia]])).
    - xfind H; repeat xs H.
      + give [kind t] (place i a) 0%N; [cbn [spells]; eauto 8|]. cbn [value_or]. rewrite (B _ _ _ F). opeq.
      + give (@nil tkind) 0%N 0%N; [cbn [spells]; eauto 8|]. cbn [value_or]. opeq.
    - destruct S as (-> & [(k & i & -> & F & ->)|(-> & F & ->)]); rd R; gfind; gg; cbn [value_or].
      + rewrite (B _ _ _ F). opeq.
      + opeq.
  Qed.
  Lemma m_srcformat : forall a sa, (a + 2 <= 64)%N -> (sa < 64)%N -> meets (OSrcFormat a sa).
  Proof.
    intros a sa A B.
    assert (P : forall tbl p k i, entry tbl p k i -> List.length tbl = 4%nat -> shl64 i a = place i a).
    { intros tbl p k i F L. apply (shl_place _ _ 2); [|exact A]. apply entry_lt in F. rewrite L in F. exact F. }
    assert (Q : shl64 3 a = place 3 a) by (apply (shl_place _ _ 2); [reflexivity|exact A]).
    start; unfold run_src_format in *; cbn [s_tok s_op value] in *.
    - xfind H; repeat xs H.
      + give [kind t] (N.lor (place i a) (2 ^ sa)) 0%N; [cbn [spells]; eauto 8|].
        cbn [value_or]. rewrite (P _ _ _ _ F eq_refl), shl_one by auto. opeq.
      + xfind H; repeat xs H.
        * give [kind t] (place i a) 0%N; [cbn [spells]; eauto 10|].
          cbn [value_or]. rewrite (P _ _ _ _ F0 eq_refl). opeq.
        * give (@nil tkind) (N.lor (place 3 a) (2 ^ sa)) 0%N; [cbn [spells]; eauto 10|].
          cbn [value_or]. rewrite Q, shl_one by auto. opeq.
    - destruct S as (-> & [(k & i & -> & F & ->)|[(k & i & -> & N & F & ->)|(-> & F & F' & ->)]]); rd R.
      + gfind; gg. cbn [value_or]. rewrite (P _ _ _ _ F eq_refl), shl_one by auto. opeq.
      + gfind; gg. gfind; gg. cbn [value_or]. rewrite (P _ _ _ _ F eq_refl). opeq.
      + gfind; gg. gfind; gg. cbn [value_or]. rewrite Q, shl_one by auto. opeq.
  Qed.
  Lemma m_xmad : meets OXmadSigns.
  Proof.
    start; unfold run_xmad_signs in *; cbn [s_tok] in *; rewrite !shl_one in * by reflexivity.
    - destruct (equal t ".S16") eqn:E1; [apply equal_iff in E1|apply equal_ne in E1]; cbn [negb andb] in H;
        [|destruct (equal t ".U16") eqn:E2; [apply equal_iff in E2|apply equal_ne in E2]; cbn [negb] in H];
        repeat xs H.
      + give [id ".S16"; id ".S16"] (N.lor (flag_bit true 48) (flag_bit true 49)) 0%N; [|opeq].
        cbn [spells]. split; [auto|]. left. exists true, true. auto.
      + give [id ".S16"; id ".U16"] (N.lor (flag_bit true 48) (flag_bit false 49)) 0%N; [|opeq].
        cbn [spells]. split; [auto|]. left. exists true, false. auto.
      + give [id ".U16"; id ".S16"] (N.lor (flag_bit false 48) (flag_bit true 49)) 0%N; [|opeq].
        cbn [spells]. split; [auto|]. left. exists false, true. auto.
      + give [id ".U16"; id ".U16"] (N.lor (flag_bit false 48) (flag_bit false 49)) 0%N; [|opeq].
        cbn [spells]. split; [auto|]. left. exists false, false. auto.
      + give (@nil tkind) 0%N 0%N; [cbn [spells]; auto 8|opeq].
    - destruct S as (-> & [(s1 & s2 & -> & ->)|(-> & E1 & E2 & ->)]); rd R.
      + destruct s1, s2; gg; opeq.
      + gg. opeq.
  Qed.
  (** Names of a concrete list. *)
  Ltac row P s v := rewrite P by reflexivity; give [id s] (place v 39) 0%N;
    [split; [reflexivity|]; left; exists s, v; cbn; auto 10|opeq].
  Lemma m_f2f : meets OF2fRounding.
  Proof.
    assert (D : NoDup ["RN"; "RM"; "RP"; "RZ"]) by (apply distinct_NoDup; reflexivity).
    assert (P : forall v, (v < 16)%N -> shl64 v 39 = place v 39) by (intros v L; apply (shl_place _ _ 4); auto; lia).
    start; unfold run_f2f_rounding in *; cbn [s_tok s_op value] in *;
      cbv zeta in *; change 3%N with (N.ones 2) in *; fold (field w 8 2) in *; fold (field w 10 2) in *;
      change (N.ones 2) with 3%N in *.
    - cbn [spells]. destruct (N.eqb _ _).
      + rel_in H.
        destruct (equal t ".ROUND") eqn:E1; [apply equal_iff in E1|apply equal_ne in E1;
        destruct (equal t ".FLOOR") eqn:E2; [apply equal_iff in E2|apply equal_ne in E2;
        destruct (equal t ".CEIL") eqn:E3; [apply equal_iff in E3|apply equal_ne in E3;
        destruct (equal t ".TRUNC") eqn:E4; [apply equal_iff in E4|apply equal_ne in E4;
        destruct (equal t ".PASS") eqn:E5; [apply equal_iff in E5|apply equal_ne in E5]]]]]; repeat xs H; cbn [value_or].
        1: row P ".ROUND" 8%N. 1: row P ".FLOOR" 9%N. 1: row P ".CEIL" 10%N. 1: row P ".TRUNC" 11%N. 1: row P ".PASS" 3%N.
        give (@nil tkind) 0%N 0%N; [|opeq]. split; [auto|]. right. repeat split; auto.
        intros s v I. inl I; assumption.
      + xfind H; repeat xs H; cbn [value_or].
        * apply entry_named in F as (s & I & K); [|exact D].
          give [id s] (place i 39) 0%N; [|]. { split; [reflexivity|]. left. eauto. }
          rewrite P; [opeq|]. inl I; reflexivity.
        * apply no_entry_named in F. give (@nil tkind) 0%N 0%N; [|opeq]. split; [auto|]. right. auto.
    - destruct (N.eqb _ _); destruct S as (-> & [(s & v & I & -> & ->)|(-> & U & ->)]); rd R.
      + inl I; gg; cbn [value_or]; rewrite P by reflexivity; opeq.
      + rewrite !equal_false by (eapply U; cbn; eauto 8). gg. opeq.
      + assert (F : entry ["RN"; "RM"; "RP"; "RZ"] "." (kind t) v) by (apply entry_named; eauto).
        gfind. gg. cbn [value_or]. rewrite P; [opeq|]. inl I; reflexivity.
      + assert (F : no_entry ["RN"; "RM"; "RP"; "RZ"] "." (kind t')) by (apply no_entry_named; exact U). gfind. gg. cbn [value_or]. opeq.
  Qed.
  Lemma m_s2r : forall tbl, (20 + N.max 6 (index_bits None tbl) <= 64)%N -> meets (OS2r tbl).
  Proof.
    intros tbl A.
    assert (P : forall v, (v < 64)%N -> shl64 v 20 = place v 20) by (intros v L; apply (shl_place _ _ 6); auto; lia).
    start; unfold run_s2r in *; cbn [s_tok] in *.
    - repeat xs H.
      + eqcase t0 ".X"; [|eqcase t0 ".Y"; [|eqcase t0 ".Z"]]; cbn [N.eqb Pos.eqb] in H; repeat xs H;
          rewrite P by reflexivity.
        * give [id "SR_TID"; id ".X"] (place 33 20) 0%N; [|opeq]. split; [reflexivity|]. left.
          exists ".X", 33%N. cbn; auto.
        * give [id "SR_TID"; id ".Y"] (place 34 20) 0%N; [|opeq]. split; [reflexivity|]. left.
          exists ".Y", 34%N. cbn; auto.
        * give [id "SR_TID"; id ".Z"] (place 35 20) 0%N; [|opeq]. split; [reflexivity|]. left.
          exists ".Z", 35%N. cbn; auto.
        * give [id "SR_TID"] (place 32 20) 0%N; [|opeq]. split; [reflexivity|]. right. left.
          repeat split. intros s v I. inl I; assumption.
      + give [id "SR_CTAID"; id ".X"] (place 37 20) 0%N; [|rewrite P by reflexivity; opeq]. split; [reflexivity|].
        do 2 right. left. exists ".X", 37%N. cbn; auto.
      + give [id "SR_CTAID"; id ".Y"] (place 38 20) 0%N; [|rewrite P by reflexivity; opeq]. split; [reflexivity|].
        do 2 right. left. exists ".Y", 38%N. cbn; auto.
      + give [id "SR_CTAID"; id ".Z"] (place 39 20) 0%N; [|rewrite P by reflexivity; opeq]. split; [reflexivity|].
        do 2 right. left. exists ".Z", 39%N. cbn; auto.
      + xfind H; repeat xs H.
        * give [kind t] (place i 20) 0%N; [|rewrite (entry_bits None _ _ _ _ _ F) by lia; opeq].
          split; [reflexivity|]. do 3 right. eauto 8.
        * destruct (string_is_active _); discriminate H.
    - destruct S as (-> & [(s & v & I & -> & ->)|[(-> & U & ->)|[(s & v & I & -> & ->)|(k & i & -> & N1 & N2 & F & ->)]]]); rd R.
      + inl I; gg; cbn [N.eqb Pos.eqb]; gg; rewrite P by reflexivity; opeq.
      + gg. rewrite !equal_false by (eapply U; cbn; eauto 8). cbn [N.eqb Pos.eqb]. gg. rewrite P by reflexivity. opeq.
      + inl I; gg; rewrite P by reflexivity; opeq.
      + gg. gfind. gg. rewrite (entry_bits None _ _ _ _ _ F) by lia; opeq.
  Qed.
  Definition ldg_names := ["U8"; "S8"; "U16"; "S16"; "32"; "64"; "128"; "U"].
  Lemma ldg_named : forall k i, entry ldg_names "." k i <->
    (exists s, In (s, i) global_sizes /\ k = id s) \/ (k = id ".U" /\ i = 7%N).
  Proof.
    intros k i. rewrite entry_named by (apply distinct_NoDup; reflexivity).
    change (named "." ldg_names) with (global_sizes ++ [(".U", 7%N)]). split.
    - intros (s & I & ->). apply in_app_iff in I as [I|[[= <- <-]|[]]]; eauto.
    - intros [(s & I & ->)|(-> & ->)]; [exists s|exists ".U"]; rewrite in_app_iff; cbn; auto.
  Qed.
  Lemma m_ldg : meets OLdgSize.
  Proof.
    assert (P : forall v, (v < 8)%N -> shl64 v 48 = place v 48) by (intros v L; apply (shl_place _ _ 3); auto; lia).
    start; unfold run_ldg_size in *; cbn [s_tok] in *; fold ldg_names in *.
    - xfind H; repeat xs H; cbn [value_or] in *.
      + apply ldg_named in F as [(s & I & K)|(K & ->)].
        * assert (L : (i < 7)%N) by (inl I; reflexivity).
          destruct (N.eqb_spec i 7); [lia|]. repeat xs H.
          give [id s] (place i 48) 0%N; [|rewrite P by lia; opeq]. split; [reflexivity|]. left. eauto.
        * cbn [N.eqb Pos.eqb] in H. repeat xs H.
          give [id ".U"; id ".128"] (place 7 48) 0%N; [|rewrite P by reflexivity; opeq]. split; [reflexivity|]. auto.
      + give (@nil tkind) (place 4 48) 0%N; [|rewrite P by reflexivity; opeq]. split; [reflexivity|]. auto.
    - destruct S as (-> & [(s & v & I & -> & ->)|[(-> & ->)|(-> & U & ->)]]); rd R.
      + assert (L : (v < 7)%N) by (inl I; reflexivity).
        assert (F : entry ldg_names "." (kind t) v) by (apply ldg_named; eauto).
        gfind. gg. destruct (N.eqb_spec v 7); [lia|]. gg. cbn [value_or]. rewrite P by lia. opeq.
      + assert (F : entry ldg_names "." (kind t) 7) by (apply ldg_named; auto).
        gfind. gg. cbn [N.eqb Pos.eqb]. gg. cbn [value_or]. rewrite P by reflexivity. opeq.
      + rewrite (proj2 (find_none' ldg_names "." t') U). gg. cbn [value_or]. rewrite P by reflexivity. opeq.
  Qed.
  Definition atomic_names := ["U32"; "S32"; "U64"; "F32"; "F16x2"; "S64"].
  Lemma atomic_named : forall k i, entry atomic_names "." k i <->
    (exists s, In (s, i) [(".U32", 0); (".S32", 1); (".U64", 2); (".S64", 5)]%N /\ k = id s) \/
    (k = id ".F32" /\ i = 3%N) \/ (k = id ".F16x2" /\ i = 4%N).
  Proof.
    intros k i. rewrite entry_named by (apply distinct_NoDup; reflexivity). split.
    - intros (s & I & ->). change (named "." atomic_names) with
        [(".U32", 0); (".S32", 1); (".U64", 2); (".F32", 3); (".F16x2", 4); (".S64", 5)]%N in I.
      inl I; auto; left; eexists; (split; [|reflexivity]); cbn; auto.
    - intros [(s & I & ->)|[(-> & ->)|(-> & ->)]]; [exists s|exists ".F32"|exists ".F16x2"];
        (split; [|reflexivity]); [inl I; cbn; auto 8|cbn; auto 8|cbn; auto 8].
  Qed.
  Lemma m_atomic : forall a, (a + 3 <= 64)%N -> meets (OAtomicSize a).
  Proof.
    intros a A.
    assert (P : forall v, (v < 8)%N -> shl64 v a = place v a) by (intros v L; apply (shl_place _ _ 3); auto).
    start; unfold run_atomic_size in *; cbn [s_tok] in *; cbn [spells] in *; fold atomic_names in *.
    - cbv zeta in H. xfind H; repeat xs H; cbn [value_or] in *.
      + apply atomic_named in F as [(s & I & K)|[(K & ->)|(K & ->)]].
        * assert (L : (i < 8)%N) by (inl I; reflexivity).
          assert (N3 : N.eqb i 3 = false) by (inl I; reflexivity).
          assert (N4 : N.eqb i 4 = false) by (inl I; reflexivity). rewrite N3, N4 in H. repeat xs H.
          give [id s] (place i a) 0%N; [|rewrite P by lia; opeq]. split; [reflexivity|]. left. eauto.
        * cbn [N.eqb Pos.eqb] in H. repeat xs H.
          give [id ".F32"; id ".FTZ"; id ".RN"] (place 3 a) 0%N; [|rewrite P by reflexivity; opeq]. split; [reflexivity|]. auto.
        * cbn [N.eqb Pos.eqb] in H. repeat xs H.
          give [id ".F16x2"; id ".RN"] (place 4 a) 0%N; [|rewrite P by reflexivity; opeq]. split; [reflexivity|]. auto 6.
      + give (@nil tkind) 0%N 0%N; [|opeq]. split; [reflexivity|]. auto 8.
    - destruct S as (-> & [(s & v & I & -> & ->)|[(-> & ->)|[(-> & ->)|(-> & U & ->)]]]); rd R.
      + assert (L : (v < 8)%N) by (inl I; reflexivity).
        assert (N3 : N.eqb v 3 = false) by (inl I; reflexivity).
        assert (N4 : N.eqb v 4 = false) by (inl I; reflexivity).
        assert (F : entry atomic_names "." (kind t) v) by (apply atomic_named; eauto).
        gfind. gg. rewrite N3, N4. gg. cbn [value_or]. rewrite P by lia. opeq.
      + assert (F : entry atomic_names "." (kind t) 3) by (apply atomic_named; auto).
        gfind. gg. cbn [N.eqb Pos.eqb]. gg. cbn [value_or]. rewrite P by reflexivity. opeq.
      + assert (F : entry atomic_names "." (kind t) 4) by (apply atomic_named; auto).
        gfind. gg. cbn [N.eqb Pos.eqb]. gg. cbn [value_or]. rewrite P by reflexivity. opeq.
      + gfind. gg. cbn [value_or]. opeq.
  Qed.
  Definition tex_names := ["1D"; "ARRAY_1D"; "2D"; "ARRAY_2D"; "3D"; "ARRAY_3D"; "CUBE"; "ARRAY_CUBE"].
  Lemma m_textype : forall a, (a + 3 <= 64)%N -> meets (OTexType a).
  Proof.
    intros a A.
    assert (P : forall v, (v < 8)%N -> shl64 v a = place v a) by (intros v L; apply (shl_place _ _ 3); auto).
    assert (D : NoDup tex_names) by (apply distinct_NoDup; reflexivity).
    start; unfold run_tex_type in *; cbn [s_tok] in *; fold tex_names in *.
    - xfind H; repeat xs H. pose proof (entry_lt _ _ _ _ F) as L. cbn in L.
      apply entry_named in F as (s & I & K); [|exact D].
      give [id s] (place i a) 0%N; [|rewrite P by lia; opeq]. exists s, i. auto.
    - destruct S as (s & v & I & -> & -> & ->). rd R.
      assert (F : entry tex_names "" (kind t) v) by (apply entry_named; [exact D|]; eauto).
      pose proof (entry_lt _ _ _ _ F) as L. cbn in L.
      gfind. gg. rewrite P by lia. opeq.
  Qed.
End Run.
