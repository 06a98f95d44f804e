(** * Told: every diagnostic is explained by the text at its position. *)
From Verif Require Import Base Float Lexer Operand Catalogue Table Parse Assemble Spec LexFacts SchedFuel Param Reach ParseFacts
  Outcomes Encode Decode Program SpecInsn Insn SpecLex Lexemes Where Diag SpecDiag Message Footprint Operands2.
From Coq Require Import Lia.
Local Open Scope string_scope.
Local Open Scope list_scope.
Open Scope Z_scope.

(** ** Texts that are no tokens *)

Lemma imm_char_in : forall ch, is_imm_char ch = true -> In ch number_chars.
Proof. intros [[] [] [] [] [] [] [] []] H; vm_compute in H; try discriminate H; vm_compute; tauto. Qed.
Lemma hex_char_in : forall ch, is_hex_char ch = true -> In ch (lit "abcdefABCDEFxX").
Proof. intros [[] [] [] [] [] [] [] []] H; vm_compute in H; try discriminate H; vm_compute; tauto. Qed.
Lemma chunk_no_nul : forall s, number_chunk s -> c_string s = s.
Proof.
  intros s (a & b & -> & F & B). apply c_string_no_nul. intros I. apply in_app_or in I as [I|I].
  - rewrite Forall_forall in F. apply F in I. vm_compute in I. intuition discriminate.
  - destruct B as [->|(f & -> & F')]; [destruct I|]. destruct I as [I|I]; [discriminate|]. rewrite Forall_forall in F'. apply F' in I. vm_compute in I. intuition discriminate.
Qed.
Lemma decimals_no_nul : forall s n, denotes 10 s n -> c_string s = s.
Proof.
  intros s n D. apply c_string_no_nul. intros I. apply decimals_iff in D. rewrite forallb_forall in D. apply D in I. discriminate.
Qed.
Lemma small_prefix : forall a b, small (a ++ b) -> small a.
Proof. intros a b. unfold small. rewrite app_length. lia. Qed.

Lemma immediate_says : forall t c d, number_start (rest c) -> small (rest c) -> lex_immediate t c = Fatal d ->
  exists m s, d = diag_at t m /\ prints m s /\ complains (rest c) s.
Proof.
  intros t c d NS SM H. unfold lex_immediate in H. cbv zeta in H.
  destruct (skip_moves is_imm_char c) as (a & M1 & F1 & E1). set (c1 := skipc is_imm_char c) in *. rewrite (moves_between _ _ _ M1) in H.
  assert (FA : Forall (fun ch => In ch number_chars) a).
  { apply Forall_forall. intros ch I. rewrite forallb_forall in F1. apply imm_char_in, F1, I. }
  assert (RA : rest c = a ++ rest c1) by apply M1.
  assert (CA : number_chunk a) by (exists a, []; rewrite app_nil_r; auto).
  destruct (Ascii.eqb (peek (rest c1)) ".") eqn:EP.
  - apply Ascii.eqb_eq in EP. assert (BP : begins ["."%char] (rest c1)).
    { destruct (rest c1) as [|ch r]; [discriminate|]. cbn in EP. subst. exists "."%char, r. split; [reflexivity|left; reflexivity]. }
    destruct (existsb is_hex_char a) eqn:HX.
    + cbn [bind] in H. injection H as <-. eexists _, _. split; [reflexivity|]. split; [apply plain_prints; reflexivity|]. rewrite RA in *. apply complains_hex; auto.
      apply existsb_exists in HX as (h & I & HX). exists h. split; [apply hex_char_in, HX|exact I].
    + cbn [bind] in H. destruct (next_cases c1) as [(R & _)|(ch & r & R1 & NX)]; [rewrite R in EP; discriminate|].
      rewrite NX in H. cbn [bind] in H. destruct (next_moves _ _ NX) as (ch' & M2 & PC). rewrite EP in PC. subst ch'.
      set (c2 := Cursor r (adv_line ch (line c1)) (adv_col ch (col c1))) in *. destruct (skip_moves is_decimal c2) as (f & M3 & F3 & _). set (c3 := skipc is_decimal c2) in *.
      pose proof (moves_trans _ _ _ _ _ (moves_trans _ _ _ _ _ M1 M2) M3) as M.
      assert (RB : rest c = ((a ++ ["."%char]) ++ f) ++ rest c3) by apply M.
      assert (CB : number_chunk ((a ++ ["."%char]) ++ f)).
      { exists a, ("."%char :: f). rewrite <- app_assoc. split; [reflexivity|]. split; [exact FA|]. right. exists f. split; [reflexivity|].
        apply (Forall_forallb (fun ch => In ch decimals) is_decimal); [intros; apply decimal_in|exact F3]. }
      destruct (is_separator (peek (rest c3))) eqn:ES; cbn [negb] in H.
      * destruct (strtof (rest c)) as (fv, e). destruct (same_end e c3); [discriminate|]. cbn [negb] in H. injection H as <-.
        rewrite (moves_between _ _ _ M). eexists _, _. split; [reflexivity|]. rewrite RB in SM. split; [apply literal_prints, (small_prefix _ _ SM)|].
        rewrite (chunk_no_nul _ CB), RB in *. apply complains_literal; auto. apply ends_peek, ES.
      * injection H as <-. eexists _, _. split; [reflexivity|]. split; [apply plain_prints; reflexivity|].
        rewrite RB in *. apply complains_glued; auto. apply ends_not, ES.
  - cbn [bind] in H. destruct (is_separator (peek (rest c1))) eqn:ES; cbn [negb] in H.
    + destruct (strtoll 0 (rest c)) as (z, e). destruct (same_end e c1); [discriminate|]. cbn [negb] in H. injection H as <-.
      rewrite (moves_between _ _ _ M1). eexists _, _. split; [reflexivity|]. rewrite RA in SM. split; [apply literal_prints, (small_prefix _ _ SM)|].
      rewrite (chunk_no_nul _ CA), RA in *. apply complains_literal; auto. apply ends_peek, ES.
    + injection H as <-. eexists _, _. split; [reflexivity|]. split; [apply plain_prints; reflexivity|].
      rewrite RA in *. apply complains_glued; auto. apply ends_not, ES.
Qed.

Local Open Scope char_scope.
Lemma bad_says : forall c, bad_text (rest c) -> small (rest c) ->
  exists m s, tokenize1 c = Fatal (Diag (Some (line c, col c)) m) /\ prints m s /\ complains (rest c) s.
Proof.
  intros c B SM. remember (rest c) as l eqn:RC. symmetry in RC. destruct B as [r N|s i neg r PN DN L E|l NS ND NI NF|r N|s n r D NE L E|r E N].
  - assert (H : is_contained "!Pp" (peek (rest c)) = true) by (rewrite RC; reflexivity). rewrite (tokenize1_predicate c _ H eq_refl). unfold lex_predicate. rewrite RC. cbn [peek Ascii.eqb Bool.eqb].
    destruct (next_some c "!") as (c1 & -> & M); [rewrite RC; reflexivity|discriminate|]. cbn [bind].
    replace (is_contained "Pp" (peek (rest c1))) with false.
    { eexists _, _. split; [reflexivity|]. split; [apply plain_prints; reflexivity|]. apply complains_bang. exact N. }
    assert (R1 : rest c1 = r) by (destruct M as (M & _); rewrite RC in M; injection M as M; congruence).
    rewrite R1. rewrite <- Pp_begins in N. destruct (is_contained "Pp" (peek r)); [exfalso; apply N; reflexivity|reflexivity].
  - pose proof PN as PN0. pose proof DN as DN0. pose proof PN as (b & p & x & -> & B & P & _). apply (predicate_name_iff b p x neg i B P) in PN as (IC & IE).
    assert (H : is_contained "!Pp" (peek (rest c)) = true).
    { rewrite RC. destruct B as [(-> & _)|(-> & _)]; cbn [app peek]; [|reflexivity]. destruct P as [<-|[<-|[]]]; reflexivity. }
    assert (MM : exists c', moves c (b ++ [p; x]) c' /\ rest c' = r) by (exists (Cursor r (lines (b ++ [p; x]) (line c)) (cols (b ++ [p; x]) (col c))); split; [split; [exact RC|split; reflexivity]|reflexivity]).
    destruct MM as (c' & M & RQ). rewrite (tokenize1_predicate c _ H (predicate_long_exact _ c b neg p x c' M B P IC)). rewrite RQ, (proj2 (ends_peek _) E).
    apply digit_name_iff, decimal_in in DN. replace (is_contained "Tt" x) with false by (clear - DN; destruct x as [[] [] [] [] [] [] [] []]; vm_compute in DN |- *; congruence).
    pose proof L as L0. rewrite IE in L. rewrite (proj2 (N.ltb_lt _ _) L). eexists _, _. split; [reflexivity|]. split; [apply plain_prints; reflexivity|].
    eapply complains_predicate; eassumption.
  - rewrite <- RC in *. rewrite (tokenize1_number c NS ND). destruct (immediate_outcome (Token TNone (line c) (col c)) c NS) as [(k & c' & E)|(m & E)]; rewrite E; cbn [bind]; [exfalso|].
    + destruct (immediate_sound _ _ _ _ NS E) as (s & M & [(v & IV & NE & _)|(neg & v & n & FR & NE & _)]).
      * exact (NI s v (rest c') (proj1 M) IV NE).
      * exact (NF s neg v n (rest c') (proj1 M) FR NE).
    + destruct (immediate_says _ _ _ NS SM E) as (m' & s & ED & PR & CM). unfold diag_at in ED. cbn [t_line t_col] in ED. injection ED as ->. exists m', s. auto.
  - assert (PK : peek (rest c) = "R") by (rewrite RC; reflexivity). rewrite (tokenize1_register c _ PK eq_refl). unfold lex_register.
    assert (MM : exists c', moves c ["R"; "Z"] c' /\ rest c' = r) by (exists (Cursor r (lines ["R"; "Z"] (line c)) (cols ["R"; "Z"] (col c))); split; [split; [exact RC|split; reflexivity]|reflexivity]).
    destruct MM as (c' & M & RQ). destruct (moves_split _ ["R"] ["Z"] _ M) as (c1 & M1 & M2). rewrite (moves_next _ _ _ M1). cbn [bind]. rewrite (peek_moves _ _ _ _ M2). cbn [Ascii.eqb Bool.eqb].
    rewrite (moves_next _ _ _ M2). cbn [bind]. rewrite RQ. pose proof N as N0. apply ends_not in N. rewrite N. eexists _, _. split; [reflexivity|]. split; [apply plain_prints; reflexivity|].
    apply complains_zero, N0.
  - assert (PK : peek (rest c) = "R") by (rewrite RC; reflexivity).
    assert (MM : exists c', moves c ("R" :: s) c' /\ rest c' = r) by (exists (Cursor r (lines ("R" :: s) (line c)) (cols ("R" :: s) (col c))); split; [split; [exact RC|split; reflexivity]|reflexivity]).
    destruct MM as (c' & M & RQ). pose proof E as E0. rewrite <- RQ in E. rewrite (tokenize1_register c _ PK (register_digits_exact _ c s n c' M D NE E)).
    rewrite (proj2 (Z.leb_gt _ _) L). eexists _, _. split; [reflexivity|]. split; [apply register_range_prints, (small_prefix ("R" :: s) r), SM|].
    replace (c_string ("R" :: s)) with ("R" :: s) by (cbn; rewrite (decimals_no_nul _ _ D); reflexivity). eapply complains_register; eassumption.
  - assert (PK : peek (rest c) = "R") by (rewrite RC; reflexivity). rewrite (tokenize1_register c _ PK eq_refl). unfold lex_register.
    destruct (next_some c "R" PK ltac:(discriminate)) as (c1 & -> & M). cbn [bind]. assert (R1 : rest c1 = r) by (destruct M as (M & _); rewrite RC in M; injection M as M; congruence).
    pose proof E as E0. rewrite R1. apply ends_peek in E. destruct (sep_not_decimal _ E) as (ND & NZ). rewrite NZ.
    rewrite (skip_exact is_decimal c1 [] c1 (moves_refl c1) eq_refl) by (right; rewrite R1; exact ND). rewrite R1, E. cbn [negb].
    destruct (strtoll10_some _ N) as (v & e & -> & L). replace (same_end e c1) with false by (symmetry; apply Nat.eqb_neq; rewrite R1; lia). cbn [negb].
    rewrite (moves_between _ _ _ M). eexists _, _. split; [reflexivity|]. split; [apply register_prints, (small_prefix ["R"] r), SM|]. apply complains_lone; assumption.
Qed.
Local Close Scope char_scope.

(** ** Diagnostics about tokens *)

Section Told.
  Variables known defined : text -> Prop.
  Variable c0 : cursor.
  Hypothesis SM0 : small (rest c0).

  (** [d] is printed as [s], which is true of the token, or of the text that is
      none, at the position of [d]. *)
  Definition explained (d : diag) : Prop :=
    exists c g cs s, boundary c0 c /\ moves c g cs /\ gap g (rest cs) /\ d_pos d = Some (line cs, col cs) /\ prints (d_msg d) s /\
      ((exists w k r, rest cs = w ++ r /\ token_text w k r /\ says known defined k s) \/ (bad_text (rest cs) /\ complains (rest cs) s)).

  Lemma boundary_small : forall c, boundary c0 c -> small (rest c).
  Proof.
    intros c B. destruct (boundary_moves _ _ B) as (p & M & _). pose proof SM0 as S. unfold small in *. rewrite M, app_length in S. lia.
  Qed.
  Lemma moves_small : forall c p c', moves c p c' -> small (rest c) -> small (rest c') /\ small p.
  Proof. intros c p c' (M & _) S. unfold small in *. rewrite M, app_length in S. lia. Qed.

  (** A token just read. *)
  Record fresh (t : token) (c : cursor) : Prop := {
    fresh_boundary : boundary c0 c;
    fresh_says : forall m s, prints m s -> says known defined (kind t) s -> explained (diag_at t m);
    fresh_small : small (token_view (kind t)) }.

  Definition held {A} (P : A -> Prop) (m : res A) : Prop :=
    match m with Ok a => P a | Err d | Fatal d => explained d | _ => True end.
  Lemma held_bind : forall A B (P : A -> Prop) (Q : B -> Prop) (m : res A) (k : A -> res B),
    held P m -> (forall a, m = Ok a -> P a -> held Q (k a)) -> held Q (bind m k).
  Proof. intros A B P Q [] k H K; cbn in *; auto. Qed.

  Lemma token_view_text : forall s k r, token_text s k r -> token_view k = [] \/ token_view k = s.
  Proof. intros s k r [L|(-> & -> & _)]; [|left; reflexivity]. destruct L as [ch k q I _|?|?|?|?|?|?|w q]; try (left; reflexivity); [|right; reflexivity].
    left. repeat (destruct I as [I|I]; [injection I as <- <-; reflexivity|]). destruct I.
  Qed.
  Lemma held_tokenize : forall c, boundary c0 c -> held (fun x => fresh (fst x) (snd x)) (tokenize c).
  Proof.
    intros c B. destruct (tokenize c) as [(t, c')|d|d| | |] eqn:T; cbn; auto.
    - pose proof T as T0. apply tokenize_iff in T0 as (g & s & cs & M & GP & M2 & TT & L & C).
      destruct (moves_small _ _ _ M (boundary_small _ B)) as (S1 & _). destruct (moves_small _ _ _ M2 S1) as (_ & S2). split.
      + eapply boundary_next; eassumption.
      + intros m x P SY. exists c, g, cs, x. split; [exact B|]. split; [exact M|]. split; [exact GP|]. split; [cbn; rewrite L, C; reflexivity|]. split; [exact P|].
        left. exists s, (kind t), (rest c'). split; [apply M2|]. auto.
      + destruct (token_view_text _ _ _ TT) as [->| ->]; [unfold small; cbn; lia|exact S2].
    - pose proof (tokenize_outcomes c) as O. rewrite T in O. contradiction.
    - destruct (tokenize_fails c) as (g & cs & M & GP & E & [(BT & m & _)|(_ & E')]); [intros; congruence| |congruence].
      destruct (moves_small _ _ _ M (boundary_small _ B)) as (S1 & _). destruct (bad_says _ BT S1) as (m' & s & E1 & P & CM).
      rewrite E, tokenize_step, E1 in T. cbn in T. injection T as <-. exists c, g, cs, s. auto 8.
  Qed.

  (** ** Saying things *)

  Definition lookup (s : string) : option (tkind -> bool) := option_map snd (find (fun x => String.eqb (fst x) s) sentences).
  Lemma lookup_in : forall s p, lookup s = Some p -> In (s, p) sentences.
  Proof.
    intros s p H. unfold lookup in H. destruct (find _ _) as [(s', p')|] eqn:E; [|discriminate]. injection H as ->.
    apply find_some in E as (I & E). apply String.eqb_eq in E. cbn in E. subst. exact I.
  Qed.
  Definition sayable (s : string) (k : tkind) : Prop := exists p, In (s, p) sentences /\ p k = true.
  Lemma say : forall t c s, fresh t c -> sayable s (kind t) -> explained (diag_at t s).
  Proof. intros t c s F (p & I & P). eapply fresh_says; [exact F|eapply sentence_prints, I|]. econstructor; eassumption. Qed.
  Lemma sayable_lookup : forall s k p, lookup s = Some p -> p k = true -> sayable s k.
  Proof. intros s k p L P. exists p. split; [apply lookup_in, L|exact P]. Qed.

  Definition live (s : st) : Prop := fresh (s_tok s) (s_cur s).
  Lemma held_advance : forall s, live s -> held live (advance_tok s).
  Proof. intros s L. unfold advance_tok. eapply held_bind; [apply held_tokenize, L|]. intros (t, c) _ F. exact F. Qed.
  Lemma held_put : forall e b s, live s -> held (fun s' => live s' /\ s_tok s' = s_tok s) (put e b s).
  Proof. intros e b s L. unfold put, add_bits. destruct (_ && _); [exact I|]. cbn. auto. Qed.

  Lemma expected_said : forall t c ty, fresh t c -> ttype_eqb (type_of (kind t)) ty = false -> In (type_name ty) descriptions ->
    explained (diag_at t (expected_message ty (kind t))).
  Proof.
    intros t c ty F NE I. pose proof (fresh_small _ _ F) as S. destruct (kind t) eqn:K.
    { eapply fresh_says; [exact F|apply expected_end_prints|]. rewrite K. apply says_missing, I. }
    all: eapply fresh_says; [exact F|apply expected_prints; [discriminate|exact S]|]; rewrite K; apply says_other; [exact I|discriminate| |apply c_string_shown];
      intros E; destruct ty; cbn in E, NE; discriminate.
  Qed.
  Lemma held_confirm : forall ty s, live s -> In (type_name ty) descriptions -> held (fun s' => s' = s /\ type_of (s_kind s) = ty) (confirm_type ty s).
  Proof.
    intros ty s L I. unfold confirm_type. destruct (ttype_eqb _ _) eqn:E.
    - cbn. split; [reflexivity|]. destruct (type_of (s_kind s)), ty; try discriminate; reflexivity.
    - cbn. eapply expected_said; eassumption.
  Qed.
  Lemma held_convert : forall s lo hi, live s -> held (fun _ => True) (convert_integer s lo hi).
  Proof.
    intros s lo hi L. unfold convert_integer. eapply held_bind; [apply held_confirm; [exact L|cbn; tauto]|]. intros s' _ (-> & _).
    destruct (s_kind s) eqn:K; try exact I. destruct (_ || _) eqn:R; [|exact I]. cbn. eapply fresh_says; [exact L|apply range_prints|].
    unfold s_kind in K. rewrite K. apply says_range with (z := s32_of_Z z) (lo := lo) (hi := hi); try apply decimal_numeral; [|apply s32_low].
    apply orb_true_iff in R as [R|R]; apply Z.ltb_lt in R; lia.
  Qed.

  (** ** Tables *)

  Lemma one_of_sub : forall l l' k, forallb (fun x => existsb (String.eqb x) l') l = true -> one_of l k = true -> one_of l' k = true.
  Proof.
    intros l l' k S H. unfold one_of in *. destruct k; try discriminate. apply existsb_exists in H as (x & I & E). apply existsb_exists.
    exists x. split; [|exact E]. rewrite forallb_forall in S. specialize (S _ I). apply existsb_exists in S as (y & I' & Y). apply String.eqb_eq in Y. subst. exact I'.
  Qed.
  Lemma none_of_sub : forall l l' k, forallb (fun x => existsb (String.eqb x) l') l = true -> none_of l' k = true -> none_of l k = true.
  Proof.
    intros l l' k S H. unfold none_of in *. destruct (one_of l k) eqn:E; [|reflexivity]. rewrite (one_of_sub _ _ _ S E) in H. discriminate.
  Qed.
  Lemma none_app : forall l l' k, none_of l k = true -> none_of l' k = true -> none_of (l ++ l') k = true.
  Proof.
    intros l l' k H H'. unfold none_of, one_of in *. destruct k; try reflexivity. rewrite existsb_app. destruct (existsb _ l); [discriminate|]. destruct (existsb _ l'); [discriminate|reflexivity].
  Qed.
  Lemma one_of_equal : forall l t, one_of l (kind t) = existsb (equal t) l.
  Proof.
    intros l t. unfold one_of, equal. destruct (kind t) as [|w| | | | | | | | | | | | |]; try reflexivity; induction l as [|x l IH]; auto.
  Qed.
  Lemma none_equal : forall t s, equal t s = false -> none_of [s] (kind t) = true.
  Proof. intros t s H. unfold equal in H. unfold none_of, one_of. destruct (kind t); try reflexivity. cbn [existsb]. rewrite H. reflexivity. Qed.
  Lemma one_equal : forall t s, equal t s = true -> one_of [s] (kind t) = true.
  Proof. intros t s H. unfold equal in H. unfold one_of. destruct (kind t); try discriminate. cbn [existsb]. rewrite H. reflexivity. Qed.

  Lemma strip_some : forall p w x, strip_prefix p w = Some x -> w = p ++ x.
  Proof.
    induction p as [|a p IH]; intros w x H; cbn in H; [injection H as ->; reflexivity|]. destruct w as [|b w]; [discriminate|].
    destruct (Ascii.eqb_spec a b); [|discriminate]. subst. cbn. rewrite (IH _ _ H). reflexivity.
  Qed.
  Lemma strip_none : forall p w x, strip_prefix p w = None -> w <> p ++ x.
  Proof.
    induction p as [|a p IH]; intros w x H; cbn in H; [discriminate|]. destruct w as [|b w]; [discriminate|]. cbn.
    destruct (Ascii.eqb_spec a b); [|congruence]. intros E. injection E as _ E. exact (IH _ _ H E).
  Qed.
  Lemma lit_append : forall a b, lit (a ++ b)%string = lit a ++ lit b.
  Proof. unfold lit. induction a as [|ch a IH]; intros b; [reflexivity|]. cbn. rewrite IH. reflexivity. Qed.
  Lemma index_none : forall tbl i x y, index_of i tbl x = None -> In y tbl -> x <> lit y.
  Proof.
    induction tbl as [|z tbl IH]; intros i x y H I; [destruct I|]. cbn in H. destruct (text_eqb x (lit z)) eqn:E; [discriminate|].
    destruct I as [->|I]; [|exact (IH _ _ _ H I)]. intros ->. rewrite text_eqb_refl in E. discriminate.
  Qed.
  Lemma index_some : forall tbl i j x, index_of i tbl x = Some j -> (i <= j)%N /\ exists y, nth_error tbl (N.to_nat (j - i)) = Some y /\ x = lit y.
  Proof.
    induction tbl as [|z tbl IH]; intros i j x H; [discriminate|]. cbn in H. destruct (text_eqb x (lit z)) eqn:E.
    - injection H as ->. split; [lia|]. exists z. rewrite N.sub_diag. apply text_eqb_eq in E. auto.
    - apply IH in H as (L & y & N & ->). split; [lia|]. exists y. split; [|reflexivity].
      replace (N.to_nat (j - i)) with (S (N.to_nat (j - (i + 1)))) by lia. exact N.
  Qed.
  Lemma find_none : forall b tbl p t, find_in_table b tbl p t = Ok None -> none_of (map (String.append p) tbl) (kind t) = true.
  Proof.
    intros b tbl p t H. unfold find_in_table in H. unfold none_of, one_of. destruct (kind t) as [|w| | | | | | | | | | | | |]; try reflexivity.
    match goal with |- negb ?x = true => destruct x eqn:E; [exfalso|reflexivity] end. apply existsb_exists in E as (y & I & E). apply text_eqb_eq in E. apply in_map_iff in I as (z & <- & I).
    rewrite lit_append in E. destruct (strip_prefix (lit p) w) as [x|] eqn:SP; [|exact (strip_none _ _ _ SP E)].
    apply strip_some in SP. rewrite SP in E. apply app_inv_head in E. destruct (index_of 0 tbl x) eqn:IX; [discriminate|]. exact (index_none _ _ _ _ IX I E).
  Qed.
  Lemma find_some_in : forall b tbl p t i l, find_in_table b tbl p t = Ok (Some i) ->
    match nth_error tbl (N.to_nat i) with Some x => existsb (String.eqb (p ++ x)%string) l | None => false end = true -> one_of l (kind t) = true.
  Proof.
    intros b tbl p t i l H L. unfold find_in_table in H. unfold one_of. destruct (kind t) as [|w| | | | | | | | | | | | |]; try discriminate.
    destruct (strip_prefix (lit p) w) as [x|] eqn:SP; [|discriminate]. apply strip_some in SP. destruct (index_of 0 tbl x) as [j|] eqn:IX; [|destruct b; discriminate].
    injection H as ->. apply index_some in IX as (_ & y & N & ->). rewrite N.sub_0_r in N. rewrite N in L. apply existsb_exists in L as (z & I & E). apply String.eqb_eq in E. subst z.
    apply existsb_exists. exists (p ++ y)%string. split; [exact I|]. rewrite SP, <- lit_append. apply text_eqb_refl.
  Qed.
  Lemma held_find : forall b tbl p t, held (fun _ => True) (find_in_table b tbl p t).
  Proof.
    intros b tbl p t. unfold find_in_table. destruct (kind t); try exact I. destruct (strip_prefix _ _); [|exact I]. destruct (index_of _ _ _); [exact I|]. destruct b; exact I.
  Qed.
  Lemma held_sub : forall a b, held (fun _ => True) (sub64 a b).
  Proof. intros a b. unfold sub64. destruct (_ || _); exact I. Qed.
  Lemma held_reuse : forall a op b, held (fun _ => True) (add_reuse a op b).
  Proof. intros a op b. unfold add_reuse. destruct (_ && _); exact I. Qed.
  Lemma held_live_put : forall e b s, live s -> held live (put e b s).
  Proof. intros e b s L. pose proof (held_put e b s L) as H. destruct (put e b s); cbn in *; auto. apply H. Qed.

  (** ** Operands *)

  (** The message of an operand that names the words it wants. *)
  Fixpoint op_ok (o : opnd) : Prop :=
    match o with
    | OReqTable p _ tbl msg => forall k, none_of (map (String.append p) tbl) k = true -> sayable msg k
    | OReqText s _ msg | OReqTextAfter s _ _ msg => forall k, none_of [s] k = true -> sayable msg k
    | OIntFormat u sg _ _ msg => forall k, none_of (map (String.append ".") u ++ map (String.append ".") sg) k = true -> sayable msg k
    | OAbs _ o => op_ok o
    | _ => True
    end.

  Ltac live := solve [assumption | unfold live in *; cbn [s_tok s_cur set_value] in *; assumption
    | match goal with H : live ?s |- live ?s' => change (live s); assumption end ].
  Ltac known_token := repeat match goal with H : s_tok ?a = s_tok ?b |- _ => rewrite H in *; clear H end.
  Ltac cond :=
    cbn [snd]; cbn beta iota; known_token; cbn [s_tok set_value] in *;
    first
      [ reflexivity
      | eapply none_of_sub; [|eapply find_none; eassumption]; reflexivity
      | eapply find_some_in; [eassumption|reflexivity]
      | eapply none_of_sub; [|eapply none_equal; eassumption]; reflexivity
      | eapply one_of_sub; [|eapply one_equal; eassumption]; reflexivity
      | unfold s_kind in *; cbn [s_tok set_value] in *;
        repeat match goal with H : kind _ = _ |- _ => rewrite H end;
        solve [reflexivity | assumption | unfold none_of, one_of; cbn [existsb negb]; reflexivity]
      | unfold none_of; rewrite one_of_equal; cbn [existsb]; repeat match goal with H : equal _ _ = _ |- _ => rewrite H end; reflexivity ].
  Ltac site :=
    cbn [held fail];
    first
      [ eapply say; [eassumption|eapply sayable_lookup; [reflexivity|cond]]
      | eapply say; [unfold live in *; cbn [s_tok s_cur set_value] in *; eassumption|eapply sayable_lookup; [reflexivity|cond]] ].

  Ltac h1 :=
    match goal with
    | x : (_ * _)%type |- _ => destruct x
    | H : _ /\ _ |- _ => destruct H
    | H : ?a = ?b |- _ => is_var a; subst a
    | |- held _ (bind (bind _ _) _) => rewrite bind_assoc
    | |- held _ (bind (Ok _) _) => cbn [bind]
    | |- held _ (bind (fail _ _) _) => cbn [bind fail]
    | |- held _ (bind (Undef _) _) => exact I
    | |- held _ (bind (Abort _) _) => exact I
    | |- held _ (bind (advance_tok _) _) => eapply held_bind; [apply held_advance; live|intros ? _ ?]
    | |- held _ (bind (put _ _ _) _) => eapply held_bind; [apply held_put; live|intros ? _ (? & ?)]
    | |- held _ (bind (confirm_type _ _) _) => eapply held_bind; [apply held_confirm; [live|cbn; tauto]|intros ? _ (? & ?)]
    | |- held _ (bind (convert_integer _ _ _) _) => eapply held_bind; [apply held_convert; live|intros ? _ _]
    | |- held _ (bind (find_in_table _ _ _ _) _) => eapply held_bind; [apply held_find|intros [?|] ? _]
    | |- held _ (bind (sub64 _ _) _) => eapply held_bind; [apply held_sub|intros ? ? _]
    | |- held _ (bind (add_reuse _ _ _) _) => eapply held_bind; [apply held_reuse|intros ? _ _]
    | |- held _ (bind (if ?b then _ else _) _) => destruct b eqn:?
    | |- held _ (bind (match ?b with _ => _ end) _) => destruct b eqn:?
    | |- held _ (bind (confirm_type_next _ _) _) => unfold confirm_type_next
    | |- held _ (bind (try_reuse _ _ _) _) => unfold try_reuse
    | |- held _ (bind (assemble_gpr _ _ _) _) => unfold assemble_gpr
    | |- held _ (bind (assemble_uint _ _ _ _) _) => unfold assemble_uint
    | |- held _ (bind (assemble_int _ _ _ _) _) => unfold assemble_int
    | |- held _ (advance_tok _) => apply held_advance; live
    | |- held _ (put _ _ _) => apply held_live_put; live
    | |- held _ (Ok _) => cbn [held]; live
    | |- held _ (Undef _) => exact I
    | |- held _ (Abort _) => exact I
    | |- held _ (if ?b then _ else _) => destruct b eqn:?
    | |- held _ (match ?b with _ => _ end) => destruct b eqn:?
    | |- held _ (try_reuse _ _ _) => unfold try_reuse
    | |- held _ (assemble_gpr _ _ _) => unfold assemble_gpr
    | |- held _ (assemble_uint _ _ _ _) => unfold assemble_uint
    | |- held _ (assemble_int _ _ _ _) => unfold assemble_int
    | |- held _ (run_memory_address _ _ _ _ _ _) => unfold run_memory_address
    | H : negb _ = true |- _ => apply negb_true_iff in H
    | H : negb _ = false |- _ => apply negb_false_iff in H
    | H : _ && _ = true |- _ => apply andb_true_iff in H
    | H : _ || _ = false |- _ => apply orb_false_iff in H
    | |- held _ (fail _ _) => site
    | |- held _ (Err _) => site
    end.
  Ltac hh := repeat h1.

  Lemma operand_held : forall e o s, (forall w, find_label (e_labels e) w = None -> ~ defined w) -> op_ok o -> live s -> held live (run_operand e o s).
  Proof.
    intros e. induction o; intros s0 DF K L; cbn [run_operand];
      unfold run_comma, assemble_flag, dot_table, req_table, req_text, req_text_after, opt_text,
        run_uimm_extended, run_label, run_mirror_dgpr, assemble_constant_buffer,
        assemble_signed_20bit_immediate, assemble_float_immediate, assemble_double_immediate,
        assemble_half_float_immediate, run_pred, run_inverted_pred, opt_type, run_abs, run_po,
        assemble_cc_tests, run_imm_attr, run_patch_attr, run_phys_attr, run_xmad_signs,
        run_f2f_rounding, run_int_format, run_ldc_address, run_s2r, run_ldg_size, run_selector,
        run_atomic_size, run_src_format, run_tex_type, run_zero, run_texs_mode, run_tlds_type,
        run_texs_type, run_texs_swizzle; cbv zeta. 
    all: hh.
    - cbn [held fail]. eapply say; [exact L|]. apply K. eapply find_none, H.
    - cbn [held fail]. eapply say; [exact L|]. apply K. eapply none_equal. eassumption.
    - cbn [held fail]. eapply say; [exact L|]. apply K. eapply none_equal. eassumption.
    - cbn [held]. eapply fresh_says; [exact L| |].
      + apply label_prints. pose proof (fresh_small _ _ L) as S. unfold s_kind in *. rewrite Heqt in S. exact S.
      + unfold s_kind in Heqt. rewrite Heqt. apply says_label; [apply DF; assumption|apply c_string_shown].
    - rewrite f32_ne_refl in * by apply f32_of_Z_ok. discriminate.
    - eapply held_bind; [apply IHo; [exact DF|exact K|live]|]. intros s _ LS. hh.
    - eapply held_bind; [apply IHo; [exact DF|exact K|live]|]. intros s _ LS. hh.
    - cbn [held fail]. unfold s_kind in *. destruct (kind (s_tok a)) eqn:KA; try discriminate. eapply fresh_says; [eassumption| |].
      + apply test_prints. pose proof (fresh_small _ _ H) as S. rewrite KA in S. exact S.
      + rewrite KA. apply says_test, c_string_shown.
    - cbn [held fail]. eapply say; [exact L|]. apply K. apply none_app; eapply find_none; eassumption.
    - cbn [held fail]. eapply fresh_says; [exact L|apply system_prints, (fresh_small _ _ L)|]. apply says_system; [|apply c_string_shown].
      unfold s_kind in *. destruct (kind (s_tok s0)); try discriminate; reflexivity.
  Qed.

  (** ** Instructions *)

  Lemma sched_int_held : forall s max msg, live s -> (forall k, outside 0 max k = true -> sayable msg k) ->
    held (fun x => live (snd x) /\ exists z, kind (s_tok (snd x)) = TImm z /\ 0 <= z <= max /\ fst x = Z.to_N z) (sched_int s max msg).
  Proof.
    intros s max msg L K. unfold sched_int. eapply held_bind; [apply held_advance, L|]. intros s1 _ L1.
    eapply held_bind; [apply held_confirm; [exact L1|cbn; tauto]|]. intros s2 _ (-> & T). destruct (s_kind s1) eqn:KS; try discriminate. unfold s_kind in KS.
    destruct (_ || _) eqn:R; cbn [held fail].
    - eapply say; [exact L1|]. apply K. rewrite KS. exact R.
    - split; [exact L1|]. exists z. split; [exact KS|]. split; [|reflexivity]. apply orb_false_iff in R as (R1 & R2). apply Z.ltb_ge in R1, R2. lia.
  Qed.
  Lemma said_as : forall t c m s p, fresh t c -> lookup s = Some p -> p (kind t) = true -> (forall b, printf b m = Some (lit s)) ->
    miscast (lit s) = false -> explained (diag_at t m).
  Proof.
    intros t c m s p F L P H N. eapply fresh_says; [exact F|apply prints_strict; [exact H|exact N]|]. eapply says_sentence; [apply lookup_in, L|exact P].
  Qed.
  Lemma dep_said : forall t c n, fresh t c -> kind t = TImm (Z.of_N n) -> (n <= 5)%N -> explained (diag_at t (dep_message n)).
  Proof.
    intros t c n F K L. assert (H : (n = 0 \/ n = 1 \/ n = 2 \/ n = 3 \/ n = 4 \/ n = 5)%N) by lia.
    destruct H as [->|[->|[->|[->|[->| ->]]]]].
    - eapply (said_as t c _ "dependency barrier index 0 already specified"); [exact F|reflexivity|cbn [snd]; rewrite K; reflexivity|intros b; reflexivity|reflexivity].
    - eapply (said_as t c _ "dependency barrier index 1 already specified"); [exact F|reflexivity|cbn [snd]; rewrite K; reflexivity|intros b; reflexivity|reflexivity].
    - eapply (said_as t c _ "dependency barrier index 2 already specified"); [exact F|reflexivity|cbn [snd]; rewrite K; reflexivity|intros b; reflexivity|reflexivity].
    - eapply (said_as t c _ "dependency barrier index 3 already specified"); [exact F|reflexivity|cbn [snd]; rewrite K; reflexivity|intros b; reflexivity|reflexivity].
    - eapply (said_as t c _ "dependency barrier index 4 already specified"); [exact F|reflexivity|cbn [snd]; rewrite K; reflexivity|intros b; reflexivity|reflexivity].
    - eapply (said_as t c _ "dependency barrier index 5 already specified"); [exact F|reflexivity|cbn [snd]; rewrite K; reflexivity|intros b; reflexivity|reflexivity].
  Qed.
  Lemma barrier_said : forall t c (w : bool), fresh t c -> equal t (if w then "WB" else "RB") = true -> explained (diag_at t (barrier_message w)).
  Proof.
    intros t c w F E. destruct w.
    - eapply (said_as t c _ "write barrier already specified"); [exact F|reflexivity|cbn [snd]; apply one_equal, E|intros b; reflexivity|reflexivity].
    - eapply (said_as t c _ "read barrier already specified"); [exact F|reflexivity|cbn [snd]; apply one_equal, E|intros b; reflexivity|reflexivity].
  Qed.
  Ltac out := intros ? ?; eapply sayable_lookup; [reflexivity|eassumption].
  Lemma sched_loop_held : forall n v s, live s -> held live (assemble_sched_loop n v s).
  Proof.
    induction n as [|n IH]; intros v s L; cbn [assemble_sched_loop]; [exact I|]. destruct (negb _) eqn:AT; [exact L|].
    eapply held_bind; [apply held_advance, L|]. intros s1 _ L1.
    destruct (equal (s_tok s1) "WAIT") eqn:EW.
    { destruct (v_stall v); [site|]. eapply held_bind; [apply sched_int_held; [exact L1|out]|]. intros (m, s2) _ (L2 & _). cbn [snd] in L2.
      eapply held_bind; [apply held_advance, L2|]. intros s3 _ L3. apply IH, L3. }
    destruct (equal (s_tok s1) "WB" || equal (s_tok s1) "RB") eqn:EB.
    { cbv zeta. assert (EQ : equal (s_tok s1) (if equal (s_tok s1) "WB" then "WB" else "RB") = true).
      { destruct (equal (s_tok s1) "WB") eqn:X; [exact X|exact EB]. }
      destruct (if equal (s_tok s1) "WB" then v_write v else v_read v); [cbn [held fail]; eapply barrier_said; [exact L1|exact EQ]|].
      eapply held_bind; [apply sched_int_held; [exact L1|out]|]. intros (m, s2) _ (L2 & _). cbn [snd] in L2.
      eapply held_bind; [apply held_advance, L2|]. intros s3 _ L3. apply IH, L3. }
    destruct (equal (s_tok s1) "Y" || equal (s_tok s1) "YIELD") eqn:EY.
    { destruct (v_yield v).
      - cbn [held fail]. eapply say; [exact L1|]. eapply sayable_lookup; [reflexivity|]. cbn [snd]. rewrite one_of_equal. cbn [existsb]. rewrite orb_false_r. exact EY.
      - eapply held_bind; [apply held_advance, L1|]. intros s3 _ L3. apply IH, L3. }
    destruct (equal (s_tok s1) "DEP") eqn:ED.
    { eapply held_bind; [apply sched_int_held; [exact L1|out]|]. intros (m, s2) _ (L2 & z & K & Z0 & EM). cbn [fst snd] in *. subst m. cbv zeta.
      destruct (negb (N.eqb _ _)) eqn:M.
      - cbn [held fail]. eapply dep_said; [exact L2| |lia]. rewrite K. f_equal. lia.
      - eapply held_bind; [apply held_advance, L2|]. intros s3 _ L3. apply IH, L3. }
    apply orb_false_iff in EB as (? & ?). apply orb_false_iff in EY as (? & ?). site.
  Qed.
  Lemma sched_held : forall s, live s -> held live (assemble_sched s).
  Proof. intros s L. apply sched_loop_held, L. Qed.

  Definition attempt_held (r : attempt) : Prop := match r with Parsed s => live s | Failed d _ => explained d end.
  Lemma scored_held : forall n m k, held live m -> (forall s, live s -> held attempt_held (k s)) -> held attempt_held (scored n m k).
  Proof. intros n [] k H K; cbn in *; auto. Qed.
  Lemma operands_held : forall e ops n s k, (forall w, find_label (e_labels e) w = None -> ~ defined w) -> Forall op_ok ops -> live s ->
    (forall n s, live s -> held attempt_held (k n s)) -> held attempt_held (run_operands e ops n s k).
  Proof.
    intros e ops n s k DF F. revert n s. induction F as [|o ops O F IH]; intros n s L K; cbn [run_operands]; auto.
    apply scored_held; [apply operand_held; assumption|]. intros s1 L1. apply IH; assumption.
  Qed.
  Definition insn_ok (i : insn) : Prop :=
    Forall op_ok (i_operands i) /\ (N.land (i_flags i) NO_PRED <> 0%N -> In (i_mnemonic i) always_names).
  Lemma guard_said : forall t c m, fresh t c -> In m always_names -> explained (diag_at t (guard_message m)).
  Proof.
    intros t c m F H. cbn in H. destruct H as [<-|[<-|[<-|[<-|[]]]]].
    - eapply (said_as t c _ "PBK does not support predicated execution"); [exact F|reflexivity|reflexivity|intros b; reflexivity|reflexivity].
    - eapply (said_as t c _ "SSY does not support predicated execution"); [exact F|reflexivity|reflexivity|intros b; reflexivity|reflexivity].
    - eapply (said_as t c _ "CAL does not support predicated execution"); [exact F|reflexivity|reflexivity|intros b; reflexivity|reflexivity].
    - eapply (said_as t c _ "PCNT does not support predicated execution"); [exact F|reflexivity|reflexivity|intros b; reflexivity|reflexivity].
  Qed.
  Lemma insn_held : forall e i c op, (forall w, find_label (e_labels e) w = None -> ~ defined w) -> insn_ok i -> boundary c0 c -> held attempt_held (parse_insn e i c op).
  Proof.
    intros e i c op DF (OK & G) B. unfold parse_insn. apply (held_bind _ _ (fun _ => True)).
    { unfold add_bits. destruct (_ && _); exact I. }
    intros op1 _ _. eapply held_bind; [apply held_tokenize, B|]. intros (t, c1) _ F. cbn [fst snd] in F. cbv zeta.
    destruct (_ && _) eqn:E.
    - cbn [held attempt_held]. eapply guard_said; [exact F|]. apply G. apply andb_true_iff in E as (E & _). apply negb_true_iff in E. apply N.eqb_neq in E. exact E.
    - apply operands_held; [exact DF|exact OK|exact F|]. intros n s L. apply scored_held; [apply sched_held, L|]. intros s1 L1.
      apply scored_held; [|intros s2 L2; exact L2]. pose proof (held_confirm ty_semi s1 L1 ltac:(cbn; tauto)) as H. destruct (confirm_type ty_semi s1); cbn [held] in H |- *; try exact H. destruct H as (-> & _). exact L1.
  Qed.
  Lemma table_held : forall e tbl t c op best, (forall w, find_label (e_labels e) w = None -> ~ defined w) -> Forall insn_ok tbl -> fresh t c ->
    (match best with Some (d, _) => explained d | None => forall w, kind t = TIdent w -> known w -> exists i, In i tbl /\ w = lit (i_mnemonic i) end) ->
    (exists w, kind t = TIdent w) ->
    held live (parse_table e tbl t c op best).
  Proof.
    intros e tbl t c op best DF F FT BT (w & KT). revert best BT. induction F as [|i tbl O F IH]; intros best BT; cbn [parse_table].
    - destruct best as [(d, n)|]; [exact BT|]. cbn [held fatal_error]. rewrite KT. cbn [token_view]. eapply fresh_says; [exact FT| |].
      + apply mnemonic_prints. pose proof (fresh_small _ _ FT) as S. rewrite KT in S. exact S.
      + rewrite KT. apply says_mnemonic; [|apply c_string_shown]. intros KW. destruct (BT w KT KW) as (i & [] & _).
    - destruct (negb _) eqn:E.
      + apply IH. destruct best as [(d, n)|]; [exact BT|]. intros w' KW KN. destruct (BT w' KW KN) as (j & [<-|I] & ->); [|eauto].
        exfalso. unfold equal in E. rewrite KW, text_eqb_refl in E. discriminate.
      + eapply held_bind; [apply insn_held; [exact DF|exact O|apply FT]|]. intros [s|d n] _ A; [exact A|]. cbn in A. apply IH.
        destruct best as [(d', n')|]; [|exact A]. destruct (n' <? n); [exact A|exact BT].
  Qed.

  (** ** Options *)

  Definition read3 (x : token * cursor * options) : Prop := fresh (fst (fst x)) (snd (fst x)).
  Lemma option_int_held : forall c m, boundary c0 c -> (forall k, no_number k = true -> sayable m k) ->
    held (fun x => fresh (snd (fst x)) (snd x)) (option_int c m).
  Proof.
    intros c m B K. unfold option_int. eapply held_bind; [apply held_tokenize, B|]. intros (t, c') _ F. cbn [fst snd] in F.
    destruct (kind t) eqn:KT; try (cbn; exact F); cbn [held fatal_error]; (eapply say; [exact F|]; apply K; rewrite KT; reflexivity).
  Qed.
  Lemma check_held : forall l t c, fresh t c -> held (fun _ => True) (check_option_line l t).
  Proof. intros l t c F. unfold check_option_line. destruct (_ =? _); [exact I|]. cbn [held fatal_error]. eapply say; [exact F|]. eapply sayable_lookup; reflexivity. Qed.
  Lemma parse_type_held : forall l t c o, fresh t c -> one_of [".type"; ".dksh"] (kind t) = true -> held read3 (parse_type l t c o).
  Proof.
    intros l t c o F D. unfold parse_type. destruct (o_type o).
    { cbn [held fatal_error]. eapply say; [exact F|]. eapply sayable_lookup; [reflexivity|exact D]. }
    eapply held_bind; [apply held_tokenize, F|]. intros (t1, c1) _ F1. cbn [fst snd] in F1. eapply held_bind; [eapply check_held; exact F1|]. intros _ _ _.
    destruct (program_type t1) eqn:PT; [exact F1|]. destruct (string_is_active _) eqn:SA; [|exact I]. cbn [held fatal_error].
    eapply fresh_says; [exact F1|apply type_prints, (fresh_small _ _ F1)|]. apply says_type.
    - destruct (kind t1); try discriminate; reflexivity.
    - unfold none_of. rewrite one_of_equal. cbn [existsb]. unfold program_type in PT.
      repeat match type of PT with (if ?b then _ else _) = _ => destruct b eqn:?; [discriminate|] end.
      repeat match goal with H : _ || _ = false |- _ => apply orb_false_iff in H as (? & ?) end.
      repeat match goal with H : equal _ _ = false |- _ => rewrite H end. reflexivity.
    - apply c_string_shown.
  Qed.
  Lemma parse_option_held : forall t c o, fresh t c -> held read3 (parse_option t c o).
  Proof.
    intros t c o F. unfold parse_option. cbv zeta. apply (held_bind _ _ read3).
    - destruct (equal t ".dksh") eqn:E1; [apply parse_type_held; [exact F|]; eapply one_of_sub; [|apply one_equal, E1]; reflexivity|].
      destruct (equal t ".type") eqn:E2; [apply parse_type_held; [exact F|]; eapply one_of_sub; [|apply one_equal, E2]; reflexivity|].
      destruct (equal t ".num_gprs").
      { eapply held_bind; [apply held_tokenize, F|]. intros (t1, c1) _ F1. cbn [fst snd] in F1. destruct (kind t1) eqn:K; try exact I.
        cbn [held fatal_error]. eapply say; [exact F1|]. eapply sayable_lookup; [reflexivity|]. cbn [snd]. rewrite K. reflexivity. }
      destruct (equal t ".workgroup_size").
      { eapply held_bind; [apply option_int_held; [apply F|out]|]. intros ((z1, t1), c1) _ F1. cbn [fst snd] in F1.
        eapply held_bind; [apply option_int_held; [apply F1|out]|]. intros ((z2, t2), c2) _ F2. cbn [fst snd] in F2.
        eapply held_bind; [apply option_int_held; [apply F2|out]|]. intros ((z3, t3), c3) _ F3. cbn [fst snd] in F3.
        eapply held_bind; [eapply check_held; exact F3|]. intros _ _ _. exact F3. }
      destruct (equal t ".shared_memory").
      { eapply held_bind; [apply option_int_held; [apply F|out]|]. intros ((z1, t1), c1) _ F1. exact F1. }
      destruct (equal t ".local_memory").
      { eapply held_bind; [apply option_int_held; [apply F|out]|]. intros ((z1, t1), c1) _ F1. exact F1. }
      exact F.
    - intros ((t1, c1), o1) _ F1. unfold read3 in F1. cbn [fst snd] in F1. eapply held_bind; [apply held_tokenize, F1|]. intros (t2, c2) _ F2. cbn [fst snd] in F2.
      destruct (_ =? _); [|exact F2]. cbn [held fatal_error]. eapply say; [exact F2|]. eapply sayable_lookup; reflexivity.
  Qed.
  Lemma parse_options_held : forall n t c o, fresh t c -> held read3 (parse_options n t c o).
  Proof.
    induction n as [|n IH]; intros t c o F; [exact I|]. cbn [parse_options]. destruct (is_option t); [|exact F].
    eapply held_bind; [apply parse_option_held, F|]. intros ((t1, c1), o1) _ F1. apply IH, F1.
  Qed.

  (** ** Programs *)

  Lemma instruction_held : forall tbl a ls x op, (forall w, find_label ls w = None -> ~ defined w) -> Forall insn_ok tbl ->
    (forall w, known w -> exists i, In i tbl /\ w = lit (i_mnemonic i)) -> boundary c0 (c_cur x) ->
    held (fun r => match r with Some (x', _) => boundary c0 (c_cur x') | None => True end) (parse_instruction_with tbl a ls x op).
  Proof.
    intros tbl a ls x op DF OK KN B. rewrite parse_instruction_eq. eapply held_bind; [apply held_tokenize, B|]. intros (t, c) _ F. cbn [fst snd] in F.
    destruct (ttype_eqb _ _); [exact I|]. unfold rest_of_instruction. eapply held_bind; [apply parse_options_held, F|].
    intros ((t1, c1), o) _ F1. unfold read3 in F1. cbn [fst snd] in F1.
    apply (held_bind _ _ (fun x => fresh (fst (fst x)) (snd (fst x)))).
    - destruct (ttype_eqb _ _).
      + eapply held_bind; [apply held_tokenize, F1|]. intros (t2, c2) _ F2. cbn [fst snd] in F2.
        apply (held_bind _ _ (fun _ => True)).
        * unfold assemble_predicate. destruct (kind t2) eqn:K2;
            try (rewrite <- K2; cbn [raise held fail]; eapply expected_said; [exact F2|rewrite K2; reflexivity|cbn; tauto]).
          cbn [negb andb]. unfold add_bits. destruct (_ && _); exact I.
        * intros op1 _ _. eapply held_bind; [apply held_tokenize, F2|]. intros (t3, c3) _ F3. exact F3.
      + apply (held_bind _ _ (fun _ => True)); [unfold add_bits; destruct (_ && _); exact I|]. intros op1 _ _. exact F1.
    - intros ((t2, c2), op1) _ F2. cbn [fst snd] in F2. destruct (kind t2) eqn:K2.
      2:{ eapply held_bind; [apply table_held; [exact DF|exact OK|exact F2|intros; apply KN; assumption|eauto]|]. intros st _ HS. apply HS. }
      all: cbn [held fatal_error]; eapply say; [exact F2|]; eapply sayable_lookup; [reflexivity|]; cbn [snd]; rewrite K2; reflexivity.
  Qed.
  Lemma decode_held : forall n a ls max idx x acc, (forall w, find_label ls w = None -> ~ defined w) -> Forall insn_ok table ->
    (forall w, known w -> exists i, In i table /\ w = lit (i_mnemonic i)) -> boundary c0 (c_cur x) -> held (fun _ => True) (decode_loop n a ls max idx x acc).
  Proof.
    induction n as [|n IH]; intros a ls max idx x acc DF OK KN B; [exact I|]. cbn [decode_loop]. destruct (Nat.leb _ _); [exact I|].
    eapply held_bind; [apply (instruction_held table); eassumption|]. intros [(x', op)|] _ HB; [apply IH; assumption|]. destruct (_ && _); exact I.
  Qed.
End Told.

(** ** The table *)

(** What the operands with a message of their own ask for. *)
Definition wants (o : opnd) : option (list string * string) :=
  match o with
  | OReqTable p _ tbl msg => Some (map (String.append p) tbl, msg)
  | OReqText s _ msg | OReqTextAfter s _ _ msg => Some ([s], msg)
  | OIntFormat u sg _ _ msg => Some (map (String.append ".") u ++ map (String.append ".") sg, msg)
  | _ => None
  end.
Definition demands : list (list string * string) :=
  [([".AND"; ".OR"; ".XOR"; ".INVALIDBOP3"], "expected .AND, .OR or .XOR");
   ([".P"], "expected .P"); ([".PHYS"], "expected .PHYS"); ([".WARP"], "expected .WARP"); ([".RESULT"], "expected .RESULT");
   (["CC"], "expected CC"); ([".LUT"], "expected .LUT");
   ([".INVALID0"; ".U16"; ".U32"; ".U64"; ".INVALID1"; ".S16"; ".S32"; ".S64"], "expected .U16, .U32, .U64, .S16, .S32 or .S64");
   (["PR"; "CC"], "expected PR or CC"); ([".P"], "expected .P or .B"); ([".D"], "expected .P or .B");
   ([".U8"; ".U16"; ".U32"; ".U64"; ".S8"; ".S16"; ".S32"; ".S64"], "expected .U8, .U16, .U32, .U64, .S8, .S16, .S32 or .S64");
   ([".U8"; ".U16"; ".U32"; ".S8"; ".S16"; ".S32"], "expected .U8, .U16, .U32, .S8, .S16 or .S32");
   ([".HI"], "expected .HI"); ([".R"], "expected .R"); ([".L"], "expected .L"); ([".B"], "expected .B"); ([".LOD"], "expected .LOD");
   ([""; "TEX_HEADER_DIMENSION"; "TEX_HEADER_TEXTURE_TYPE"; ""; ""; "TEX_HEADER_SAMPLER_POS"], "invalid mode")].
Fixpoint strings_eqb (a b : list string) : bool :=
  match a, b with [], [] => true | x :: a, y :: b => String.eqb x y && strings_eqb a b | _, _ => false end.
Lemma strings_eqb_eq : forall a b, strings_eqb a b = true -> a = b.
Proof.
  induction a as [|x a IH]; intros [|y b] H; try discriminate; [reflexivity|]. cbn in H. apply andb_true_iff in H as (E & H). apply String.eqb_eq in E. rewrite E, (IH _ H). reflexivity.
Qed.
Fixpoint demand_ok (o : opnd) : bool :=
  match o with
  | OAbs _ o => demand_ok o
  | _ => match wants o with
         | Some (l, m) => existsb (fun d => if String.eqb m (snd d) then strings_eqb l (fst d) else false) demands
         | None => true
         end
  end.
Lemma demand_said : forall l m k, In (l, m) demands -> none_of l k = true -> sayable m k.
Proof.
  intros l m k I H. cbn in I.
  repeat (destruct I as [I|I]; [injection I as <- <-; eapply sayable_lookup; [reflexivity|]; cbn [snd]; first [reflexivity|eapply none_of_sub; [|exact H]; reflexivity]|]).
  destruct I.
Qed.
Lemma demand_op : forall o, demand_ok o = true -> op_ok o.
Proof.
  assert (G : forall l m, existsb (fun d => if String.eqb m (snd d) then strings_eqb l (fst d) else false) demands = true -> forall k, none_of l k = true -> sayable m k).
  { intros l m H k. apply existsb_exists in H as ((l', m') & I & H). cbn [fst snd] in H. destruct (String.eqb m m') eqn:E; [|discriminate].
    apply String.eqb_eq in E. apply strings_eqb_eq in H. subst. apply demand_said, I. }
  induction o; intros H; try exact I; try exact (G _ _ H). cbn in H. exact (IHo H).
Qed.
Lemma table_demands : forallb (fun i => if forallb demand_ok (i_operands i)
  then (if N.eqb (N.land (i_flags i) NO_PRED) 0 then true else existsb (String.eqb (i_mnemonic i)) always_names) else false) table = true.
Proof. vm_compute. reflexivity. Qed.
Lemma table_ok : Forall insn_ok table.
Proof.
  apply Forall_forall. intros i I. pose proof (forallb_in _ _ _ _ table_demands I) as H. cbn beta in H. destruct (forallb demand_ok _) eqn:D; [|discriminate]. split.
  - apply Forall_forall. intros o IO. apply demand_op. exact (forallb_in _ _ _ _ D IO).
  - intros N. apply N.eqb_neq in N. rewrite N in H. apply existsb_exists in H as (x & IX & E). apply String.eqb_eq in E. subst. exact IX.
Qed.
