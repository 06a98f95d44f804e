(** * Message: what the diagnostics say.  Proofs for [SpecDiag]. *)
From Verif Require Import Base Float Lexer Operand Catalogue Table Parse Assemble Spec LexFacts SchedFuel Param Reach ParseFacts
  Outcomes Encode Decode Program SpecInsn Insn SpecLex Lexemes Where Diag SpecDiag.
From Coq Require Import Lia.
Local Open Scope string_scope.
Local Open Scope list_scope.
Open Scope Z_scope.

(** ** Numerals *)

Lemma digit_char : forall d, 0 <= d < 10 -> digit 10 (ascii_of_N (48 + Z.to_N d)) d.
Proof.
  intros d D. split; [exact D|]. left.
  assert (H : d = 0 \/ d = 1 \/ d = 2 \/ d = 3 \/ d = 4 \/ d = 5 \/ d = 6 \/ d = 7 \/ d = 8 \/ d = 9) by lia.
  destruct H as [->|[->|[->|[->|[->|[->|[->|[->|[->| ->]]]]]]]]]; reflexivity.
Qed.
Lemma digits_natural : forall n z, 0 <= z < 10 ^ Z.of_nat n -> (0 < n)%nat -> natural z (decimal_digits n z).
Proof.
  assert (Q : forall d, 0 < d < 10 -> ascii_of_N (48 + Z.to_N d) <> "0"%char).
  { intros d D. assert (H : d = 1 \/ d = 2 \/ d = 3 \/ d = 4 \/ d = 5 \/ d = 6 \/ d = 7 \/ d = 8 \/ d = 9) by lia.
    destruct H as [->|[->|[->|[->|[->|[->|[->|[->| ->]]]]]]]]; discriminate. }
  induction n as [|n IH]; intros z Z0 N; [lia|]. cbn [decimal_digits].
  assert (M : 0 <= z mod 10 < 10) by (apply Z.mod_pos_bound; lia).
  destruct (Z.ltb_spec z 10).
  - rewrite Z.mod_small by lia. split; [|split; [discriminate|]].
    + pose proof (denotes_snoc 10 [] 0 _ z (denotes_nil 10) (digit_char z ltac:(lia))) as X. rewrite Z.mul_0_r, Z.add_0_l in X. exact X.
    + intros (ch & q & E & [<-|[]]). destruct q; [exact E|discriminate E].
  - assert (B : 0 <= z / 10 < 10 ^ Z.of_nat n).
    { split; [apply Z.div_pos; lia|]. apply Z.div_lt_upper_bound; [lia|]. rewrite <- Z.pow_succ_r by lia. replace (Z.succ (Z.of_nat n)) with (Z.of_nat (S n)) by lia. lia. }
    assert (N' : (0 < n)%nat) by (destruct n; [cbn in B; assert (1 <= z / 10) by (apply Z.div_le_lower_bound; lia); lia|lia]).
    destruct (IH _ B N') as (D & NE & L). split; [|split].
    + rewrite (Z.div_mod z 10) at 3 by lia. constructor; [exact D|apply digit_char, M].
    + intros E. apply app_eq_nil in E as (_ & E). discriminate.
    + intros (ch & q & E & [<-|[]]). exfalso. destruct (decimal_digits n (z / 10)) as [|c0 s0] eqn:EQ; [congruence|]. injection E as -> _.
      assert (X : "0"%char :: s0 = ["0"%char]) by (apply L; exists "0"%char, s0; split; [reflexivity|left; reflexivity]).
      injection X as ->. inversion D as [|s v ch d D1 D2 E1 E2].
      assert (s = [] /\ ch = "0"%char) as (-> & ->) by (destruct s as [|? [|]]; cbn in E1; try discriminate; injection E1; auto).
      inversion D1 as [E3 E4|s v' ch d' _ _ E3 E4]; [|destruct s; discriminate]. subst v.
      destruct D2 as (D2 & D3). assert (d = 0).
      { destruct (Z.eq_dec d 0) as [e|n0]; [exact e|exfalso]. pose proof (digit_char d D2) as (_ & X). apply (Q d); [lia|].
        assert (HD : d = 0 \/ d = 1 \/ d = 2 \/ d = 3 \/ d = 4 \/ d = 5 \/ d = 6 \/ d = 7 \/ d = 8 \/ d = 9) by lia.
        destruct HD as [->|[->|[->|[->|[->|[->|[->|[->|[->| ->]]]]]]]]]; destruct D3 as [D3|D3]; try (exfalso; congruence); vm_compute in D3; discriminate D3. }
      subst d. assert (1 <= z / 10) by (apply Z.div_le_lower_bound; lia). lia.
Qed.
Lemma decimal_natural : forall z, 0 <= z -> natural z (decimal_digits (S (Z.to_nat (Z.log2 z))) z).
Proof.
  intros z Z0. apply digits_natural; [|lia]. split; [exact Z0|]. destruct (Z.eq_dec z 0) as [->|N]; [cbn; lia|].
  pose proof (Z.log2_nonneg z). destruct (Z.log2_spec z) as (_ & U); [lia|]. eapply Z.lt_le_trans; [exact U|].
  replace (Z.of_nat (S (Z.to_nat (Z.log2 z)))) with (Z.succ (Z.log2 z)) by lia. apply Z.pow_le_mono_l. lia.
Qed.
Lemma decimal_numeral : forall z, numeral z (decimal_of z).
Proof.
  intros z. unfold decimal_of, numeral. cbv zeta. destruct (Z.ltb_spec z 0); [right|left; split; [lia|apply decimal_natural; lia]].
  split; [lia|]. eexists. split; [reflexivity|]. apply decimal_natural. lia.
Qed.

(** ** Texts *)

Lemma c_string_shown : forall w, shown w (c_string w).
Proof.
  induction w as [|ch w IH]; [left; split; [reflexivity|intros []]|]. cbn [c_string]. change NUL with "000"%char.
  destruct (Ascii.eqb_spec ch "000") as [->|N]; [right; exists w; split; [reflexivity|intros []]|].
  destruct IH as [(E & NI)|(r & E & NI)].
  - left. rewrite E. split; [reflexivity|]. intros [X|X]; [congruence|exact (NI X)].
  - right. exists r. cbn [app]. rewrite <- E. split; [reflexivity|]. intros [X|X]; [congruence|exact (NI X)].
Qed.
Lemma c_string_no_nul : forall w, ~ In "000"%char w -> c_string w = w.
Proof. intros w N. destruct (c_string_shown w) as [(E & _)|(r & E & _)]; [exact E|]. exfalso. apply N. rewrite E. apply in_or_app. right. left. reflexivity. Qed.
Lemma s32_small : forall z, - 2 ^ 31 <= z < 2 ^ 31 -> s32_of_Z z = z.
Proof.
  intros z B. unfold s32_of_Z. cbv zeta. change (Z.of_N two32) with (2 ^ 32). change (2 ^ 32 / 2) with (2 ^ 31).
  destruct (Z.ltb_spec z 0).
  - assert (E : z mod 2 ^ 32 = z + 2 ^ 32) by (symmetry; apply Z.mod_unique with (-1); lia). rewrite E.
    replace (z + 2 ^ 32 <? 2 ^ 31) with false by (symmetry; apply Z.ltb_ge; lia). lia.
  - rewrite Z.mod_small by lia. replace (z <? 2 ^ 31) with true by (symmetry; apply Z.ltb_lt; lia). reflexivity.
Qed.
Lemma s32_low : forall z, low_half z (s32_of_Z z).
Proof.
  intros z. unfold s32_of_Z, low_half. cbv zeta. change (Z.of_N two32) with (2 ^ 32). change (2 ^ 32 / 2) with (2 ^ 31).
  assert (B : 0 <= z mod 2 ^ 32 < 2 ^ 32) by (apply Z.mod_pos_bound; lia). pose proof (Z.div_mod z (2 ^ 32)) as D.
  destruct (Z.ltb_spec (z mod 2 ^ 32) (2 ^ 31)); (split; [lia|]).
  - exists (z / 2 ^ 32). lia.
  - exists (z / 2 ^ 32 + 1). lia.
Qed.

Definition small (w : text) : Prop := Z.of_nat (List.length w) < 2 ^ 31.
Lemma view_int : forall s w, small w -> (match int_arg s (AInt (s32_of_Z (Z.of_nat (List.length w)))) with Some p => view_arg p (APtr w) | None => None end) = Some (c_string w).
Proof.
  intros s w S. unfold small in S. cbn [int_arg]. rewrite s32_small by lia. cbn [view_arg].
  replace (Z.of_nat (List.length w) <? 0) with false by (symmetry; apply Z.ltb_ge; lia). rewrite Z.ltb_irrefl. cbn [orb].
  rewrite Nat2Z.id, firstn_all. reflexivity.
Qed.
Lemma view_size : forall w, small w -> (match int_arg false (ASize (N.of_nat (List.length w))) with Some p => view_arg p (APtr w) | None => None end) = Some (c_string w).
Proof.
  intros w S. pose proof (view_int false w S) as V. cbn [int_arg] in *. rewrite nat_N_Z. exact V.
Qed.

(** ** Formats *)

(** The output; arguments of the types the C standard asks for except for the
    messages in [miscast]. *)
Definition prints (m : message) (s : text) : Prop :=
  printf false m = Some s /\ printf true m = if miscast s then None else Some s.
Lemma prints_strict : forall m s, (forall b, printf b m = Some s) -> miscast s = false -> prints m s.
Proof. intros m s H N. split; [apply H|]. rewrite N. apply H. Qed.

Definition plain_ok (s : string) : bool :=
  match printf false s with Some a => text_eqb a (lit s) | None => false end
  && match printf true s with Some a => text_eqb a (lit s) | None => false end
  && negb (miscast (lit s)).
Lemma plain_prints : forall s, plain_ok s = true -> prints s (lit s).
Proof.
  intros s H. unfold plain_ok in H. apply andb_true_iff in H as (H & L). apply andb_true_iff in H as (F & T). apply prints_strict.
  - intros [].
    + destruct (printf true s); [|discriminate]. apply text_eqb_eq in T. congruence.
    + destruct (printf false s); [|discriminate]. apply text_eqb_eq in F. congruence.
  - destruct (miscast _); [discriminate|reflexivity].
Qed.
Lemma sentences_plain : forallb (fun x => plain_ok (fst x)) sentences = true.
Proof. vm_compute. reflexivity. Qed.
Lemma sentence_prints : forall s p, In (s, p) sentences -> prints s (lit s).
Proof. intros s p H. apply plain_prints. exact (forallb_in _ _ _ _ sentences_plain H). Qed.

Lemma type_name_described : forall k, type_name (type_of k) = described k.
Proof. intros []; reflexivity. Qed.
Lemma type_name_shown : forall ty, c_string (lit (type_name ty)) = lit (type_name ty).
Proof. intros []; reflexivity. Qed.

(** Conversions in turn. *)
Lemma format_plain : forall b p fmt args, forallb (fun ch => negb (Ascii.eqb ch "%")) p = true ->
  format b (p ++ fmt) args = append (Some p) (format b fmt args).
Proof.
  intros b p fmt args. induction p as [|ch p IH]; intros H; [cbn; destruct (format _ _ _); reflexivity|]. cbn [forallb] in H. apply andb_true_iff in H as (H1 & H2).
  cbn [app format]. rewrite H1, (IH H2). destruct (format b fmt args); reflexivity.
Qed.
Lemma format_end : forall b p args, forallb (fun ch => negb (Ascii.eqb ch "%")) p = true -> format b p args = Some p.
Proof. intros b p args H. rewrite <- (app_nil_r p) at 1. rewrite (format_plain _ _ _ _ H). cbn. rewrite app_nil_r. reflexivity. Qed.
Lemma format_s : forall b fmt a args, format b (lit "%s" ++ fmt) (a :: args) = append (string_arg a) (format b fmt args).
Proof. reflexivity. Qed.
Lemma format_d : forall b fmt a args, format b (lit "%d" ++ fmt) (a :: args) = append (option_map decimal_of (int_arg b a)) (format b fmt args).
Proof. reflexivity. Qed.
Lemma format_ld : forall b fmt a args, format b (lit "%ld" ++ fmt) (a :: args) = append (option_map decimal_of (long_arg a)) (format b fmt args).
Proof. reflexivity. Qed.
Lemma format_view : forall b fmt a a' args, format b (lit "%.*s" ++ fmt) (a :: a' :: args) =
  append (match int_arg b a with Some p => view_arg p a' | None => None end) (format b fmt args).
Proof. reflexivity. Qed.
Lemma append_none : forall a, append a None = None.
Proof. intros []; reflexivity. Qed.

(** The format is a list of pieces. *)
Ltac fmt_is l := match goal with |- context [printf ?b ?m] => change (printf b m) with (format b l (m_args m)) end; cbn [m_args expected_message].
Ltac fstep := first [rewrite format_plain by reflexivity | rewrite format_s | rewrite format_d | rewrite format_ld | rewrite format_view | rewrite format_end by reflexivity].

Lemma expected_end_prints : forall ty, prints (expected_message ty TNone) (lit "expected " ++ strong (lit (type_name ty))).
Proof.
  intros ty. apply prints_strict; [|reflexivity]. intros b.
  fmt_is ((lit "expected " ++ escape "[1m") ++ lit "%s" ++ escape "[0m").
  repeat fstep. cbn [string_arg append]. rewrite type_name_shown, <- app_assoc. reflexivity.
Qed.
Lemma expected_prints : forall ty k, k <> TNone -> small (token_view k) ->
  prints (expected_message ty k) (lit "expected " ++ strong (lit (type_name ty)) ++ lit " and got " ++ strong (lit (described k) ++ lit " " ++ c_string (token_view k))).
Proof.
  intros ty k N S. assert (E : expected_message ty k = Message ("expected " ++ bold "%s" ++ " and got " ++ bold "%s %.*s")
      (AStr (lit (type_name ty)) :: AStr (lit (type_name (type_of k))) :: int_view (token_view k))) by (destruct k; try reflexivity; congruence).
  rewrite E. apply prints_strict; [|reflexivity]. intros b.
  fmt_is ((lit "expected " ++ escape "[1m") ++ lit "%s" ++ (escape "[0m" ++ lit " and got " ++ escape "[1m") ++ lit "%s" ++ lit " " ++ lit "%.*s" ++ escape "[0m").
  unfold int_view. repeat fstep. rewrite (view_int _ _ S). cbn [string_arg append]. rewrite !type_name_shown, type_name_described.
  unfold strong. rewrite <- !app_assoc. reflexivity.
Qed.
Lemma range_prints : forall v lo hi, prints (range_message v lo hi)
  (lit "integer " ++ strong (decimal_of (s32_of_Z v)) ++ lit " is out of range, expected to be from " ++ decimal_of lo ++ lit " to " ++ decimal_of hi ++ lit " inclusively").
Proof.
  intros v lo hi.
  assert (G : forall b, printf b (range_message v lo hi) = append (Some (lit "integer " ++ escape "[1m")) (append (option_map decimal_of (int_arg b (ALong v)))
      (Some ((escape "[0m" ++ lit " is out of range, expected to be from ") ++ decimal_of lo ++ lit " to " ++ decimal_of hi ++ lit " inclusively")))).
  { intros b. fmt_is ((lit "integer " ++ escape "[1m") ++ lit "%d" ++ (escape "[0m" ++ lit " is out of range, expected to be from ") ++ lit "%ld" ++ lit " to " ++ lit "%ld" ++ lit " inclusively").
    unfold range_message. cbn [m_args]. repeat fstep. reflexivity. }
  split.
  - rewrite G. cbn [int_arg option_map append]. unfold strong. rewrite <- !app_assoc. reflexivity.
  - rewrite G. reflexivity.
Qed.
Lemma size_prints : forall pre post w fmt, small w ->
  miscast (pre ++ c_string w ++ post) = true -> lit fmt = pre ++ lit "%.*s" ++ post -> forallb (fun ch => negb (Ascii.eqb ch "%" || Ascii.eqb ch NUL)) (pre ++ post) = true ->
  prints (Message fmt (size_view w)) (pre ++ c_string w ++ post).
Proof.
  intros pre post w fmt S L E F.
  assert (NC : c_string (lit fmt) = lit fmt).
  { apply c_string_no_nul. rewrite E. intros I. rewrite forallb_forall in F. apply in_app_or in I as [I|I].
    - specialize (F _ (in_or_app pre post _ (or_introl I))). discriminate.
    - apply in_app_or in I as [I|I]; [cbn in I; intuition discriminate|]. specialize (F _ (in_or_app pre post _ (or_intror I))). discriminate. }
  assert (F' : forallb (fun ch => negb (Ascii.eqb ch "%")) (pre ++ post) = true).
  { apply forallb_forall. intros ch I. rewrite forallb_forall in F. specialize (F _ I). destruct (Ascii.eqb ch "%"); [discriminate|reflexivity]. }
  rewrite forallb_app in F'. apply andb_true_iff in F' as (F1 & F2).
  assert (G : forall b, printf b (Message fmt (size_view w)) = append (Some pre) (append (match int_arg b (ASize (N.of_nat (List.length w))) with Some p => view_arg p (APtr w) | None => None end) (Some post))).
  { intros b. unfold printf. cbn [m_format m_args]. rewrite NC, E. rewrite format_plain by exact F1. unfold size_view. rewrite format_view, format_end by exact F2. reflexivity. }
  split.
  - rewrite G, (view_size _ S). reflexivity.
  - rewrite G, L. reflexivity.
Qed.
Lemma label_prints : forall w, small w -> prints (label_message w) (lit "label " ++ strong (c_string w) ++ lit " not defined").
Proof.
  intros w S. pose proof (size_prints (lit "label " ++ escape "[1m") (escape "[0m" ++ lit " not defined") w (m_format (label_message [])) S eq_refl eq_refl eq_refl) as P.
  unfold strong. rewrite <- !app_assoc in *. exact P.
Qed.
Lemma test_prints : forall w, small w -> prints (test_message w) (lit "unexpected test " ++ c_string w).
Proof.
  intros w S. pose proof (size_prints (lit "unexpected test ") [] w (m_format (test_message [])) S eq_refl eq_refl eq_refl) as P.
  rewrite app_nil_r in P. exact P.
Qed.
Lemma mnemonic_prints : forall w, small w -> prints (mnemonic_message w) (lit "unknown mnemonic " ++ strong (c_string w)).
Proof.
  intros w S. pose proof (size_prints (lit "unknown mnemonic " ++ escape "[1m") (escape "[0m") w (m_format (mnemonic_message [])) S eq_refl eq_refl eq_refl) as P.
  unfold strong. rewrite <- !app_assoc in *. exact P.
Qed.
Lemma int_prints : forall pre post w fmt, small w ->
  miscast (pre ++ c_string w ++ post) = false -> lit fmt = pre ++ lit "%.*s" ++ post -> forallb (fun ch => negb (Ascii.eqb ch "%" || Ascii.eqb ch NUL)) (pre ++ post) = true ->
  prints (Message fmt (int_view w)) (pre ++ c_string w ++ post).
Proof.
  intros pre post w fmt S L E F.
  assert (NC : c_string (lit fmt) = lit fmt).
  { apply c_string_no_nul. rewrite E. intros I. rewrite forallb_forall in F. apply in_app_or in I as [I|I].
    - specialize (F _ (in_or_app pre post _ (or_introl I))). discriminate.
    - apply in_app_or in I as [I|I]; [cbn in I; intuition discriminate|]. specialize (F _ (in_or_app pre post _ (or_intror I))). discriminate. }
  assert (F' : forallb (fun ch => negb (Ascii.eqb ch "%")) (pre ++ post) = true).
  { apply forallb_forall. intros ch I. rewrite forallb_forall in F. specialize (F _ I). destruct (Ascii.eqb ch "%"); [discriminate|reflexivity]. }
  rewrite forallb_app in F'. apply andb_true_iff in F' as (F1 & F2). apply prints_strict; [|exact L].
  intros b. unfold printf. cbn [m_format m_args]. rewrite NC, E, format_plain by exact F1. unfold int_view. rewrite format_view, format_end by exact F2.
  rewrite (view_int _ _ S). reflexivity.
Qed.
Lemma system_prints : forall w, small w -> prints (system_message w) (lit "invalid system register " ++ strong (c_string w)).
Proof.
  intros w S. pose proof (int_prints (lit "invalid system register " ++ escape "[1m") (escape "[0m") w (m_format (system_message [])) S eq_refl eq_refl eq_refl) as P.
  unfold strong. rewrite <- !app_assoc in *. exact P.
Qed.
Lemma type_prints : forall w, small w -> prints (type_message w) (lit "invalid program type " ++ strong (c_string w)).
Proof.
  intros w S. pose proof (int_prints (lit "invalid program type " ++ escape "[1m") (escape "[0m") w (m_format (type_message [])) S eq_refl eq_refl eq_refl) as P.
  unfold strong. rewrite <- !app_assoc in *. exact P.
Qed.
Lemma literal_prints : forall w, small w -> prints (literal_message w) (lit "failed to parse literal " ++ red (c_string w)).
Proof.
  intros w S. pose proof (int_prints (lit "failed to parse literal " ++ escape "[1;31m") (escape "[0m") w (m_format (literal_message [])) S eq_refl eq_refl eq_refl) as P.
  unfold red. rewrite <- !app_assoc in *. exact P.
Qed.
Lemma register_prints : forall w, small w -> prints (register_message w) (lit "invalid register index " ++ red (c_string w)).
Proof.
  intros w S. pose proof (int_prints (lit "invalid register index " ++ escape "[1;31m") (escape "[0m") w (m_format (register_message [])) S eq_refl eq_refl eq_refl) as P.
  unfold red. rewrite <- !app_assoc in *. exact P.
Qed.
Lemma register_range_prints : forall w, small w -> prints (register_range_message w)
  (lit "register index " ++ red (c_string w) ++ lit " is out of range, expected to be from 0 to 254 inclusively").
Proof.
  intros w S. pose proof (int_prints (lit "register index " ++ escape "[1;31m") (escape "[0m" ++ lit " is out of range, expected to be from 0 to 254 inclusively") w (m_format (register_range_message [])) S eq_refl eq_refl eq_refl) as P.
  unfold red. rewrite <- !app_assoc in *. exact P.
Qed.
