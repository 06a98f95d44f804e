(** * TesterFacts: the test driver judges the second word, and there is one. *)
From Verif Require Import Base Float Lexer Operand Catalogue Table Parse Assemble Spec LexFacts Program Layout SpecOperand SpecInsn SpecOpts
  SpecLex Lexemes Text SpecContainer Container SpecProgram Language SpecLink Link Tester SpecTester.
From Coq Require Import Lia.
Local Open Scope string_scope.
Local Open Scope list_scope.
Open Scope Z_scope.

(** ** There are words *)

Lemma sentence_some : forall lab n ts ss ops, sentence lab n ts ss ops -> ts <> [] -> ops <> [].
Proof.
  intros lab n ts ss ops H. induction H as [n|n s t us v ts ss ops W O N S IH|n pre i post gi gn kg kf us ts ss op ops T G F P M S IH]; intros NE.
  - contradiction.
  - apply IH. discriminate.
  - discriminate.
Qed.
Lemma file_long : forall code ss out w, file code ss out w -> (List.length out <= List.length w)%nat.
Proof. intros code ss out w F. destruct F; rewrite ?app_length; lia. Qed.
Lemma closed_words : forall a e w, ~ In NUL e -> assemble a (e ++ lit ";") = Ok w -> exists c v ws, w = c :: v :: ws.
Proof.
  intros a e w N A. assert (N' : ~ In NUL (e ++ lit ";")) by (intros I; apply in_app_or in I as [I|[I|[]]]; [exact (N I)|discriminate]).
  destruct (accepted_means _ _ _ N' A) as (ts & lab & ss & ops & LX & _ & SE & F). apply file_long in F.
  assert (NE : ts <> []).
  { intros ->. inversion LX as [g n GP E1 E2|]; subst. destruct (gap_tail _ _ GP) as [E|(g' & ch & E & I)].
    - destruct e; discriminate.
    - change (lit ";") with [";"%char] in E. apply app_inj_tail in E as (_ & <-). destruct I as [I|I]; [cbn in I; intuition discriminate|discriminate]. }
  pose proof (sentence_some _ _ _ _ _ SE NE) as NO. unfold code_words in F. rewrite layout_length, map_length in F.
  assert (L : (4 <= List.length w)%nat). { destruct ops as [|o ops]; [contradiction|]. cbn [List.length] in F. pose proof (Nat.div_le_mono 3 (S (List.length ops) + 2) 3 ltac:(lia) ltac:(lia)) as D. change (3 / 3)%nat with 1%nat in D. lia. }
  destruct w as [|c [|v ws]]; cbn [List.length] in L; try lia. eauto.
Qed.

(** ** Numbers *)

Lemma hex_chars : forall ch, In ch (lit "0123456789abcdefABCDEF") <-> (digit_value ch <? 16) = true.
Proof.
  intros ch. split; intros H.
  - cbn in H. repeat (destruct H as [<-|H]; [reflexivity|]). destruct H.
  - destruct ch as [[] [] [] [] [] [] [] []]; vm_compute in H; try discriminate H; vm_compute; tauto.
Qed.
Lemma no_hex : forall q, starts_digit 16 q = false <-> ~ begins (lit "0123456789abcdefABCDEF") q.
Proof.
  intros [|ch q]; cbn [starts_digit].
  - split; [|reflexivity]. intros _ (ch & q' & E & _). discriminate.
  - split.
    + intros H (ch' & q' & E & I). injection E as <- <-. apply hex_chars in I. congruence.
    + intros H. destruct (digit_value ch <? 16) eqn:D; [|reflexivity]. destruct H. exists ch, q. split; [reflexivity|apply hex_chars; exact D].
Qed.
Lemma from_chars_iff : forall l n, from_chars l = Some n <-> exists ds more, l = ds ++ more /\ ds <> [] /\ denotes 16 ds (Z.of_N n) /\ (n < 2 ^ 64)%N /\
  ~ begins (lit "0123456789abcdefABCDEF") more.
Proof.
  intros l n. unfold from_chars. split.
  - destruct (starts_digit 16 l) eqn:S; [|discriminate]. destruct (digits_spec 16 l 0) as (s & e & -> & D & F & NE). rewrite D.
    destruct (Z.ltb_spec (horner 16 0 s) (2 ^ 64)) as [L|L]; [|discriminate]. intros E. injection E as <-. pose proof (horner_nonneg 16 s 0 ltac:(lia) ltac:(lia)) as P.
    exists s, e. split; [reflexivity|]. split; [|split; [|split; [|apply no_hex, NE]]].
    + intros ->. cbn [app] in S. congruence.
    + rewrite Z2N.id by lia. apply denotes_iff; [lia|]. auto.
    + change (2 ^ 64)%N with (Z.to_N (2 ^ 64)). apply Z2N.inj_lt; lia.
  - intros (ds & more & -> & NE & D & L & NB). apply denotes_iff in D as (F & E); [|lia].
    destruct ds as [|ch ds]; [contradiction|]. assert (S : starts_digit 16 ((ch :: ds) ++ more) = true) by (cbn [forallb] in F; apply andb_true_iff in F as (F & _); exact F).
    rewrite S, (digits_exact 16 (ch :: ds) more 0 F) by (apply no_hex; exact NB). rewrite <- E.
    assert (Z.of_N n < 2 ^ 64) by (change (2 ^ 64) with (Z.of_N (2 ^ 64)); lia). rewrite (proj2 (Z.ltb_lt _ _)) by assumption. rewrite N2Z.id. reflexivity.
Qed.

Lemma hex_digit_value : forall n, (n < 16)%N -> digit 16 (hex_digit n) (Z.of_N n) /\ In (hex_digit n) (lit "0123456789ABCDEF") /\ (hex_digit n = "0"%char -> n = 0%N).
Proof.
  intros n L. assert (X : forallb (fun m => (digit_value (hex_digit m) =? Z.of_N m) && existsb (Ascii.eqb (hex_digit m)) (lit "0123456789ABCDEF") && (if Ascii.eqb (hex_digit m) "0" then N.eqb m 0 else true)) (map N.of_nat (seq 0 16)) = true) by (vm_compute; reflexivity).
  assert (I : In n (map N.of_nat (seq 0 16))) by (apply in_map_iff; exists (N.to_nat n); split; [lia|apply in_seq; lia]).
  pose proof (proj1 (forallb_forall _ _) X n I) as Y. cbv beta in Y. apply andb_true_iff in Y as (Y & Y3). apply andb_true_iff in Y as (Y1 & Y2). apply Z.eqb_eq in Y1.
  apply existsb_exists in Y2 as (ch & Y2 & E). apply Ascii.eqb_eq in E as <-. split; [|split; [exact Y2|]].
  - destruct (digit_iff 16 (hex_digit n)) as (G1 & G2); [lia|]. assert (D : (digit_value (hex_digit n) <? 16) = true) by (apply Z.ltb_lt; lia).
    apply G1 in D as (d & D). rewrite <- Y1, <- (G2 d D). exact D.
  - intros E. rewrite E in Y3. apply N.eqb_eq in Y3. exact Y3.
Qed.
Lemma hex_upper_ok : forall fuel n, (0 < fuel)%nat -> (n < 16 ^ N.of_nat fuel)%N -> upper_hex n (hex_upper fuel n).
Proof.
  induction fuel as [|fuel IH]; intros n P L; [lia|]. cbn [hex_upper]. destruct (hex_digit_value (n mod 16)) as (D & I & Z0); [apply N.mod_lt; discriminate|].
  destruct (N.ltb_spec n 16) as [S|S]; cbn [app].
  - rewrite N.mod_small in * by exact S. split; [|split; [discriminate|split; [constructor; [exact I|constructor]|]]].
    + change [hex_digit n] with ([] ++ [hex_digit n]). replace (Z.of_N n) with (16 * 0 + Z.of_N n) by lia. constructor; [constructor|exact D].
    + intros (ch & q & E & J). injection E as <- <-. destruct J as [J|[]]. rewrite <- J. reflexivity.
  - assert (LF : (0 < fuel)%nat). { destruct fuel; [change (16 ^ N.of_nat 1)%N with 16%N in L; lia|lia]. }
    rewrite Nat2N.inj_succ, N.pow_succ_r' in L. destruct (IH (n / 16)%N LF) as (D' & NE & F & NZ); [apply N.div_lt_upper_bound; [discriminate|exact L]|].
    split; [|split; [destruct (hex_upper fuel (n / 16)); discriminate|split]].
    + replace (Z.of_N n) with (16 * Z.of_N (n / 16) + Z.of_N (n mod 16)).
      * constructor; assumption.
      * pose proof (N.div_mod n 16 ltac:(discriminate)). lia.
    + apply Forall_app. split; [exact F|constructor; [exact I|constructor]].
    + intros B. exfalso. destruct (hex_upper fuel (n / 16)) as [|c s] eqn:EH; [contradiction|]. destruct B as (ch & q & E & J). cbn [app] in E. injection E as <- _.
      assert (X : c :: s = lit "0") by (apply NZ; exists c, s; split; [reflexivity|exact J]). rewrite X in D'. apply denotes_iff in D' as (_ & D'); [|lia].
      cbn in D'. assert (n / 16 = 0)%N by lia. pose proof (N.div_str_pos n 16 ltac:(lia)). lia.
Qed.

(** ** The verdict *)

Lemma expects_iff : forall s n, expects s n <-> (3 <= List.length s)%nat /\
  (negb (Ascii.eqb (nth 0 s NUL) "0") || (negb (Ascii.eqb (nth 1 s NUL) "x") && negb (Ascii.eqb (nth 1 s NUL) "X"))) = false /\ from_chars (skipn 2 s) = Some n.
Proof.
  intros s n. rewrite from_chars_iff. split.
  - intros (x & ds & more & -> & X & NE & R). split; [destruct ds; [contradiction|cbn; lia]|]. split; [destruct X as [<-|[<-|[]]]; reflexivity|]. exists ds, more. auto.
  - intros (L & H & ds & more & E & R). destruct s as [|z [|x s]]; cbn [List.length] in L; try lia. cbn [nth] in H. apply orb_false_iff in H as (H1 & H2).
    apply negb_false_iff, Ascii.eqb_eq in H1 as ->. cbn [skipn] in E. subst s. exists x, ds, more. split; [reflexivity|]. split; [|exact R].
    apply andb_false_iff in H2 as [H2|H2]; apply negb_false_iff, Ascii.eqb_eq in H2 as ->; cbn; auto.
Qed.
Lemma expects_one : forall s n m, expects s n -> expects s m -> n = m.
Proof. intros s n m A B. apply expects_iff in A as (_ & _ & A). apply expects_iff in B as (_ & _ & B). congruence. Qed.

Theorem tester_inside : forall a name args, Forall (fun s => ~ In NUL s) args ->
  forall u, tester a name args = Undef u -> exists e more, args = e :: more /\ assemble a (e ++ lit ";") = Undef u.
Proof.
  intros a name [|e more] N u H; [discriminate|]. inversion N as [|? ? NE _]; subst. cbn [tester] in H. exists e, more. split; [reflexivity|].
  destruct (assemble a (e ++ lit ";")) as [w|d|d|m|x|] eqn:A; cbn [bind] in H; try discriminate; [|injection H as ->; reflexivity]. exfalso.
  destruct (closed_words _ _ _ NE A) as (c & v & ws & ->). destruct more as [|s more]; [discriminate|]. unfold compare_word in H. cbn [nth_error] in H.
  destruct (_ <? 3)%nat; [discriminate|]. destruct (negb _ || _); [discriminate|]. destruct (from_chars _) as [n|]; [|discriminate]. destruct (N.eqb v n); discriminate.
Qed.
Theorem tester_passes : forall a name e s more, ~ In NUL e ->
  (tester a name (e :: s :: more) = Ok (Exit 0 []) <-> exists c v ws, assemble a (e ++ lit ";") = Ok (c :: v :: ws) /\ expects s v).
Proof.
  intros a name e s more N. cbn [tester]. split.
  - destruct (assemble a (e ++ lit ";")) as [w|d|d|m|x|] eqn:A; cbn [bind]; try discriminate. destruct (closed_words _ _ _ N A) as (c & v & ws & ->).
    unfold compare_word. cbn [nth_error]. destruct (Nat.ltb_spec (List.length s) 3) as [|L]; [discriminate|]. destruct (negb _ || _) eqn:P; [discriminate|].
    destruct (from_chars _) as [n|] eqn:F; [|discriminate]. destruct (N.eqb_spec v n) as [->|]; [|discriminate]. intros _. exists c, n, ws. split; [reflexivity|].
    apply expects_iff. auto.
  - intros (c & v & ws & A & E). rewrite A. cbn [bind]. apply expects_iff in E as (L & P & F). unfold compare_word. cbn [nth_error].
    rewrite (proj2 (Nat.ltb_ge _ _) L), P, F, N.eqb_refl. reflexivity.
Qed.
Theorem tester_fails : forall a name e s more c v ws, assemble a (e ++ lit ";") = Ok (c :: v :: ws) -> ~ expects s v ->
  exists err, tester a name (e :: s :: more) = Ok (Exit 1 err) /\
    ((forall n, ~ expects s n) \/
     exists n sv sn, expects s n /\ n <> v /\ upper_hex v sv /\ upper_hex n sn /\ err = lit "Incorrect opcode: 0x" ++ sv ++ lit " vs 0x" ++ sn ++ ["010"%char]).
Proof.
  intros a name e s more c v ws A NE. cbn [tester]. pose proof (output_bounded _ _ _ A) as B. rewrite A. cbn [bind]. unfold compare_word. cbn [nth_error].
  destruct (Nat.ltb_spec (List.length s) 3) as [L|L].
  { eexists. split; [reflexivity|]. left. intros n E. apply expects_iff in E as (L' & _). lia. }
  destruct (negb _ || _) eqn:P.
  { eexists. split; [reflexivity|]. left. intros n E. apply expects_iff in E as (_ & P' & _). rewrite P in P'. discriminate. }
  destruct (from_chars _) as [n|] eqn:F.
  2: { eexists. split; [reflexivity|]. left. intros n E. apply expects_iff in E as (_ & _ & E). rewrite F in E. discriminate. }
  assert (EX : expects s n) by (apply expects_iff; auto).
  destruct (N.eqb_spec v n) as [->|D]; [contradiction|]. eexists. split; [reflexivity|]. right. exists n, (hex_upper 16 v), (hex_upper 16 n).
  split; [exact EX|]. split; [congruence|]. inversion B as [|? ? _ B']; subst. inversion B' as [|? ? BV _]; subst.
  assert (BN : (n < 2 ^ 64)%N) by (destruct EX as (x & ds & mr & _ & _ & _ & _ & X & _); exact X).
  split; [apply hex_upper_ok; [lia|exact BV]|]. split; [apply hex_upper_ok; [lia|exact BN]|reflexivity].
Qed.
