(** * Depth: how deep the tokenizer recurses. *)
From Verif Require Import Base Float Lexer Spec LexFacts Position Literals SpecLex Lexemes SpecDepth.
From Coq Require Import Lia.
Local Open Scope char_scope.
Local Open Scope list_scope.
Open Scope Z_scope.

Lemma run_gap : forall n g q, label_run n g q -> gap g q.
Proof. intros n g q R. induction R; [constructor; assumption|apply gap_label; assumption]. Qed.
Lemma gap_run : forall g q, gap g q -> exists n, label_run n g q.
Proof. intros g q G. induction G as [ws q W|ws w g q W L G (n & IH)]; [exists 0%nat|exists (S n)]; constructor; assumption. Qed.

Lemma gap_counted : forall g q, gap g q <-> exists n, label_run n g q.
Proof. intros g q. split; [apply gap_run|]. intros (n & R). exact (run_gap _ _ _ R). Qed.

(** One call per label, then [tokenize1] says how it ends. *)
Lemma run_calls : forall n g q, label_run n g q -> forall c cs d, moves c g cs -> rest cs = q -> is_blank (peek q) = false ->
  (forall c', tokenize1 cs <> Ok (Skip c')) -> tokenize1 cs <> OutOfFuel -> (tokenize_fuel d c <> OutOfFuel <-> (n < d)%nat).
Proof.
  intros n g q R. induction R as [ws q W|n ws w g q W LT R IH]; intros c cs d M E F NS NO.
  - destruct d as [|d]; cbn [tokenize_fuel]; [split; [contradiction|lia]|]. rewrite (tokenize1_at c ws cs M W) by (rewrite E; exact F).
    split; [intros _; lia|intros _]. destruct (tokenize1 cs) as [[t c'|c']|d'|d'|m|u|]; cbn [bind]; try discriminate; [destruct (NS c' eq_refl)|contradiction].
  - destruct (moves_split _ _ _ _ M) as (c1 & M3 & M4). destruct (moves_split _ _ _ _ M4) as (c2 & M5 & M6).
    assert (FW : is_blank (peek (rest c1)) = false) by (destruct (name_first _ (proj1 LT)) as (ch & tl & EW & B & _); destruct M4 as (M4 & _); rewrite M4, EW; exact B).
    destruct d as [|d]; cbn [tokenize_fuel]; [split; [contradiction|lia]|]. rewrite (tokenize1_at c ws c1 M3 W FW), (label_complete c1 w c2 M5).
    + cbn [bind]. rewrite (IH c2 cs d M6 E F NS NO). lia.
    + replace (rest c2) with (g ++ q); [exact LT|]. destruct M6 as (M6 & _). rewrite M6, E. reflexivity.
Qed.
(** A token behind [n] labels takes [n + 1] calls. *)
Theorem token_calls : forall n g q l m d, label_run n g q -> begun q ->
  (tokenize_fuel d (Cursor (g ++ q) l m) <> OutOfFuel <-> (n < d)%nat).
Proof.
  intros n g q l m d R T. set (c := Cursor (g ++ q) l m). set (cs := Cursor q (lines g l) (cols g m)).
  assert (M : moves c g cs) by (split; [reflexivity|split; reflexivity]).
  assert (X : (exists t c', tokenize1 cs = Ok (Got t c')) \/ exists d', tokenize1 cs = Fatal d').
  { assert (Y : (exists s k r, q = s ++ r /\ token_text s k r) \/ bad_text q).
    { destruct T as [(s & k & r & E & L)|[E|[E|B]]]; [left; exists s, k, r; split; [exact E|left; exact L]| | |right; exact B];
        left; exists [], TNone, q; (split; [reflexivity|right; auto]). }
    destruct Y as [(s & k & r & E & TT)|B].
    - left. exists (Token k (line cs) (col cs)), (Cursor r (lines s (line cs)) (cols s (col cs))). apply (token1_complete cs s k (Cursor r (lines s (line cs)) (cols s (col cs)))); [|exact TT].
      split; [exact E|split; reflexivity].
    - right. destruct (bad_complete cs B) as (m' & H). eauto. }
  assert (F : is_blank (peek q) = false).
  { destruct T as [(s & k & r & -> & L)|[->|[(ch & q' & -> & [<-|[]])|B]]]; [eapply token_first; left; exact L|reflexivity|reflexivity|apply bad_first, B]. }
  eapply run_calls; [exact R|exact M|reflexivity|exact F| |]; destruct X as [(t & c' & ->)|(d' & ->)]; intros; discriminate.
Qed.
(** Every place has its number of calls, at most one more than there are ':'. *)
Definition colons (s : text) : nat := List.length (filter (Ascii.eqb ":") s).
Lemma run_colons : forall n g q, label_run n g q -> (n <= colons g)%nat.
Proof.
  intros n g q R. induction R as [ws q W|n ws w g q W (_ & (w' & ->) & _) R IH]; [lia|]. unfold colons in *. rewrite !filter_app, !app_length. cbn. lia.
Qed.
Lemma word_a : word ["a"; ":"].
Proof.
  exists "a", [":"]. split; [reflexivity|]. split; [constructor; [apply inner_iff; reflexivity|constructor]|].
  split; [cbn; intuition congruence|]. split; [discriminate|]. split; [cbn; intuition congruence|].
  split; [cbn; intuition congruence|]. split; [discriminate|].
  split; [|split; [|discriminate]].
  - intros b neg p t' B P E. destruct B as [(-> & _)|(-> & _)]; cbn in E; [|discriminate]. assert (X : "a" = p) by congruence. subst p. cbn in P. intuition congruence.
  - intros i neg (b & p & x & E & B & P & _). destruct B as [(-> & _)|(-> & _)]; cbn in E; [|discriminate]. assert (X : "a" = p) by congruence. subst p. cbn in P. intuition congruence.
Qed.
(** No number of calls is enough for all texts. *)
Definition labels_only (n : nat) : text := List.concat (repeat ["a"; ":"; "010"] n).
Lemma labels_run : forall n, label_run n (labels_only n) [].
Proof.
  induction n as [|n IH]; [constructor; constructor|].
  unfold labels_only in *. cbn [repeat List.concat]. set (g := List.concat (repeat ["a"; ":"; "010"] n)) in *.
  assert (X : label_run n ("010" :: g) []).
  { inversion IH as [ws q W E1 E2 E3|n' ws w g' q W L R E1 E2 E3]; subst.
    - constructor. constructor; [cbn; tauto|assumption].
    - rewrite app_comm_cons. constructor; [constructor; [cbn; tauto|assumption]|assumption|assumption]. }
  apply (run_label n [] ["a"; ":"] ("010" :: g) []); [constructor| |exact X].
  rewrite app_nil_r. split; [left; exact word_a|split; [exists ["a"]; reflexivity|]]. right. exists "010", g. split; [reflexivity|cbn; tauto].
Qed.
Theorem calls_unbounded : forall d, exists c, tokenize_fuel d c = OutOfFuel /\ (exists t c', tokenize c = Ok (t, c')).
Proof.
  intros d. exists (Cursor (labels_only d) 0 0).
  pose proof (token_calls d (labels_only d) [] 0 0) as T. rewrite app_nil_r in T.
  assert (TT : begun []) by (right; left; reflexivity).
  split.
  - specialize (T d (labels_run d) TT). destruct (tokenize_fuel d _) eqn:E; try reflexivity; exfalso; enough (d < d)%nat by lia; apply T; discriminate.
  - set (e := Cursor [] (lines (labels_only d) 0) (cols (labels_only d) 0)). exists (Token TNone (line e) (col e)), e.
    apply tokenize_iff. exists (labels_only d), [], e. split; [split; [cbn; rewrite app_nil_r; reflexivity|split; reflexivity]|].
    split; [apply (run_gap d), labels_run|]. split; [apply moves_refl|]. split; [right; auto|]. split; reflexivity.
Qed.
