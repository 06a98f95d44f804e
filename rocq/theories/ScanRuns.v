(** * ScanRuns: the tokenizer run from its text does what the model says. *)
From Coq Require Import Lia.
From Verif Require Import Base Float Lexer Scan ScanExec ScanFunctions SpecScan.
Local Open Scope string_scope.
Local Open Scope list_scope.
Open Scope Z_scope.

Lemma char_value_inj : forall a b, int_eq (char_value a) (char_value b) = Ascii.eqb a b.
Proof.
  assert (V : forall a, ascii_of_N (Z.to_N (char_value a mod 256)) = a).
  { intros [[] [] [] [] [] [] [] []]; reflexivity. }
  intros a b. destruct (Ascii.eqb_spec a b) as [->|H]; [apply Z.eqb_refl|].
  apply Z.eqb_neq. intros E. apply H. rewrite <- (V a), <- (V b), E. reflexivity.
Qed.

Lemma char_zero : forall c, int_eq (char_value c) 0 = Ascii.eqb c NUL.
Proof. intros c. exact (char_value_inj c NUL). Qed.

Lemma to_char_value : forall c, to_char (char_value c) = char_value c.
Proof. intros [[] [] [] [] [] [] [] []]; reflexivity. Qed.

Section Steps.
Variable asserts : bool.
Variable bound : nat.
Notation go d := (run asserts bound context_functions d).

Lemma exec_step : forall f h l s k,
  exec asserts bound f (S h) l s k = step asserts bound f (exec asserts bound f h) l s k.
Proof. reflexivity. Qed.

Lemma loop_step : forall f g n c l s k,
  loop asserts f g (S n) c l s k =
  eval asserts f c s (fun v s => opt (truth v) (fun b =>
    if b then g l s (After (fun s => loop asserts f g n c l s k) (a_next k) (fun s => loop asserts f g n c l s k) (a_return k))
    else a_next k s)).
Proof. reflexivity. Qed.

(** Calls with the function looked up. *)
Lemma call_step : forall d n x args s k, function_named context_functions n = Some x ->
  go (S d) (Named n) args s k =
  exec asserts bound (go d) 60 (sf_body x) (enters s (combine (sf_params x) args))
    (After (fun s' => k VVoid (leaves s s')) outside outside (fun v s' => k v (leaves s s'))).
Proof. intros d n x args s k E. cbn [run]. rewrite E. reflexivity. Qed.
Lemma code_step : forall d l args s k,
  go (S d) (Code l) args s k = exec asserts bound (go d) 60 l s (After (k VVoid) outside outside k).
Proof. reflexivity. Qed.
End Steps.

Ltac enter :=
  match goal with
  | |- context [run _ _ _ (S ?d) (Named ?n) ?args ?s ?k] =>
      let x := eval vm_compute in (function_named context_functions n) in
      match x with Some ?y => rewrite (call_step _ _ d n y args s k) by (vm_compute; reflexivity) end
  end; cbn [sf_body sf_params combine].

(** Follow the interpreter to the next call, loop, statement or choice. *)
Ltac reduce :=
  lazymatch goal with |- ?L = ?R => let x := eval hnf in L in change (x = R) end.
Ltac st := rewrite exec_step; reduce.

Global Opaque run exec loop char_value peek find_from int_eq int_lt int_le to_char to_int64 s32_of_Z strtof strtoll
  converted insert_label existsb same_length.

Section Run.
Variable asserts : bool.
Variable bound : nat.
Notation go d := (run asserts bound context_functions d).

Lemma find_is : forall t b z c, z = char_value c ->
  same_address (find_from b t z) (At [] []) = Some (negb (existsb (Ascii.eqb c) t)).
Proof.
  intros t b z c ->. revert b. induction t as [|x t IH]; intros b; [reflexivity|]. cbn [find_from existsb].
  rewrite char_value_inj, Ascii.eqb_sym. destruct (Ascii.eqb c x); [reflexivity|]. cbn [orb]. apply IH.
Qed.

Lemma contained_runs : forall d t c s k,
  go (S d) (Named "is_contained") [VView t; VInt (char_value c)] s k = k (VBool (existsb (Ascii.eqb c) t)) s.
Proof.
  intros d t c s k. enter. rewrite exec_step. unfold step.
  cbn -[find_from same_address view_end exec to_char run].
  change (view_end t) with (At (rev t) []).
  pose proof (find_is t [] (to_char (char_value c)) c (to_char_value c)) as H.
  destruct (find_from [] t (to_char (char_value c))) as [b a|]; [|discriminate]. cbn in H |- *.
  injection H as H. unfold opt. cbn.
  rewrite H, negb_involutive. destruct s, a; reflexivity.
Qed.

Lemma operator_runs : forall d c s k,
  go (S (S d)) (Named "is_operator") [VInt (char_value c)] s k = k (VBool (is_operator c)) s.
Proof. intros d c [] k. enter. st.
  rewrite contained_runs. reflexivity. Qed.

Lemma decimal_runs : forall d c s k,
  go (S d) (Named "is_decimal") [VInt (char_value c)] s k = k (VBool (is_decimal c)) s.
Proof. intros d c [] k. enter. st. destruct c as [[] [] [] [] [] [] [] []]; reflexivity. Qed.

Lemma alpha_runs : forall d c s k,
  go (S d) (Named "is_alpha") [VInt (char_value c)] s k = k (VBool (is_alpha c)) s.
Proof. intros d c [] k. enter. st. destruct c as [[] [] [] [] [] [] [] []]; reflexivity. Qed.

Lemma alnum_runs : forall d c s k,
  go (S (S d)) (Named "is_alnum") [VInt (char_value c)] s k = k (VBool (is_alnum c)) s.
Proof.
  intros d c [] k. enter. st. rewrite alpha_runs. unfold is_alnum. destruct (is_alpha c); reduce.
  - reflexivity.
  - rewrite decimal_runs. reflexivity.
Qed.

Lemma separator_runs : forall d c s k,
  go (S (S (S d))) (Named "is_separator") [VInt (char_value c)] s k = k (VBool (is_separator c)) s.
Proof.
  intros d c [] k. enter. st. rewrite contained_runs.
  match goal with |- context [existsb (Ascii.eqb c) ?l] =>
    assert (E : is_separator c = existsb (Ascii.eqb c) l || (is_operator c || Ascii.eqb c NUL))
      by (destruct c as [[] [] [] [] [] [] [] []]; reflexivity);
    rewrite E; destruct (existsb (Ascii.eqb c) l); reduce
  end.
  - reflexivity.
  - rewrite operator_runs. reduce. destruct (is_operator c); reduce; [reflexivity|].
    rewrite char_zero, negb_involutive. reflexivity.
Qed.

(** The type [get_operator_type] returns. *)
Definition operator_name (c : ascii) : string :=
  if Ascii.eqb c "-" then "token_type::minus"
  else if Ascii.eqb c "~" then "token_type::tilde"
  else if Ascii.eqb c "|" then "token_type::vbar"
  else if Ascii.eqb c "[" then "token_type::bracket_left"
  else if Ascii.eqb c "]" then "token_type::bracket_right"
  else if Ascii.eqb c "@" then "token_type::at"
  else if Ascii.eqb c ";" then "token_type::semicolon"
  else if Ascii.eqb c "," then "token_type::comma"
  else "token_type::plus".

Lemma operator_type_runs : forall d c s k, is_operator c = true ->
  go (S d) (Named "get_operator_type") [VInt (char_value c)] s k = k (VEnum (operator_name c)) s.
Proof.
  intros d c [] k H. enter.
  destruct c as [[] [] [] [] [] [] [] []]; try discriminate H; reflexivity.
Qed.

(** [next]. *)
Definition moved (b : text) (x : ascii) (a : text) (l c pc : Z) (ls : labels) (vs : list (string * sval))
  (cd : list (string * list sstmt)) : sst :=
  Sst (At (x :: b) a) (adv_line x l) (adv_col x c) pc ls vs cd.

Lemma next_runs : forall d b x a l c pc ls vs cd k,
  go (S d) (Named "next") [] (Sst (At b (x :: a)) l c pc ls vs cd) k = k VVoid (moved b x a l c pc ls vs cd).
Proof.
  intros d b x a l c pc ls vs cd k. enter. st. cbn [peek].
  change 9 with (char_value TAB). change 10 with (char_value LF).
  unfold moved, adv_line, adv_col.
  destruct x as [[] [] [] [] [] [] [] []]; reflexivity.
Qed.

Lemma next_past : forall d b l c pc ls vs cd k,
  go (S d) (Named "next") [] (Sst (At b []) l c pc ls vs cd) k = k VVoid (Sst Past l (c + 1) pc ls vs cd).
Proof. intros. enter. reflexivity. Qed.

(** ** Loops over characters *)

Fixpoint take_while (p : ascii -> bool) (a : text) : text :=
  match a with [] => [] | x :: a' => if p x then x :: take_while p a' else [] end.

Lemma take_skip : forall p a l c, take_while p a ++ rest (skip_while p a l c) = a.
Proof.
  intros p a. induction a as [|x a IH]; intros l c; [reflexivity|]. cbn. destruct (p x); [|reflexivity]. cbn.
  now rewrite IH.
Qed.

(** Where a loop that skips the characters [p] leaves the context. *)
Definition skipped_to (p : ascii -> bool) (b a : text) (l c pc : Z) (ls : labels) (vs : list (string * sval))
  (cd : list (string * list sstmt)) : sst :=
  let c' := skip_while p a l c in Sst (At (rev (take_while p a) ++ b) (rest c')) (line c') (col c') pc ls vs cd.

(** The condition [c] asks for [p] of the next character. *)
Definition asks (d : nat) (c : sexpr) (p : ascii -> bool) (cd : list (string * list sstmt)) : Prop :=
  forall b a l cl pc ls vs k,
    eval asserts (go d) c (Sst (At b a) l cl pc ls vs cd) k = k (VBool (p (peek a))) (Sst (At b a) l cl pc ls vs cd).

Lemma skip_loop : forall d c p cd h k, asks (S d) c p cd -> p NUL = false -> code_named "next" cd = None ->
  forall a n b l cl pc ls vs, (List.length a < n)%nat ->
  loop asserts (go (S d)) (exec asserts bound (go (S d)) (S (S h))) n c [YExpr (XCall "next" [])]
    (Sst (At b a) l cl pc ls vs cd) k = a_next k (skipped_to p b a l cl pc ls vs cd).
Proof.
  intros d c p cd h k Hc Hp Hn a. induction a as [|x a IH]; intros n b l cl pc ls vs Hl; destruct n as [|n];
    try (cbn in Hl; lia); cbn [loop]; rewrite Hc; unfold opt; cbn [truth peek].
  - rewrite Hp. reflexivity.
  - unfold skipped_to. cbn [skip_while take_while]. destruct (p x) eqn:E; [|reflexivity].
    rewrite exec_step. unfold step. cbn -[run exec loop skip_while]. unfold library. cbn -[run exec loop skip_while].
    rewrite Hn, next_runs. rewrite exec_step. unfold step. cbn [a_next]. unfold moved. rewrite IH by (cbn in Hl; lia).
    unfold skipped_to. cbv zeta. rewrite <- app_assoc. reflexivity.
Qed.

Lemma asks_blank : forall d, asks (S d)
  (XCall "is_contained" [XText [" "%char; "009"%char; "013"%char; "010"%char]; XUn "*" (XName "text")]) is_blank [].
Proof. intros d b a l cl pc ls vs k. reduce. rewrite contained_runs. reflexivity. Qed.

Lemma asks_decimal : forall d, asks (S d) (XCall "is_decimal" [XUn "*" (XName "text")]) is_decimal [].
Proof. intros d b a l cl pc ls vs k. reduce. rewrite decimal_runs. reflexivity. Qed.

Lemma asks_word : forall d, asks (S (S (S d))) (XUn "!" (XCall "is_separator" [XUn "*" (XName "text")]))
  (fun c => negb (is_separator c)) [].
Proof. intros d b a l cl pc ls vs k. reduce. rewrite separator_runs. reflexivity. Qed.

End Run.
