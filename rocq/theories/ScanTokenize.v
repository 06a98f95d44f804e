(** * ScanTokenize: the predicates, the operators and the whole of [context::tokenize] run from its text. *)
From Coq Require Import Lia.
From Verif Require Import Base Float Lexer Scan ScanExec ScanFunctions SourceContext SpecScan ScanRuns ScanTokens.
Local Open Scope string_scope.
Local Open Scope list_scope.
Open Scope Z_scope.

Section Run.
Variable asserts : bool.
Variable bound : nat.
Notation go d := (run asserts bound context_functions d).
Notation again := (again asserts bound).

Lemma lex_predicate_rest : forall t c, lex_predicate t c =
  let* c1 := (if Ascii.eqb (peek (rest c)) "!" then
      let* c' := next c in
      if is_contained "Pp" (peek (rest c')) then Ok c' else fatal_error t BANG_MESSAGE
    else Ok c) in predicate_rest t (Ascii.eqb (peek (rest c)) "!") c1.
Proof. intros t c. reflexivity. Qed.

Definition predicate_then : list sstmt :=
  Eval vm_compute in match predicate_part with YIf _ t _ :: _ => t | _ => [] end.

Lemma predicate_then_runs : forall d n f h h' K K' q fl x a2 b1 l1 c1 pc ls,
  again (S (S (S d))) n f -> looks_at_token pc ls (a_return K) q -> (List.length (x :: a2) <= n)%nat ->
  (List.length (x :: a2) < bound)%nat -> is_contained "!Pp" x = true ->
  looks_at_token pc ls (a_return K') q ->
  (forall s, a_next K' s = exec asserts bound (go (S (S (S d)))) (40 + h) number_part s K) ->
  exec asserts bound (go (S (S (S d)))) (40 + h') predicate_then
    (Sst (At b1 (x :: a2)) l1 c1 pc ls (base_vars fl l1 c1 (At b1 (x :: a2)) (char_value x)) []) K' =
  lexed_answer f
    (let* (p, c1') := lex_predicate (Token TNone l1 c1) (Cursor (x :: a2) l1 c1) in
     match p with
     | Some k => Ok (Got (Token k l1 c1) c1')
     | None => lex_identifier (Token TNone l1 c1) (Cursor (x :: a2) l1 c1) c1'
     end) q.
Proof.
  intros d n f h h' K K' q fl x a2 b1 l1 c1 pc ls IH HK Hn Hb EP HK' Hnext. cbn [Nat.add]. unfold predicate_then.
  rewrite lex_predicate_rest. cbn [rest peek].
  follow. change (peek (x :: a2)) with x. rewrite char_value_inj. destruct (Ascii.eqb x "!").
  - follow. change (existsb (Ascii.eqb (peek a2)) ["P"%char; "p"%char]) with (is_contained "Pp" (peek a2)).
    cbn [bind next rest line col]. destruct (is_contained "Pp" (peek a2)) eqn:E2.
    2: { follow. reflexivity. }
    destruct a2 as [|y a3]; [discriminate E2|]. reduce. rewrite exec_step. reduce. rewrite exec_step. reduce. tidy_state.
    cbn [bind].
    match goal with |- exec _ _ _ _ _ _ ?kk = _ =>
      exact (predicate_rest_runs asserts bound d n f h _ K K' q fl x (y :: a3) b1 l1 c1 pc ls true [x] y a3 _ _ IH HK Hn Hb EP eq_refl HK' Hnext) end.
  - reduce. rewrite exec_step. reduce. tidy_state. cbn [bind].
    match goal with |- exec _ _ _ _ _ _ ?kk = _ =>
      exact (predicate_rest_runs asserts bound d n f h _ K K' q fl x a2 b1 l1 c1 pc ls false [] x a2 _ _ IH HK Hn Hb EP eq_refl HK' Hnext) end.
Qed.

Lemma predicate_runs : forall d n f h K q fl x a2 b1 l1 c1 pc ls,
  again (S (S (S d))) n f -> looks_at_token pc ls (a_return K) q -> (List.length (x :: a2) <= n)%nat ->
  (List.length (x :: a2) < bound)%nat ->
  exec asserts bound (go (S (S (S d)))) (45 + h) predicate_part
    (Sst (At b1 (x :: a2)) l1 c1 pc ls (base_vars fl l1 c1 (At b1 (x :: a2)) (char_value x)) []) K =
  lexed_answer f
    (let* (p, c1') := (if is_contained "!Pp" x then lex_predicate (Token TNone l1 c1) (Cursor (x :: a2) l1 c1)
                      else Ok (None, Cursor (x :: a2) l1 c1)) in
     match p with
     | Some k => Ok (Got (Token k l1 c1) c1')
     | None =>
       if (is_decimal x || is_sign x) && negb (Ascii.eqb (peek1 (rest c1')) "D") then
         let* (k, c2) := lex_immediate (Token TNone l1 c1) c1' in Ok (Got (Token k l1 c1) c2)
       else
       let* (r, c2) := (if Ascii.eqb x "R" then lex_register (Token TNone l1 c1) c1' else Ok (None, c1')) in
       match r with
       | Some k => Ok (Got (Token k l1 c1) c2)
       | None => lex_identifier (Token TNone l1 c1) (Cursor (x :: a2) l1 c1) c2
       end
     end) q.
Proof.
  intros d n f h K q fl x a2 b1 l1 c1 pc ls IH HK Hn Hb. cbn [Nat.add]. unfold predicate_part. follow.
  change (existsb (Ascii.eqb x) ["!"%char; "P"%char; "p"%char]) with (is_contained "!Pp" x).
  destruct (is_contained "!Pp" x) eqn:EP.
  2: { reduce. rewrite exec_step. reduce. tidy_state. cbn [bind rest].
       replace (peek1 (x :: a2)) with (peek a2) by (destruct a2; reflexivity).
       exact (number_runs asserts bound d n f _ K q fl x a2 b1 l1 c1 pc ls IH HK Hn Hb). }
  replace (existsb (Ascii.eqb x) _) with true by (symmetry; exact EP).
  destruct (not_number x EP) as (N1 & N2 & N3). rewrite N1, N2, N3. cbn [orb andb bind].
  reduce. tidy_state. fold predicate_then.
  match goal with |- exec _ _ _ _ _ _ ?kk = _ =>
    assert (HN : forall s, a_next kk s = exec asserts bound (go (S (S (S d)))) (40 + (4 + h)) number_part s K)
      by (intros s; cbn [a_next Nat.add]; rewrite exec_step; reflexivity);
    exact (predicate_then_runs d n f (4 + h) (4 + h) K kk q fl x a2 b1 l1 c1 pc ls IH HK Hn Hb EP HK HN) end.
Qed.

Definition operator_pairs : list (string * tkind) :=
  [("token_type::plus", TPlus); ("token_type::minus", TMinus); ("token_type::tilde", TTilde); ("token_type::vbar", TVbar);
   ("token_type::bracket_left", TLbrack); ("token_type::bracket_right", TRbrack); ("token_type::at", TAt);
   ("token_type::semicolon", TSemi); ("token_type::comma", TComma)].
Lemma operator_kind : forall c, is_operator c = true -> In (operator_name c, operator_type c) operator_pairs.
Proof. intros [[] [] [] [] [] [] [] []] H; try discriminate H; vm_compute; tauto. Qed.

Definition operator_then : list sstmt :=
  Eval vm_compute in match skipn 8 tokenize_body with YIf _ t _ :: _ => t | _ => [] end.

Lemma operator_then_runs : forall d h K q x a2 b1 l1 c1 pc ls fl ct ch, is_operator x = true -> looks_at_token pc ls (a_return K) q ->
  exec asserts bound (go (S (S (S d)))) (10 + h) operator_then
    (Sst (At b1 (x :: a2)) l1 c1 pc ls (base_vars fl l1 c1 ct ch) []) K =
  q (Token (operator_type x) l1 c1) (Cursor a2 (adv_line x l1) (adv_col x c1)).
Proof.
  intros d h K q x a2 b1 l1 c1 pc ls fl ct ch H HK. cbn [Nat.add]. unfold operator_then. follow.
  change (peek (x :: a2)) with x. rewrite operator_type_runs by exact H. pose proof (operator_kind x H) as P.
  cbn [In operator_pairs] in P.
  repeat (destruct P as [P|P]; [injection P as P1 P2; rewrite <- P1, <- P2; follow; apply HK|]). contradiction.
Qed.

Lemma tokenize_runs : forall n d f, (n <= f)%nat -> (n <= bound)%nat -> again (4 + n + d) n f.
Proof.
  induction n as [|n IH]; intros d f Hf Hb b a l c pc ls vs cd k q Ha HK; [lia|].
  destruct f as [|f]; [lia|].
  specialize (IH d f ltac:(lia) ltac:(lia)). change (4 + S n + d)%nat with (S (4 + n + d)). cbn [Nat.add] in IH |- *.
  set (e := (n + d)%nat) in *. clearbody e.
  change (answer (tokenize_fuel (S f) (Cursor a l c)) q) with (lexed_answer f (tokenize1 (Cursor a l c)) q).
  enter. rewrite exec_step. reduce. tidy_state.
  rewrite (skip_loop asserts bound _ _ is_blank) by (apply asks_blank || reflexivity || lia).
  unfold tokenize1, skipped_to, skipc. cbn [rest line col].
  pose proof (take_skip is_blank a l c) as H1. set (t := take_while _ a) in *. clearbody t.
  destruct (skip_while is_blank a l c) as [a1 l1 c1]. cbn [rest line col] in H1 |- *.
  assert (L1 : (List.length a1 <= List.length a)%nat) by (rewrite <- H1, app_length; lia). clear H1.
  follow. rewrite negb_involutive, char_zero. destruct (Ascii.eqb (peek a1) NUL) eqn:EZ.
  { follow. apply HK. }
  destruct a1 as [|x a2]; [discriminate EZ|]. replace (peek1 (x :: a2)) with (peek a2) by (destruct a2; reflexivity).
  assert (HKL : forall s, looks_at_token pc ls (fun v s' => k v (leaves s s')) q) by (intros s t0 b0 a0 l0 c0 v0 d0; apply HK).
  follow. change (peek (x :: a2)) with x.
  destruct (is_operator x) eqn:EO; cbn [andb].
  all: cbn [List.length] in L1.
  - follow. rewrite sign_is. destruct (is_sign x) eqn:ES; cbn [negb orb].
    + follow. destruct (is_decimal (peek a2)); cbn [negb].
      * reduce. rewrite exec_step. reduce. tidy_state.
        match goal with |- exec _ _ _ _ _ _ ?kk = _ =>
          pose proof (predicate_runs (S e) n f 6 kk q VVoid x a2 (rev t ++ b) l1 c1 pc ls IH (HKL _) ltac:(cbn [List.length]; lia)
            ltac:(cbn [List.length]; lia)) as G; rewrite ES in G; exact G end.
      * reduce. tidy_state. fold operator_then. cbn [next bind rest line col].
        match goal with |- exec _ _ _ _ _ _ ?kk = _ =>
          exact (operator_then_runs (S e) 41 kk q x a2 (rev t ++ b) l1 c1 pc ls VVoid _ _ EO (HKL _)) end.
    + reduce. tidy_state. fold operator_then. cbn [next bind rest line col].
      match goal with |- exec _ _ _ _ _ _ ?kk = _ =>
        exact (operator_then_runs (S e) 41 kk q x a2 (rev t ++ b) l1 c1 pc ls VVoid _ _ EO (HKL _)) end.
  - reduce. rewrite exec_step. reduce. tidy_state.
    match goal with |- exec _ _ _ _ _ _ ?kk = _ =>
      exact (predicate_runs (S e) n f 6 kk q VVoid x a2 (rev t ++ b) l1 c1 pc ls IH (HKL _) ltac:(cbn [List.length]; lia)
        ltac:(cbn [List.length]; lia)) end.
Qed.
End Run.

(** What a caller of [tokenize] is left with. *)
Lemma tokenize_text_is : forall asserts bound depth before c pc ls,
  (List.length (rest c) < bound)%nat -> (List.length (rest c) + 5 <= depth)%nat ->
  tokenize_text asserts bound depth context_functions before c pc ls =
  let* (t, c') := tokenize c in Ok (t, c', pc, ls).
Proof.
  intros asserts bound depth before [a l c] pc ls Hb Hd. cbn [rest] in Hb, Hd. unfold tokenize_text, context_at, tokenize.
  cbn [rest line col].
  replace depth with (4 + S (List.length a) + (depth - 5 - List.length a))%nat by lia.
  set (q := fun (t : token) (c : cursor) => Ok (VToken t, Sst (At [] (rest c)) (line c) (col c) pc ls [] []) : out).
  assert (HK : looks_at_token pc ls keep q) by (intros t b' a' l' c' v' d'; reflexivity).
  rewrite (tokenize_runs asserts bound (S (List.length a)) (depth - 5 - List.length a) (S (List.length a)) (le_n _) Hb
    before a l c pc ls [] [] keep q (le_n _) HK).
  unfold answer, q. destruct (tokenize_fuel (S (List.length a)) (Cursor a l c)) as [[t [a' l' c']]| | | | |]; reflexivity.
Qed.

Lemma scanner_text : forall fs, read_named scanning context_cpp = Some fs ->
  forall asserts bound depth before c pc ls,
  (List.length (rest c) < bound)%nat -> (List.length (rest c) + 5 <= depth)%nat ->
  tokenize_text asserts bound depth fs before c pc ls =
  let* (t, c') := tokenize c in Ok (t, c', pc, ls).
Proof. intros fs H. rewrite context_cpp_read in H. injection H as <-. exact tokenize_text_is. Qed.
