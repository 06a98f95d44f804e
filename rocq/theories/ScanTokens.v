(** * ScanTokens: [context::tokenize] run from its text is the tokenizer of the model. *)
From Coq Require Import Lia.
From Verif Require Import Base Float Lexer Scan ScanExec ScanFunctions SpecScan ScanRuns.
Local Open Scope string_scope.
Local Open Scope list_scope.
Open Scope Z_scope.

Definition number_vars (fl : sval) (tl tc : Z) (ct : ptr) (ch : Z) (has fp hex : bool) : list (string * sval) :=
  [("token.filename", fl); ("token.line", VInt tl); ("token.column", VInt tc); ("contents", VPtr ct);
   ("character", VInt ch); ("token.type", VEnum "token_type::immediate"); ("has_hex", VBool has);
   ("is_floating_point", VBool fp); ("is_hex", VBool hex)].

Definition register_vars (fl : sval) (tl tc : Z) (ct : ptr) (ch : Z) (bad : bool) : list (string * sval) :=
  [("token.filename", fl); ("token.line", VInt tl); ("token.column", VInt tc); ("contents", VPtr ct);
   ("character", VInt ch); ("token.type", VEnum "token_type::regster"); ("invalid_register", VBool bad)].

Definition base_vars (fl : sval) (tl tc : Z) (ct : ptr) (ch : Z) : list (string * sval) :=
  [("token.filename", fl); ("token.line", VInt tl); ("token.column", VInt tc); ("contents", VPtr ct);
   ("character", VInt ch)].
Definition predicate_vars (fl : sval) (tl tc : Z) (ct : ptr) (ch : Z) (neg it : bool) (ix : option Z)
  : list (string * sval) :=
  [("token.filename", fl); ("token.line", VInt tl); ("token.column", VInt tc); ("contents", VPtr ct);
   ("character", VInt ch); ("token.type", VEnum "token_type::predicate"); ("token.data.predicate.negated", VBool neg);
   ("is_true", VBool it); ("index", VOpt ix)].

(** Follow the text as long as there is nothing to choose. *)
Ltac written_out s :=
  eval cbv beta iota zeta delta [bind_var with_vars with_code enters leaves moved set get s_text s_line s_column s_pc
    s_labels s_vars s_code number_vars register_vars base_vars predicate_vars String.eqb Ascii.eqb Bool.eqb combine sf_params] in s.
Ltac tidy_state :=
  lazymatch goal with
  | |- exec _ _ _ _ _ ?s _ = _ => let x := written_out s in change s with x
  | |- run _ _ _ _ _ _ ?s _ = _ => let x := written_out s in change s with x
  | |- loop _ _ _ _ _ _ ?s _ = _ => let x := written_out s in change s with x
  | _ => idtac
  end.
Ltac follow :=
  reduce; tidy_state;
  lazymatch goal with
  | |- exec _ _ _ _ _ _ _ = _ => rewrite exec_step; follow
  | |- run _ _ _ _ (Named "is_contained") _ _ _ = _ => rewrite contained_runs; follow
  | |- run _ _ _ _ (Named "is_operator") _ _ _ = _ => rewrite operator_runs; follow
  | |- run _ _ _ _ (Named "is_decimal") _ _ _ = _ => rewrite decimal_runs; follow
  | |- run _ _ _ _ (Named "is_separator") _ _ _ = _ => rewrite separator_runs; follow
  | |- run _ _ _ _ (Named "next") _ (Sst (At _ (_ :: _)) _ _ _ _ _ _) _ = _ => rewrite next_runs; unfold moved; follow
  | |- run _ _ _ _ (Named "next") _ (Sst (At _ []) _ _ _ _ _ _) _ = _ => rewrite next_past; follow
  | |- match binary_value ?o ?x ?y with _ => _ end = _ =>
      let z := eval cbv beta iota zeta delta [binary_value distance same_address s_text String.eqb Ascii.eqb Bool.eqb]
        in (binary_value o x y) in
      change (binary_value o x y) with z; follow
  | |- match cast ?t ?x with _ => _ end = _ =>
      let z := eval cbv beta iota zeta delta [cast String.eqb Ascii.eqb Bool.eqb] in (cast t x) in
      change (cast t x) with z; follow
  | _ => idtac
  end.

Section Run.
Variable asserts : bool.
Variable bound : nat.
Notation go d := (run asserts bound context_functions d).

(** ** The loop over the digits of a number *)

Definition digits_condition : sexpr :=
  XBin "||" (XBin "||" (XCall "is_decimal" [XUn "*" (XName "text")])
                       (XCall "is_contained" [XText ["+"%char; "-"%char]; XUn "*" (XName "text")]))
    (XSet "is_hex" "=" (XCall "is_contained"
       [XText ["A"%char; "a"%char; "B"%char; "b"%char; "C"%char; "c"%char; "D"%char; "d"%char; "E"%char; "e"%char;
               "F"%char; "f"%char; "X"%char; "x"%char]; XUn "*" (XName "text")])).
Definition digits_body : list sstmt := [YExpr (XSet "has_hex" "|=" (XName "is_hex")); YExpr (XCall "next" [])].

Lemma sign_is : forall c, existsb (Ascii.eqb c) ["+"%char; "-"%char] = is_sign c.
Proof. reflexivity. Qed.
Lemma hex_is : forall c, existsb (Ascii.eqb c) ["A"%char; "a"%char; "B"%char; "b"%char; "C"%char; "c"%char; "D"%char;
  "d"%char; "E"%char; "e"%char; "F"%char; "f"%char; "X"%char; "x"%char] = is_hex_char c.
Proof. reflexivity. Qed.

Lemma digits_loop : forall d h k fl tl tc ct ch a n b l cl pc ls has hex,
  (hex = true -> has = true) -> (List.length a < n)%nat ->
  loop asserts (go (S d)) (exec asserts bound (go (S d)) (S (S (S h)))) n digits_condition digits_body
    (Sst (At b a) l cl pc ls (number_vars fl tl tc ct ch has false hex) []) k =
  a_next k (skipped_to is_imm_char b a l cl pc ls
    (number_vars fl tl tc ct ch (has || existsb is_hex_char (take_while is_imm_char a)) false false) []).
Proof.
  intros d h k fl tl tc ct ch a. induction a as [|x a IH]; intros n b l cl pc ls has hex Hh Hl; destruct n as [|n];
    try (cbn in Hl; lia); rewrite loop_step; reduce; rewrite decimal_runs; reduce.
  - change (is_decimal (peek [])) with false. follow.
    rewrite sign_is. change (is_sign (peek [])) with false. follow.
    rewrite hex_is. change (is_hex_char (peek [])) with false. reduce. cbn. rewrite orb_false_r. reflexivity.
  - cbn [peek]. unfold skipped_to. cbn [take_while skip_while].
    assert (T : is_imm_char x = is_decimal x || is_sign x || is_hex_char x) by reflexivity.
    assert (Y : has || hex = has) by (destruct has, hex; auto; discriminate Hh; auto).
    destruct (is_decimal x) eqn:D; [|follow; rewrite sign_is; cbn [peek]; destruct (is_sign x) eqn:G];
      [| |follow; rewrite hex_is; cbn [peek]; destruct (is_hex_char x) eqn:X].
    1, 2: assert (X : is_hex_char x = false) by
      (revert D; try revert G; clear; destruct x as [[] [] [] [] [] [] [] []]; vm_compute; congruence).
    1-3: rewrite T; follow.
    1-3: cbn [existsb orb];
      match goal with |- loop _ _ _ _ _ _ (Sst _ _ _ _ _ ?v _) _ = _ =>
        first [change v with (number_vars fl tl tc ct ch (has || hex) false hex)
              |change v with (number_vars fl tl tc ct ch (has || true) false true)] end;
      rewrite IH by first [now destruct has, hex; auto|cbn in Hl; lia];
      unfold skipped_to; cbv zeta; cbn [rev]; rewrite X, <- app_assoc, ?Y; cbn [orb]; rewrite ?orb_true_r; reflexivity.
    rewrite T. follow. cbn. rewrite orb_false_r. reflexivity.
Qed.

(** ** The loop over the digits of a register *)

Definition index_body : list sstmt :=
  [YIf (XUn "!" (XCall "is_decimal" [XUn "*" (XName "text")]))
     [YExpr (XSet "invalid_register" "=" (XName "true")); YBreak] []; YExpr (XCall "next" [])].

Lemma decimal_word : forall c, is_decimal c = true -> is_separator c = false.
Proof. intros [[] [] [] [] [] [] [] []] H; vm_compute in H |- *; congruence. Qed.

Lemma register_loop : forall d h k fl tl tc ct ch a n b l cl pc ls, (List.length a < n)%nat ->
  loop asserts (go (S (S (S d)))) (exec asserts bound (go (S (S (S d)))) (S (S (S (S h))))) n
    (XUn "!" (XCall "is_separator" [XUn "*" (XName "text")])) index_body
    (Sst (At b a) l cl pc ls (register_vars fl tl tc ct ch false) []) k =
  a_next k (skipped_to is_decimal b a l cl pc ls
    (register_vars fl tl tc ct ch (negb (is_separator (peek (rest (skip_while is_decimal a l cl)))))) []).
Proof.
  intros d h k fl tl tc ct ch a. induction a as [|x a IH]; intros n b l cl pc ls Hl; destruct n as [|n];
    try (cbn in Hl; lia); rewrite loop_step; follow.
  - reflexivity.
  - cbn [peek]. unfold skipped_to. cbn [take_while skip_while]. destruct (is_separator x) eqn:S.
    + destruct (is_decimal x) eqn:D; [apply decimal_word in D; congruence|]. follow. cbn [rest peek]. rewrite S. reflexivity.
    + follow. cbn [peek]. destruct (is_decimal x) eqn:D; follow.
      * match goal with |- loop _ _ _ _ _ _ (Sst _ _ _ _ _ ?v _) _ = _ =>
          change v with (register_vars fl tl tc ct ch false) end.
        rewrite IH by (cbn in Hl; lia). unfold skipped_to. cbv zeta. cbn [rev]. rewrite <- app_assoc. reflexivity.
      * cbn [rest peek]. rewrite S. reflexivity.
Qed.

(** ** Tokens *)

(** The parts of the function, each with all that follows it. *)
Definition tokenize_body : list sstmt :=
  Eval vm_compute in match function_named context_functions "tokenize" with Some x => sf_body x | None => [] end.
Definition words_part : list sstmt := Eval vm_compute in skipn 12 tokenize_body.
Definition register_part : list sstmt := Eval vm_compute in skipn 11 tokenize_body.
Definition number_part : list sstmt := Eval vm_compute in skipn 10 tokenize_body.
Definition predicate_part : list sstmt := Eval vm_compute in skipn 9 tokenize_body.

(** A caller that looks at the token, the cursor, the address and the labels only, the last two being [pc] and [ls]. *)
Definition looks_at_token (pc : Z) (ls : labels) (k : sval -> sst -> out) (q : token -> cursor -> out) : Prop :=
  forall t b a l c vs cd, k (VToken t) (Sst (At b a) l c pc ls vs cd) = q t (Cursor a l c).

Definition answer (r : res (token * cursor)) (q : token -> cursor -> out) : out :=
  let* (t, c) := r in q t c.

(** What [tokenize] called by itself does, for texts of at most [n] characters. *)
Definition again (d n f : nat) : Prop := forall b a l c pc ls vs cd k q,
  (List.length a < n)%nat -> looks_at_token pc ls k q ->
  go d (Named "tokenize") [] (Sst (At b a) l c pc ls vs cd) k = answer (tokenize_fuel f (Cursor a l c)) q.

Definition lexed_answer (f : nat) (r : res lexed) (q : token -> cursor -> out) : out :=
  answer (let* x := r in match x with Got t c => Ok (t, c) | Skip c => tokenize_fuel f c end) q.

(** The variables when a word is read. *)
Inductive word_vars (fl : sval) (tl tc : Z) (ct : ptr) (ch : Z) : list (string * sval) -> Prop :=
| wv_word : word_vars fl tl tc ct ch (base_vars fl tl tc ct ch)
| wv_predicate : forall neg it ix, word_vars fl tl tc ct ch (predicate_vars fl tl tc ct ch neg it ix)
| wv_register : word_vars fl tl tc ct ch (register_vars fl tl tc ct ch true).

Lemma last_in_front : forall w y t b, exists r, rev t ++ y :: rev w ++ b = List.last (w ++ y :: t) NUL :: r.
Proof.
  intros w y t b. destruct (@exists_last _ (w ++ y :: t)) as (r & z & E); [destruct w; discriminate|].
  exists (rev r ++ b). rewrite E, last_last.
  assert (R : rev (w ++ y :: t) = z :: rev r) by (rewrite E, rev_app_distr; reflexivity).
  rewrite rev_app_distr in R. cbn in R. rewrite <- app_assoc in R. cbn in R.
  change (z :: rev r ++ b) with ((z :: rev r) ++ b). rewrite <- R, <- app_assoc. reflexivity.
Qed.

Lemma between_is : forall w a l c l' c', between (Cursor (w ++ a) l c) (Cursor a l' c') = w.
Proof.
  intros w a l c l' c'. unfold between. cbn [rest]. rewrite app_length, Nat.add_sub, firstn_app, Nat.sub_diag, firstn_all.
  apply app_nil_r.
Qed.

Lemma words_runs : forall d n f h K q fl tl tc ch w b1 a2 l1 c1 l2 c2 pc ls vs,
  again (S (S (S d))) n f -> looks_at_token pc ls (a_return K) q -> (List.length a2 <= n)%nat -> (List.length a2 < bound)%nat ->
  word_vars fl tl tc (At b1 (w ++ a2)) ch vs ->
  exec asserts bound (go (S (S (S d)))) (20 + h) words_part (Sst (At (rev w ++ b1) a2) l2 c2 pc ls vs []) K =
  lexed_answer f (lex_identifier (Token TNone tl tc) (Cursor (w ++ a2) l1 c1) (Cursor a2 l2 c2)) q.
Proof.
  intros d n f h K q fl tl tc ch w b1 a2 l1 c1 l2 c2 pc ls vs IH HK Hn Hb Hv. cbn [Nat.add]. unfold words_part.
  destruct a2 as [|y a3].
  { destruct bound as [|m]; [cbn in Hb; lia|]. follow. rewrite loop_step. follow. reflexivity. }
  follow. rewrite (skip_loop asserts bound _ _ (fun c => negb (is_separator c))) by (apply asks_word || reflexivity || (cbn in Hb; lia)).
  unfold lex_identifier, skipc. cbn [next rest line col bind]. unfold skipped_to.
  pose proof (take_skip (fun c => negb (is_separator c)) a3 (adv_line y l2) (adv_col y c2)) as Ha.
  set (t3 := take_while _ a3) in *. clearbody t3.
  destruct (skip_while _ a3 (adv_line y l2) (adv_col y c2)) as [a4 l4 c4]. cbn [rest line col] in Ha |- *.
  destruct (last_in_front w y t3 b1) as (r & R). rewrite R.
  assert (B : between (Cursor (w ++ y :: a3) l1 c1) (Cursor a4 l4 c4) = w ++ y :: t3).
  { rewrite <- Ha. change (w ++ y :: t3 ++ a4) with (w ++ (y :: t3) ++ a4). rewrite app_assoc. apply between_is. }
  rewrite B. set (last_char := List.last (w ++ y :: t3) NUL). clearbody last_char.
  follow. rewrite char_value_inj. destruct (Ascii.eqb last_char ":").
  - follow. rewrite (IH _ _ _ _ _ _ _ _ _ q); [reflexivity| |exact HK].
    rewrite <- Ha in Hn. cbn [List.length] in Hn. rewrite app_length in Hn. lia.
  - assert (L : Z.of_nat (List.length (w ++ y :: a3)) - Z.of_nat (List.length a4) = Z.of_nat (List.length (w ++ y :: t3))).
    { rewrite <- Ha, !app_length. cbn [List.length]. rewrite app_length. lia. }
    assert (F : firstn (List.length (w ++ y :: t3)) (w ++ y :: a3) = w ++ y :: t3).
    { rewrite <- Ha. change (w ++ y :: t3 ++ a4) with (w ++ (y :: t3) ++ a4).
      rewrite app_assoc, firstn_app, Nat.sub_diag, firstn_all. apply app_nil_r. }
    assert (P : forall k, int_lt (Z.of_nat k) 0 = false) by (intros k; apply Z.ltb_ge; lia).
    destruct Hv; follow.
    all: rewrite L, P; follow; rewrite P, Nat2Z.id, F; follow; apply HK.
Qed.

Local Transparent to_int64 strtoll.
Lemma strtoll_fits : forall base t, to_int64 (fst (strtoll base t)) = fst (strtoll base t).
Proof.
  assert (C : forall z, to_int64 (clamp64 z) = clamp64 z).
  { intros z. unfold to_int64, clamp64. change (2 ^ 64) with 18446744073709551616. change (2 ^ 63) with 9223372036854775808.
    unfold INT64_MIN, INT64_MAX.
    destruct (Z.ltb_spec z (-9223372036854775808)); [reflexivity|].
    destruct (Z.ltb_spec 9223372036854775807 z); [reflexivity|]. cbv zeta.
    destruct (Z.ltb_spec (z mod 18446744073709551616) 9223372036854775808); Z.div_mod_to_equations; lia. }
  intros base t. unfold strtoll.
  repeat match goal with |- context [let '(_, _) := ?x in _] => destruct x end.
  destruct (starts_digit _ _); [|reflexivity].
  cbn [fst]. apply C.
Qed.
Local Opaque to_int64 strtoll.

Lemma seen_is : forall w a3 a, w ++ a3 = a ->
  [AInt (s32_of_Z (Z.of_nat (List.length a) - Z.of_nat (List.length a3))); APtr (firstn (List.length a - List.length a3) a)] =
  int_view w.
Proof.
  intros w a3 a <-. rewrite app_length, Nat.add_sub, firstn_app, firstn_all, Nat.sub_diag, app_nil_r. unfold int_view.
  do 3 f_equal. lia.
Qed.

Lemma register_runs : forall d n f h K q fl x a2 b1 l1 c1 pc ls,
  again (S (S (S d))) n f -> looks_at_token pc ls (a_return K) q -> (List.length (x :: a2) <= n)%nat ->
  (List.length (x :: a2) < bound)%nat ->
  exec asserts bound (go (S (S (S d)))) (30 + h) register_part
    (Sst (At b1 (x :: a2)) l1 c1 pc ls (base_vars fl l1 c1 (At b1 (x :: a2)) (char_value x)) []) K =
  lexed_answer f
    (let* (r, c2) := (if Ascii.eqb x "R" then lex_register (Token TNone l1 c1) (Cursor (x :: a2) l1 c1)
                      else Ok (None, Cursor (x :: a2) l1 c1)) in
     match r with
     | Some k => Ok (Got (Token k l1 c1) c2)
     | None => lex_identifier (Token TNone l1 c1) (Cursor (x :: a2) l1 c1) c2
     end) q.
Proof.
  intros d n f h K q fl x a2 b1 l1 c1 pc ls IH HK Hn Hb. cbn [Nat.add]. unfold register_part. follow.
  rewrite char_value_inj. destruct (Ascii.eqb x "R").
  2: { reduce. rewrite exec_step. reduce. tidy_state. cbn [bind].
       refine (words_runs d n f _ K q fl l1 c1 _ [] b1 _ _ _ _ _ _ _ _ IH HK Hn Hb _). apply wv_word. }
  follow. rewrite char_value_inj. unfold lex_register. cbn [next rest line col bind].
  destruct (Ascii.eqb (peek a2) "Z") eqn:EZ.
  { destruct a2 as [|z a3]; [discriminate EZ|]. follow. cbn [next rest line col bind].
    destruct (is_separator (peek a3)); follow; [apply HK|reflexivity]. }
  follow.
  match goal with |- loop _ _ _ _ _ _ ?s ?k = _ =>
    change s with (Sst (At (x :: b1) a2) (adv_line x l1) (adv_col x c1) pc ls
      (register_vars fl l1 c1 (At b1 (x :: a2)) (char_value x) false) []) end.
  fold index_body. rewrite register_loop by (cbn in Hb; lia).
  unfold skipped_to, skipc. cbn [rest line col].
  pose proof (take_skip is_decimal a2 (adv_line x l1) (adv_col x c1)) as Ha. set (t := take_while _ a2) in *. clearbody t.
  destruct (skip_while is_decimal a2 (adv_line x l1) (adv_col x c1)) as [a3 l3 c3]. cbn [rest line col] in Ha |- *.
  assert (B : between (Cursor (x :: a2) l1 c1) (Cursor a3 l3 c3) = x :: t).
  { rewrite <- Ha. exact (between_is (x :: t) a3 _ _ _ _). }
  assert (L : Z.of_nat (List.length (x :: a2)) - Z.of_nat (List.length a3) = Z.of_nat (List.length (x :: t))).
  { rewrite <- Ha. cbn [List.length]. rewrite app_length. lia. }
  destruct (is_separator (peek a3)).
  2: { reduce. rewrite exec_step. reduce. rewrite exec_step. reduce. tidy_state. cbn [bind negb]. rewrite <- Ha. 
       replace (rev t ++ x :: b1) with (rev (x :: t) ++ b1) by (cbn [rev]; rewrite <- app_assoc; reflexivity).
       refine (words_runs d n f _ K q fl l1 c1 _ (x :: t) b1 _ _ _ _ _ _ _ _ IH HK _ _ _).
       1, 2: rewrite <- Ha in *; cbn [List.length] in *; rewrite app_length in *; lia.
       apply wv_register. }
  follow. pose proof (strtoll_fits 10 a2) as V. destruct (strtoll 10 a2) as [v e]. cbn [fst] in V. follow. rewrite V. follow.
  unfold converted at 1. unfold same_end. cbn [rest]. change (Nat.eqb (List.length e) (List.length a3)) with (same_length e a3).
  destruct (same_length e a3).
  2: { follow. rewrite (seen_is (x :: t) a3) by (rewrite <- Ha; reflexivity).
       cbn [negb]. rewrite B. cbn [bind fatal_error lexed_answer]. reflexivity. }
  follow. cbn [negb]. change (v <? 0) with (int_lt v 0). change (NUM_USER_REGISTERS <=? v) with (int_le NUM_USER_REGISTERS v).
  destruct (int_lt v 0) eqn:E0.
  { follow. rewrite (seen_is (x :: t) a3) by (rewrite <- Ha; reflexivity). rewrite B. reflexivity. }
  follow. change 255 with NUM_USER_REGISTERS. destruct (int_le NUM_USER_REGISTERS v) eqn:E1.
  { follow. rewrite (seen_is (x :: t) a3) by (rewrite <- Ha; reflexivity). rewrite B. reflexivity. }
  assert (M : v mod 256 = v).
  { apply Z.ltb_ge in E0. apply Z.leb_gt in E1. unfold NUM_USER_REGISTERS in E1. apply Z.mod_small. lia. }
  follow. cbn [orb bind]. rewrite M. apply HK.
Qed.

Definition number_inside : list sstmt := Eval vm_compute in match number_part with YIf _ t _ :: _ => t | _ => [] end.

Lemma inside_runs : forall d f h K q fl x a2 b1 l1 c1 pc ls, looks_at_token pc ls (a_return K) q -> is_imm_char x = true ->
  (List.length (x :: a2) < bound)%nat ->
  exec asserts bound (go (S (S (S d)))) (30 + h) number_inside
    (Sst (At b1 (x :: a2)) l1 c1 pc ls (base_vars fl l1 c1 (At b1 (x :: a2)) (char_value x)) []) K =
  lexed_answer f
    (let* (k, c2) := lex_immediate (Token TNone l1 c1) (Cursor (x :: a2) l1 c1) in Ok (Got (Token k l1 c1) c2)) q.
Proof.
  intros d f h K q fl x a2 b1 l1 c1 pc ls HK Hx Hb. cbn [Nat.add]. unfold number_inside. follow.
  match goal with |- loop _ _ _ _ _ _ ?s ?k = _ =>
    change s with (Sst (At b1 (x :: a2)) l1 c1 pc ls
      (number_vars fl l1 c1 (At b1 (x :: a2)) (char_value x) false false false) []) end.
  fold digits_condition. fold digits_body. rewrite digits_loop by (discriminate || exact Hb).
  unfold skipped_to, lex_immediate, skipc. cbn [rest line col].
  pose proof (take_skip is_imm_char (x :: a2) l1 c1) as Ha. set (t := take_while _ (x :: a2)) in *. clearbody t.
  destruct (skip_while is_imm_char (x :: a2) l1 c1) as [a3 l3 c3]. cbn [rest line col] in Ha |- *.
  assert (B : between (Cursor (x :: a2) l1 c1) (Cursor a3 l3 c3) = t).
  { rewrite <- Ha. exact (between_is t a3 _ _ _ _). }
  rewrite B. cbn [orb]. set (has := existsb is_hex_char t). clearbody has. follow.
  rewrite char_value_inj. destruct (Ascii.eqb (peek a3) ".") eqn:ED.
  - destruct a3 as [|y a4]; [discriminate ED|]. destruct has.
    { follow. reflexivity. }
    follow. rewrite (skip_loop asserts bound _ _ is_decimal) by
      (apply asks_decimal || reflexivity || (apply (f_equal (@List.length _)) in Ha; rewrite app_length in Ha; cbn in Ha, Hb; lia)).
    cbn [bind next rest line col]. unfold skipped_to. cbn [rest line col].
    pose proof (take_skip is_decimal a4 (adv_line y l3) (adv_col y c3)) as H4. set (t4 := take_while _ a4) in *. clearbody t4.
    destruct (skip_while is_decimal a4 (adv_line y l3) (adv_col y c3)) as [a5 l5 c5]. cbn [rest line col bind] in H4 |- *.
    assert (H5 : (t ++ y :: t4) ++ a5 = x :: a2) by (rewrite <- Ha, <- H4, <- app_assoc; reflexivity).
    assert (B5 : between (Cursor (x :: a2) l1 c1) (Cursor a5 l5 c5) = t ++ y :: t4).
    { rewrite <- H5. apply between_is. }
    follow. destruct (is_separator (peek a5)).
    2: { follow. reflexivity. }
    follow. destruct (strtof (x :: a2)) as [v e]. follow.
    unfold converted at 1. unfold same_end. cbn [rest]. change (Nat.eqb (List.length e) (List.length a5)) with (same_length e a5).
    destruct (same_length e a5).
    2: { follow. rewrite (seen_is (t ++ y :: t4) a5) by exact H5. cbn [negb]. rewrite B5. reflexivity. }
    follow. apply HK.
  - follow. cbn [bind rest].
    destruct (is_separator (peek a3)).
    2: { follow. reflexivity. }
    follow. pose proof (strtoll_fits 0 (x :: a2)) as V. destruct (strtoll 0 (x :: a2)) as [v e]. cbn [fst] in V. follow. rewrite V. follow.
    unfold converted at 1. unfold same_end. cbn [rest]. change (Nat.eqb (List.length e) (List.length a3)) with (same_length e a3).
    destruct (same_length e a3).
    2: { follow. rewrite (seen_is t a3) by exact Ha. cbn [negb]. rewrite B. reflexivity. }
    follow. apply HK.
Qed.

Lemma number_runs : forall d n f h K q fl x a2 b1 l1 c1 pc ls,
  again (S (S (S d))) n f -> looks_at_token pc ls (a_return K) q -> (List.length (x :: a2) <= n)%nat ->
  (List.length (x :: a2) < bound)%nat ->
  exec asserts bound (go (S (S (S d)))) (40 + h) number_part
    (Sst (At b1 (x :: a2)) l1 c1 pc ls (base_vars fl l1 c1 (At b1 (x :: a2)) (char_value x)) []) K =
  lexed_answer f
    (if (is_decimal x || is_sign x) && negb (Ascii.eqb (peek a2) "D") then
       let* (k, c2) := lex_immediate (Token TNone l1 c1) (Cursor (x :: a2) l1 c1) in Ok (Got (Token k l1 c1) c2)
     else
     let* (r, c2) := (if Ascii.eqb x "R" then lex_register (Token TNone l1 c1) (Cursor (x :: a2) l1 c1)
                      else Ok (None, Cursor (x :: a2) l1 c1)) in
     match r with
     | Some k => Ok (Got (Token k l1 c1) c2)
     | None => lex_identifier (Token TNone l1 c1) (Cursor (x :: a2) l1 c1) c2
     end) q.
Proof.
  intros d n f h K q fl x a2 b1 l1 c1 pc ls IH HK Hn Hb. cbn [Nat.add]. unfold number_part.
  assert (H1 : (is_decimal x || is_sign x) && negb (Ascii.eqb (peek a2) "D") = true -> is_imm_char x = true).
  { unfold is_imm_char. intros H. apply andb_prop in H as [H _]. rewrite H. reflexivity. }
  fold number_inside.
  destruct (is_decimal x) eqn:E1; [|destruct (is_sign x) eqn:E2].
  3: { follow. rewrite E1. follow. rewrite sign_is, E2. reduce. rewrite exec_step. reduce. tidy_state. cbn [orb andb].
       exact (register_runs d n f _ K q fl x a2 b1 l1 c1 pc ls IH HK Hn Hb). }
  all: follow; rewrite E1; follow; rewrite ?sign_is, ?E2; follow.
  all: rewrite char_value_inj; destruct (Ascii.eqb (peek a2) "D"); cbn [negb andb orb] in H1 |- *.
  1, 3: reduce; rewrite exec_step; reduce; tidy_state; exact (register_runs d n f _ K q fl x a2 b1 l1 c1 pc ls IH HK Hn Hb).
  all: match goal with |- exec _ _ _ _ _ _ ?kk = _ =>
    exact (inside_runs d f _ kk q fl x a2 b1 l1 c1 pc ls HK (H1 eq_refl) Hb) end.
Qed.

(** [lex_predicate] behind the [!]. *)
Definition predicate_rest (t : token) (negated : bool) (c1 : cursor) : res (option tkind * cursor) :=
  let* c2 := next c1 in
  let ch := peek (rest c2) in
  let is_true := is_contained "Tt" ch in
  let index :=
    if is_true then Some 7%N
    else if is_decimal ch then Some (N_of_ascii ch - 48)%N
    else None in
  match index with
  | None => Ok (None, c2)
  | Some i =>
      let* c3 := next c2 in
      if is_separator (peek (rest c3)) then
        if negb is_true && N.ltb 6 i then fatal_error t "out of range predicate"
        else Ok (Some (TPred i negated), c3)
      else Ok (None, c3)
  end.
Definition predicate_inside : list sstmt :=
  Eval vm_compute in match predicate_part with YIf _ t _ :: _ => skipn 2 t | _ => [] end.

Lemma not_number : forall x, is_contained "!Pp" x = true ->
  is_decimal x = false /\ is_sign x = false /\ Ascii.eqb x "R" = false.
Proof. intros [[] [] [] [] [] [] [] []] H; vm_compute in H |- *; try discriminate H; auto. Qed.

Lemma number_skips : forall d h K x fl l1 c1 ct p l c pc ls neg it ix, is_contained "!Pp" x = true ->
  exec asserts bound (go (S (S (S d)))) (40 + h) number_part
    (Sst p l c pc ls (predicate_vars fl l1 c1 ct (char_value x) neg it ix) []) K =
  exec asserts bound (go (S (S (S d)))) (38 + h) words_part
    (Sst p l c pc ls (predicate_vars fl l1 c1 ct (char_value x) neg it ix) []) K.
Proof.
  intros d h K x fl l1 c1 ct p l c pc ls neg it ix H. apply not_number in H as (H1 & H2 & H3). cbn [Nat.add].
  unfold number_part. follow. rewrite H1. follow. rewrite sign_is, H2. follow. rewrite char_value_inj, H3. reduce. rewrite exec_step. reduce. tidy_state.
  reflexivity.
Qed.

Lemma index_is : forall c, is_decimal c = true -> char_value c - char_value "0" = Z.of_N (N_of_ascii c - 48).
Proof. intros [[] [] [] [] [] [] [] []] H; vm_compute in H |- *; congruence. Qed.

Lemma predicate_rest_runs : forall d n f h h' K K' q fl x a2 b1 l1 c1 pc ls neg w y a3 l2 c2,
  again (S (S (S d))) n f -> looks_at_token pc ls (a_return K) q -> (List.length (x :: a2) <= n)%nat ->
  (List.length (x :: a2) < bound)%nat -> is_contained "!Pp" x = true -> w ++ y :: a3 = x :: a2 ->
  looks_at_token pc ls (a_return K') q ->
  (forall s, a_next K' s = exec asserts bound (go (S (S (S d)))) (40 + h) number_part s K) ->
  exec asserts bound (go (S (S (S d)))) (30 + h') predicate_inside
    (Sst (At (rev w ++ b1) (y :: a3)) l2 c2 pc ls
      (base_vars fl l1 c1 (At b1 (x :: a2)) (char_value x) ++
       [("token.type", VEnum "token_type::predicate"); ("token.data.predicate.negated", VBool neg)]) []) K' =
  lexed_answer f
    (let* (p, c1') := predicate_rest (Token TNone l1 c1) neg (Cursor (y :: a3) l2 c2) in
     match p with
     | Some k => Ok (Got (Token k l1 c1) c1')
     | None => lex_identifier (Token TNone l1 c1) (Cursor (x :: a2) l1 c1) c1'
     end) q.
Proof.
  intros d n f h h' K K' q fl x a2 b1 l1 c1 pc ls neg w y a3 l2 c2 IH HK Hn Hb Hx Hw HK' Hnext.
  assert (FALL : forall w' a' l' c' it ix, w' ++ a' = x :: a2 ->
    a_next K' (Sst (At (rev w' ++ b1) a') l' c' pc ls (predicate_vars fl l1 c1 (At b1 (x :: a2)) (char_value x) neg it ix) []) =
    lexed_answer f (lex_identifier (Token TNone l1 c1) (Cursor (x :: a2) l1 c1) (Cursor a' l' c')) q).
  { intros w' a' l' c' it ix E. rewrite Hnext, number_skips by exact Hx.
    assert (G : (List.length a' <= List.length (x :: a2))%nat) by (rewrite <- E, app_length; lia).
    rewrite <- E. apply (words_runs d n f _ K q fl l1 c1 (char_value x) w' b1 a' l1 c1 l' c' pc ls _ IH HK); try lia.
    apply wv_predicate. }
  cbn [Nat.add]. unfold predicate_inside, predicate_rest.
  cbn [base_vars app bind next rest line col].
  follow.
  change (existsb (Ascii.eqb (peek a3)) ["T"%char; "t"%char]) with (is_contained "Tt" (peek a3)).
  assert (R1 : y :: rev w ++ b1 = rev (w ++ [y]) ++ b1) by (rewrite rev_app_distr; reflexivity).
  assert (R2 : forall z, z :: y :: rev w ++ b1 = rev (w ++ [y; z]) ++ b1) by (intros z; rewrite rev_app_distr; reflexivity).
  destruct (is_contained "Tt" (peek a3)) eqn:ET.
  { destruct a3 as [|z a4]; [discriminate ET|]. follow. cbn [bind next rest line col negb andb].
    destruct (is_separator (peek a4)). { follow. apply HK'. }
    follow. rewrite R2. exact (FALL (w ++ [y; z]) a4 _ _ true (Some 7) (eq_trans (eq_sym (app_assoc w [y; z] a4)) Hw)). }
  follow. destruct (is_decimal (peek a3)) eqn:EI.
  { destruct a3 as [|z a4]; [discriminate EI|]. cbn [peek] in EI |- *. follow. cbn [bind next rest line col negb andb].
    destruct (is_separator (peek a4)).
    2: { follow. rewrite R2. exact (FALL (w ++ [y; z]) a4 _ _ false (Some _) (eq_trans (eq_sym (app_assoc w [y; z] a4)) Hw)). }
    follow. change (peek (z :: a4)) with z. rewrite (index_is z EI). set (i := (N_of_ascii z - 48)%N). clearbody i.
    assert (Ei : int_lt 6 (Z.of_N i) = N.ltb 6 i).
    { change (int_lt 6 (Z.of_N i)) with (6 <? Z.of_N i). destruct (Z.ltb_spec 6 (Z.of_N i)), (N.ltb_spec 6 i); lia. }
    assert (En : int_lt (Z.of_N i) 0 = false) by (apply Z.ltb_ge; lia).
    rewrite Ei. destruct (N.ltb 6 i).
    { follow. reflexivity. }
    follow. rewrite En. follow. rewrite HK', N2Z.id. reflexivity. }
  follow. rewrite R1. exact (FALL (w ++ [y]) a3 _ _ false None (eq_trans (eq_sym (app_assoc w [y] a3)) Hw)).
Qed.
End Run.
