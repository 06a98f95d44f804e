(** * ScanLabels: [context::generate_labels] run from its text finds the labels of the model. *)
From Coq Require Import Lia.
From Verif Require Import Base Float Lexer Scan ScanExec ScanFunctions SourceContext SpecScan ScanRuns ScanTokens.
Local Open Scope string_scope.
Local Open Scope list_scope.
Open Scope Z_scope.

Definition labels_body : list sstmt :=
  Eval vm_compute in match function_named context_functions "generate_labels" with Some x => sf_body x | None => [] end.
Definition advance_code : list sstmt :=
  Eval vm_compute in match labels_body with YLambda _ l :: _ => l | _ => [] end.
Definition next_line_code : list sstmt :=
  Eval vm_compute in match labels_body with _ :: YLambda _ l :: _ => l | _ => [] end.
Definition lambdas : list (string * list sstmt) := [("next_line", next_line_code); ("advance", advance_code)].

Section Run.
Variable asserts : bool.
Variable bound : nat.
Notation go d := (run asserts bound context_functions d).

Lemma advance_runs : forall d b x a l c pc ls vs k,
  go (S (S d)) (Code advance_code) [] (Sst (At b (x :: a)) l c pc ls vs lambdas) k =
  k VVoid (Sst (At (x :: b) a) (adv_line x l) (adv_col x c) (bump_pc x pc) ls vs lambdas).
Proof.
  intros d b x a l c pc ls vs k. rewrite code_step. unfold advance_code. follow. change (peek (x :: a)) with x.
  rewrite char_value_inj. unfold bump_pc. destruct (Ascii.eqb x ";").
  - follow. cbn [s_pc]. change (Z.rem (pc + 8) 32 =? 0) with (int_eq (Z.rem (pc + 8) 32) 0).
    destruct (int_eq (Z.rem (pc + 8) 32) 0); follow; reflexivity.
  - follow. reflexivity.
Qed.

Lemma advance_past : forall d b l c pc ls vs k,
  go (S (S d)) (Code advance_code) [] (Sst (At b []) l c pc ls vs lambdas) k = k VVoid (Sst Past l (c + 1) pc ls vs lambdas).
Proof.
  intros d b l c pc ls vs k. rewrite code_step. unfold advance_code. follow.
  change (int_eq (char_value (peek [])) (char_value ";")) with false. follow. reflexivity.
Qed.

Definition more_line : sexpr :=
  Eval vm_compute in match next_line_code with YDo _ c :: _ => c | _ => XNum 0 end.
Definition line_body : list sstmt :=
  Eval vm_compute in match next_line_code with YDo b _ :: _ => b | _ => [] end.

(** The rest of [next_line] once a character has been passed. *)
Definition line_on (n : nat) (cp : cursor * Z) : res (cursor * Z) :=
  if negb (Ascii.eqb (peek (rest (fst cp))) NUL) && (0 <? col (fst cp)) then next_line n cp else Ok cp.

Lemma line_loop : forall d h k ls vs n a b l c pc f, (List.length a < n)%nat -> (List.length a <= f)%nat ->
  match line_on f (Cursor a l c, pc) with
  | Ok (c', pc') => exists b', rev b' ++ rest c' = rev b ++ a /\ (List.length (rest c') <= List.length a)%nat /\
      loop asserts (go (S (S d))) (exec asserts bound (go (S (S d))) (S (S (S h)))) n more_line line_body
        (Sst (At b a) l c pc ls vs lambdas) k = a_next k (Sst (At b' (rest c')) (line c') (col c') pc' ls vs lambdas)
  | _ => False
  end.
Proof.
  intros d h k ls vs n. induction n as [|n IH]; intros a b l c pc f Hn Hf; [lia|].
  rewrite loop_step. unfold line_on. cbn [fst rest col].
  assert (E : forall kk, eval asserts (go (S (S d))) more_line (Sst (At b a) l c pc ls vs lambdas) kk =
    kk (VBool (negb (Ascii.eqb (peek a) NUL) && int_lt 0 c)) (Sst (At b a) l c pc ls vs lambdas)).
  { intros kk. unfold more_line. reduce. rewrite char_zero. destruct (Ascii.eqb (peek a) NUL); reduce; reflexivity. }
  rewrite E. change (0 <? c) with (int_lt 0 c). unfold opt. cbn [truth].
  destruct (negb (Ascii.eqb (peek a) NUL) && int_lt 0 c) eqn:G.
  - destruct a as [|x a]; [discriminate G|]. destruct f as [|f]; [cbn in Hf; lia|].
    cbn [next_line advance next rest line col bind peek].
    specialize (IH a (x :: b) (adv_line x l) (adv_col x c) (bump_pc x pc) f ltac:(cbn in Hn; lia) ltac:(cbn in Hf; lia)).
    unfold line_on in IH. cbn [fst rest col] in IH.
    destruct (if negb (Ascii.eqb (peek a) NUL) && (0 <? adv_col x c) then _ else _) as [[c' pc']| | | | |]; try contradiction.
    destruct IH as (b' & R & L & IH). exists b'. split; [rewrite R; cbn [rev]; rewrite <- app_assoc; reflexivity|].
    split; [cbn; lia|]. rewrite <- IH. unfold line_body at 1. follow. rewrite advance_runs. follow. reflexivity.
  - exists b. cbn [rest line col]. repeat split; lia.
Qed.

Lemma next_line_runs : forall d a b l c pc ls vs k f, (List.length a < bound)%nat -> (List.length a < f)%nat ->
  match next_line f (Cursor a l c, pc) with
  | Ok (c', pc') => exists b', rev b' ++ rest c' = rev b ++ a /\ (List.length (rest c') < List.length a)%nat /\
      go (S (S (S d))) (Code next_line_code) [] (Sst (At b a) l c pc ls vs lambdas) k =
      k VVoid (Sst (At b' (rest c')) (line c') (col c') pc' ls vs lambdas)
  | Undef u => go (S (S (S d))) (Code next_line_code) [] (Sst (At b a) l c pc ls vs lambdas) k = Undef u
  | _ => False
  end.
Proof.
  intros d a b l c pc ls vs k f Hb Hf. destruct f as [|f]; [lia|]. rewrite code_step. unfold next_line_code.
  destruct a as [|x a].
  { cbn [next_line advance next rest line col bind]. follow. rewrite advance_past.
    destruct bound as [|m]; [cbn in Hb; lia|]. follow. rewrite loop_step. follow. reflexivity. }
  cbn [next_line advance next rest line col bind peek].
  match goal with |- match ?r with _ => _ end => set (r0 := r) end.
  assert (X : exec asserts bound (go (S (S d))) 60 [YDo [YExpr (XCall "advance" [])] more_line]
      (Sst (At b (x :: a)) l c pc ls vs lambdas) (After (k VVoid) outside outside k) =
    loop asserts (go (S (S d))) (exec asserts bound (go (S (S d))) 59) bound more_line line_body
      (Sst (At (x :: b) a) (adv_line x l) (adv_col x c) (bump_pc x pc) ls vs lambdas)
      (After (fun s => exec asserts bound (go (S (S d))) 59 [] s (After (k VVoid) outside outside k))
        outside outside k)).
  { follow. rewrite advance_runs. follow. reflexivity. }
  change (exec asserts bound (go (S (S d))) 60 _ _ _) with (exec asserts bound (go (S (S d))) 60 [YDo [YExpr (XCall "advance" [])] more_line]
      (Sst (At b (x :: a)) l c pc ls vs lambdas) (After (k VVoid) outside outside k)).
  rewrite X.
  match goal with |- context [loop _ _ _ _ _ _ _ ?kk] =>
    pose proof (line_loop d 56 kk ls vs bound a (x :: b) (adv_line x l) (adv_col x c) (bump_pc x pc) f
      ltac:(cbn in Hb; lia) ltac:(cbn in Hf; lia)) as H end.
  unfold line_on in H. cbn [fst rest col] in H. fold r0 in H. destruct r0 as [[c' pc']| | | | |]; try contradiction.
  destruct H as (b' & R & L & H). exists b'. split; [rewrite R; cbn [rev]; rewrite <- app_assoc; reflexivity|].
  split; [cbn; lia|]. rewrite H. cbn [a_next]. rewrite exec_step. reflexivity.
Qed.

Definition label_condition : sexpr :=
  XBin "||" (XCall "is_alnum" [XUn "*" (XName "text")]) (XBin "==" (XUn "*" (XName "text")) (XChar "_")).
Lemma label_loop : forall d h k ls vs n a b l c pc f, (List.length a < n)%nat -> (List.length a < f)%nat ->
  match skip_label f (Cursor a l c, pc) with
  | Ok (c', pc') => exists b', rev b' ++ rest c' = rev b ++ a /\ (List.length (rest c') <= List.length a)%nat /\
      loop asserts (go (S (S (S d)))) (exec asserts bound (go (S (S (S d)))) (S (S (S h)))) n label_condition line_body
        (Sst (At b a) l c pc ls vs lambdas) k = a_next k (Sst (At b' (rest c')) (line c') (col c') pc' ls vs lambdas)
  | _ => False
  end.
Proof.
  intros d h k ls vs n. induction n as [|n IH]; intros a b l c pc f Hn Hf; [lia|]. destruct f as [|f]; [lia|].
  rewrite loop_step. cbn [skip_label fst rest].
  assert (E : forall kk, eval asserts (go (S (S (S d)))) label_condition (Sst (At b a) l c pc ls vs lambdas) kk =
    kk (VBool (is_label_char (peek a))) (Sst (At b a) l c pc ls vs lambdas)).
  { intros kk. unfold label_condition, is_label_char. reduce. rewrite alnum_runs. destruct (is_alnum (peek a)); reduce;
      rewrite ?char_value_inj; reflexivity. }
  rewrite E. unfold opt. cbn [truth].
  destruct (is_label_char (peek a)) eqn:G.
  - destruct a as [|x a]; [discriminate G|].
    cbn [advance next rest line col bind peek].
    specialize (IH a (x :: b) (adv_line x l) (adv_col x c) (bump_pc x pc) f ltac:(cbn in Hn; lia) ltac:(cbn in Hf; lia)).
    destruct (skip_label f _) as [[c' pc']| | | | |]; try contradiction.
    destruct IH as (b' & R & L & IH). exists b'. split; [rewrite R; cbn [rev]; rewrite <- app_assoc; reflexivity|].
    split; [cbn; lia|]. rewrite <- IH. unfold line_body at 1. follow. rewrite advance_runs. follow. reflexivity.
  - exists b. cbn [rest line col]. repeat split; lia.
Qed.

(** The variables at the start of a round. *)
Inductive round_vars : list (string * sval) -> Prop :=
| rv_first : round_vars []
| rv_word : forall p, round_vars [("potential_label", p)]
| rv_label : forall p t, round_vars [("potential_label", p); ("label", t)].

Definition labels_condition : sexpr :=
  Eval vm_compute in match skipn 4 labels_body with YWhile c _ :: _ => c | _ => XNum 0 end.
Definition round_body : list sstmt :=
  Eval vm_compute in match skipn 4 labels_body with YWhile _ b :: _ => b | _ => [] end.

Lemma round_other : forall d KK x a b l c pc ls vs, is_alpha x = false -> exists kk,
  exec asserts bound (go (S (S (S d)))) 55 round_body (Sst (At b (x :: a)) l c pc ls vs lambdas) KK =
  go (S (S (S d))) (Code next_line_code) [] (Sst (At b (x :: a)) l c pc ls vs lambdas) kk /\
  forall v s, kk v s = a_continue KK s.
Proof.
  intros d KK x a b l c pc ls vs H. eexists. split.
  - unfold round_body. reduce. rewrite exec_step. reduce. rewrite alpha_runs. change (peek (x :: a)) with x. rewrite H.
    follow. reflexivity.
  - intros v s. cbv beta. follow. reflexivity.
Qed.

Lemma round_word : forall d KK x a b l c pc ls vs, is_alpha x = true -> round_vars vs -> exists vs1 K1,
  exec asserts bound (go (S (S (S d)))) 55 round_body (Sst (At b (x :: a)) l c pc ls vs lambdas) KK =
  loop asserts (go (S (S (S d)))) (exec asserts bound (go (S (S (S d)))) 52) bound label_condition line_body
    (Sst (At b (x :: a)) l c pc ls vs1 lambdas) K1 /\
  forall b1 a1 l1 c1 pc1, (List.length a1 <= List.length (x :: a))%nat -> exists vs2 kk, round_vars vs2 /\
    a_next K1 (Sst (At b1 a1) l1 c1 pc1 ls vs1 lambdas) =
    go (S (S (S d))) (Code next_line_code) []
      (Sst (At b1 a1) l1 c1 pc1
        (if Ascii.eqb (peek a1) ":" then insert_label ls (firstn (List.length (x :: a) - List.length a1) (x :: a)) pc1 else ls)
        vs2 lambdas) kk /\
    forall v s, kk v s = a_next KK s.
Proof.
  intros d KK x a b l c pc ls vs H Hv.
  destruct Hv.
  all: do 2 eexists; split;
    [unfold round_body; reduce; rewrite exec_step; reduce; rewrite alpha_runs; change (peek (x :: a)) with x; rewrite H;
     follow; reflexivity|].
  all: intros b1 a1 l1 c1 pc1 L; cbn [a_next].
  all: assert (P : forall m, int_lt (Z.of_nat m) 0 = false) by (intros m; apply Z.ltb_ge; lia).
  all: assert (D : Z.of_nat (List.length (x :: a)) - Z.of_nat (List.length a1) =
    Z.of_nat (List.length (x :: a) - List.length a1)) by lia.
  all: destruct (Ascii.eqb (peek a1) ":") eqn:EC.
  all: refine (ex_intro _ _ (ex_intro _ _ (conj _ (conj _ _)))).
  all: [> | follow; rewrite char_value_inj, EC; follow; rewrite D, P; follow; rewrite P, Nat2Z.id; follow; reflexivity
        | intros v s; cbv beta; follow; reflexivity
        | | follow; rewrite char_value_inj, EC; follow; reflexivity
        | intros v s; cbv beta; follow; reflexivity
        | | follow; rewrite char_value_inj, EC; follow; rewrite D, P; follow; rewrite P, Nat2Z.id; follow; reflexivity
        | intros v s; cbv beta; follow; reflexivity
        | | follow; rewrite char_value_inj, EC; follow; reflexivity
        | intros v s; cbv beta; follow; reflexivity
        | | follow; rewrite char_value_inj, EC; follow; rewrite D, P; follow; rewrite P, Nat2Z.id; follow; reflexivity
        | intros v s; cbv beta; follow; reflexivity
        | | follow; rewrite char_value_inj, EC; follow; reflexivity
        | intros v s; cbv beta; follow; reflexivity].
  all: constructor.
Qed.

Lemma rounds_run : forall d k n a b l c pc ls vs f, round_vars vs -> (List.length a < n)%nat -> (List.length a < bound)%nat ->
  (List.length a < f)%nat ->
  match generate_labels_loop f (Cursor a l c, pc) ls with
  | Ok ls' => exists b' a' l' c' pc' vs', rev b' ++ a' = rev b ++ a /\
      loop asserts (go (S (S (S d)))) (exec asserts bound (go (S (S (S d)))) 55) n labels_condition round_body
        (Sst (At b a) l c pc ls vs lambdas) k = a_next k (Sst (At b' a') l' c' pc' ls' vs' lambdas)
  | Undef u =>
      loop asserts (go (S (S (S d)))) (exec asserts bound (go (S (S (S d)))) 55) n labels_condition round_body
        (Sst (At b a) l c pc ls vs lambdas) k = Undef u
  | _ => False
  end.
Proof.
  intros d k n. induction n as [|n IH]; intros a b l c pc ls vs f Hv Hn Hb Hf; [lia|]. destruct f as [|f]; [lia|].
  assert (HL : exists KK, loop asserts (go (S (S (S d)))) (exec asserts bound (go (S (S (S d)))) 55) (S n) labels_condition
      round_body (Sst (At b a) l c pc ls vs lambdas) k =
      (if Ascii.eqb (peek a) NUL then a_next k (Sst (At b a) l c pc ls vs lambdas)
       else exec asserts bound (go (S (S (S d)))) 55 round_body (Sst (At b a) l c pc ls vs lambdas) KK) /\
      a_next KK = (fun s => loop asserts (go (S (S (S d)))) (exec asserts bound (go (S (S (S d)))) 55) n labels_condition round_body s k) /\
      a_continue KK = (fun s => loop asserts (go (S (S (S d)))) (exec asserts bound (go (S (S (S d)))) 55) n labels_condition round_body s k)).
  { exists (After (fun s => loop asserts (go (S (S (S d)))) (exec asserts bound (go (S (S (S d)))) 55) n labels_condition round_body s k)
      (a_next k)
      (fun s => loop asserts (go (S (S (S d)))) (exec asserts bound (go (S (S (S d)))) 55) n labels_condition round_body s k)
      (a_return k)).
    split; [|split; reflexivity]. rewrite loop_step. unfold labels_condition at 1. reduce. rewrite char_zero.
    destruct (Ascii.eqb (peek a) NUL); reflexivity. }
  destruct HL as (KK & HL & HN & HC). rewrite HL. clear HL. cbn [generate_labels_loop fst rest].
  destruct (Ascii.eqb (peek a) NUL) eqn:EZ.
  { exists b, a, l, c, pc, vs. split; reflexivity. }
  destruct a as [|x a]; [discriminate EZ|]. change (peek (x :: a)) with x in *.
  destruct (is_alpha x) eqn:EA; cbn [negb].
  2: { destruct (round_other d KK x a b l c pc ls vs EA) as (kk & HX & HKK). rewrite HX.
       pose proof (next_line_runs d (x :: a) b l c pc ls vs kk (S (List.length (x :: a))) Hb (le_n _)) as H.
       destruct (next_line _ _) as [[[a' l' c'] pc']| | | | |]; try contradiction; [|exact H].
       destruct H as (b' & R & L & H). rewrite H, HKK, HC. cbn [bind rest line col] in *.
       specialize (IH a' b' l' c' pc' ls vs f Hv ltac:(lia) ltac:(lia) ltac:(lia)).
       rewrite R in IH. exact IH. }
  destruct (round_word d KK x a b l c pc ls vs EA Hv) as (vs1 & K1 & HX & HW). rewrite HX.
  pose proof (label_loop d 49 K1 ls vs1 bound (x :: a) b l c pc (S (List.length (x :: a))) Hb (le_n _)) as H.
  destruct (skip_label _ _) as [[[a1 l1 c1] pc1]| | | | |]; try contradiction.
  destruct H as (b1 & R1 & L1 & H). rewrite H. cbn [bind rest line col] in *.
  destruct (HW b1 a1 l1 c1 pc1 L1) as (vs2 & kk & Hv2 & HY & HKK). rewrite HY.
  change (firstn (List.length (x :: a) - List.length a1) (x :: a)) with (between (Cursor (x :: a) l c) (Cursor a1 l1 c1)).
  set (ls2 := if Ascii.eqb (peek a1) ":" then _ else ls).
  assert (Hfuel : (List.length a1 < S (List.length (x :: a)))%nat) by lia.
  assert (Hbound : (List.length a1 < bound)%nat) by lia.
  pose proof (next_line_runs d a1 b1 l1 c1 pc1 ls2 vs2 kk (S (List.length (x :: a))) Hbound Hfuel) as H2.
  destruct (next_line _ _) as [[[a' l' c'] pc']| | | | |]; try contradiction; [|exact H2].
  destruct H2 as (b' & R & L & H2). rewrite H2, HKK, HN. cbn [bind rest line col] in *.
  specialize (IH a' b' l' c' pc' ls2 vs2 f Hv2 ltac:(lia) ltac:(lia) ltac:(lia)).
  rewrite R, R1 in IH. exact IH.
Qed.
End Run.

Lemma reset_runs : forall asserts bound d b a l c pc ls vs cd k,
  run asserts bound context_functions (S d) (Named "reset") [] (Sst (At b a) l c pc ls vs cd) k =
  k VVoid (Sst (At [] (rev b ++ a)) 0 0 0 ls vs cd).
Proof. intros asserts bound d b a l c pc ls vs cd k. enter. follow. reflexivity. Qed.

Lemma labels_text_is : forall asserts bound depth code pc, (List.length code < bound)%nat -> (5 <= depth)%nat ->
  labels_text asserts bound depth context_functions code pc =
  let* ls := generate_labels code in Ok (ls, Cursor code 0 0, 0).
Proof.
  intros asserts bound depth code pc Hb Hd. do 5 (destruct depth as [|depth]; [lia|]).
  unfold labels_text, context_at, generate_labels. cbn [rest line col].
  assert (X : exists KK, run asserts bound context_functions (S (S (S (S (S depth))))) (Named "generate_labels") []
      (Sst (At [] code) 0 0 pc [] [] []) keep =
    loop asserts (run asserts bound context_functions (S (S (S (S depth)))))
      (exec asserts bound (run asserts bound context_functions (S (S (S (S depth))))) 55) bound labels_condition round_body
      (Sst (At [] code) 0 0 8 [] [] lambdas) KK /\
    forall b a l c p ls vs, a_next KK (Sst (At b a) l c p ls vs lambdas) =
      Ok (VVoid, Sst (At [] (rev b ++ a)) 0 0 0 ls [] [])).
  { destruct asserts; eexists; split.
    - enter. follow.
      match goal with |- (if int_eq ?z 0 then _ else _) = _ => change (int_eq z 0) with true end. follow.
      match goal with |- (if int_eq ?z 0 then _ else _) = _ => change (int_eq z 0) with true end. follow. reflexivity.
    - intros b a l c p ls vs. cbn [a_next]. follow. rewrite reset_runs. follow. reflexivity.
    - enter. follow. reflexivity.
    - intros b a l c p ls vs. cbn [a_next]. follow. rewrite reset_runs. follow. reflexivity. }
  destruct X as (KK & -> & HN).
  pose proof (rounds_run asserts bound (S depth) KK bound code [] 0 0 8 [] [] (S (List.length code)) rv_first Hb Hb (le_n _)) as H.
  destruct (generate_labels_loop _ _ _) as [ls| | | | |]; try contradiction.
  - destruct H as (b' & a' & l' & c' & pc' & vs' & R & ->). rewrite HN, R. reflexivity.
  - rewrite H. reflexivity.
Qed.

Lemma labels_from_text : forall fs, read_named scanning context_cpp = Some fs ->
  forall asserts bound depth code pc, (List.length code < bound)%nat -> (5 <= depth)%nat ->
  labels_text asserts bound depth fs code pc = let* ls := generate_labels code in Ok (ls, Cursor code 0 0, 0).
Proof. intros fs H. rewrite context_cpp_read in H. injection H as <-. exact labels_text_is. Qed.
