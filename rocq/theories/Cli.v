(** * Cli: the command line tool. *)
From Verif Require Import Base Float Lexer Operand Catalogue Table Parse Assemble Spec SpecCli Bits LexFacts Outcomes Decode Program.
From Coq Require Import Lia ZifyNat.
Local Open Scope string_scope.
Local Open Scope list_scope.
Open Scope Z_scope.

Ltac argc a := let E := fresh "E" in destruct (text_eqb a (lit "-o")) eqn:E; [apply text_eqb_eq in E; subst a|
  assert (a <> dash_o) by (intros X; subst a; discriminate)].

(** Every argument vector is understood or rejected for its first flaw. *)
Theorem args_cases : forall args,
  (exists i o, names args i o /\ parse_args args None None = Ok (Some i, Some o)) \/
  (exists m, args_error args m /\
    ((exists r, parse_args args None None = Fatal r /\ r = Diag None m) \/
     (exists o, parse_args args None None = Ok (None, o) /\ m = "no input file") \/
     (exists i, parse_args args None None = Ok (Some i, None) /\ m = "no output file"))).
Proof.
  intros args. destruct args as [|a1 args].
  { right. exists "no input file". split; [apply E_no_input; auto|]. right. left. exists None. split; reflexivity. }
  cbn [parse_args]. argc a1.
  - destruct args as [|o args].
    { right. eexists. split; [apply (E_dangling []); auto|]. left. eexists. split; reflexivity. }
    destruct args as [|a2 args].
    { right. eexists. split; [apply E_no_input; right; exists o; reflexivity|]. right. left. eexists. split; reflexivity. }
    cbn [parse_args]. argc a2.
    + right. eexists. split; [apply (E_second_output [dash_o; o]); eauto|]. left. eexists. split; reflexivity.
    + destruct args as [|a3 args].
      { left. exists a2, o. split; [split; [assumption|right; reflexivity]|]. reflexivity. }
      cbn [parse_args]. argc a3.
      * right. eexists. split; [apply (E_second_output [dash_o; o; a2]); exists o; right; exists a2; auto|]. left. eexists. split; reflexivity.
      * right. eexists. split; [apply (E_second_input [dash_o; o; a2]); [assumption|]; exists a2; split; [assumption|]; right; exists o; auto|]. left. eexists. split; reflexivity.
  - destruct args as [|a2 args].
    { right. eexists. split; [apply E_no_output; assumption|]. right. right. exists a1. split; reflexivity. }
    cbn [parse_args]. argc a2.
    + destruct args as [|o args].
      { right. eexists. split; [apply (E_dangling [a1]); right; exists a1; auto|]. left. eexists. split; reflexivity. }
      destruct args as [|a3 args].
      { left. exists a1, o. split; [split; [assumption|left; reflexivity]|]. reflexivity. }
      cbn [parse_args]. argc a3.
      * right. eexists. split; [apply (E_second_output [a1; dash_o; o]); exists o; right; exists a1; auto|]. left. eexists. split; reflexivity.
      * right. eexists. split; [apply (E_second_input [a1; dash_o; o]); [assumption|]; exists a1; split; [assumption|]; right; exists o; auto|]. left. eexists. split; reflexivity.
    + right. eexists. split; [apply (E_second_input [a1]); [assumption|]; exists a1; auto|]. left. eexists. split; reflexivity.
Qed.

Lemma names_ok : forall args i o, names args i o -> parse_args args None None = Ok (Some i, Some o).
Proof.
  intros args i o (NI & H). assert (E : text_eqb i (lit "-o") = false).
  { destruct (text_eqb i (lit "-o")) eqn:E; [|reflexivity]. apply text_eqb_eq in E. contradiction. }
  destruct H as [-> | ->]; cbn [parse_args]; rewrite ?E; reflexivity.
Qed.

Lemma names_fun : forall args i o i' o', names args i o -> names args i' o' -> i = i' /\ o = o'.
Proof. intros args i o i' o' H H'. apply names_ok in H, H'. rewrite H in H'. injection H' as <- <-. auto. Qed.

(** A vector is not both understood and faulty. *)
Lemma error_not_names : forall args m i o, args_error args m -> ~ names args i o.
Proof.
  intros args m i o E (NI & N). unfold dash_o in *.
  destruct E as [pre a rest NA (i' & NI' & P)|pre rest (o' & P)|pre P|args P|i' NI'];
    repeat match goal with X : _ \/ _ |- _ => destruct X | X : exists _, _ |- _ => destruct X | X : _ /\ _ |- _ => destruct X end; subst;
    cbn [app] in *; try congruence; try discriminate; unfold dash_o in *; try match goal with X : _ :: _ = _ :: _ |- _ => injection X; intros; subst; congruence end.
Qed.

(** ** Bytes *)

Lemma le_bytes_length : forall n w, List.length (le_bytes n w) = n.
Proof. induction n as [|n IH]; intros w; cbn; [reflexivity|]. now rewrite IH. Qed.
Lemma le_bytes_nth : forall n w j, (j < n)%nat -> nth j (le_bytes n w) NUL = ascii_of_N ((w / 2 ^ (8 * N.of_nat j)) mod 256)%N.
Proof.
  induction n as [|n IH]; intros w j J; [lia|]. destruct j as [|j]; cbn [le_bytes nth].
  - change (2 ^ (8 * N.of_nat 0))%N with 1%N. rewrite N.div_1_r. change 255%N with (N.ones 8). rewrite N.land_ones. reflexivity.
  - rewrite IH by lia. f_equal. f_equal. rewrite N.shiftr_div_pow2, N.div_div by (apply N.pow_nonzero; discriminate).
    f_equal. rewrite <- N.pow_add_r. f_equal. lia.
Qed.
Lemma words_little_endian : forall l, little_endian l (words_to_bytes l).
Proof.
  assert (L : forall l, List.length (words_to_bytes l) = (8 * List.length l)%nat).
  { induction l as [|w l IH]; [reflexivity|]. unfold words_to_bytes in *. cbn [flat_map]. rewrite app_length, IH, le_bytes_length. cbn [List.length]. lia. }
  intros l. split; [apply L|]. rewrite L. induction l as [|w l IH]; intros j J; [cbn in J; lia|].
  unfold words_to_bytes in *. cbn [flat_map]. unfold byte_of. destruct (Nat.lt_ge_cases j 8) as [S|S].
  - rewrite app_nth1 by (rewrite le_bytes_length; exact S). rewrite le_bytes_nth by exact S.
    rewrite Nat.div_small, Nat.mod_small by exact S. reflexivity.
  - rewrite app_nth2 by (rewrite le_bytes_length; exact S). rewrite le_bytes_length, IH by (cbn in J; lia). unfold byte_of.
    replace j with (1 * 8 + (j - 8))%nat at 3 4 by lia. rewrite Nat.div_add_l by lia.
    replace (1 * 8 + (j - 8))%nat with ((j - 8) + 1 * 8)%nat by lia. rewrite Nat.mod_add by lia. reflexivity.
Qed.
Lemma c_string_before : forall l, before_nul l (c_string l).
Proof.
  induction l as [|ch l IH]; cbn [c_string]; [split; auto|]. destruct (Ascii.eqb ch NUL) eqn:E.
  - apply Ascii.eqb_eq in E as ->. split; [intros []|]. right. exists l. reflexivity.
  - apply Ascii.eqb_neq in E. destruct IH as (N & IH). split; [intros [X|X]; [congruence|contradiction]|].
    destruct IH as [IH|(q & IH)]; [left; f_equal; exact IH|]. right. exists q. cbn [app]. f_equal. exact IH.
Qed.
Lemma before_nul_fun : forall l p, before_nul l p -> p = c_string l.
Proof.
  intros l p (N & [->|(q & ->)]).
  - induction p as [|ch p IH]; [reflexivity|]. cbn [c_string]. destruct (Ascii.eqb ch NUL) eqn:E.
    + apply Ascii.eqb_eq in E as ->. destruct N. left. reflexivity.
    + f_equal. apply IH. intros X. apply N. right. exact X.
  - induction p as [|ch p IH]; [reflexivity|]. cbn [app c_string]. destruct (Ascii.eqb ch NUL) eqn:E.
    + apply Ascii.eqb_eq in E as ->. destruct N. left. reflexivity.
    + f_equal. apply IH. intros X. apply N. right. exact X.
Qed.

(** ** Runs *)

(** The only runs that change something, and what they change. *)
Theorem cli_changes : forall a args w r w', cli_main a args w = (r, w') ->
  (r <> Ok tt /\ w' = w) \/
  (r = Ok tt /\ exists i o data p bin out, names args i o /\ files w i = Some data /\ before_nul data p /\ assemble a p = Ok bin /\
     writable w o = true /\ little_endian bin out /\ files w' o = Some out /\
     (forall n, n <> o -> files w' n = files w n) /\ (forall n, writable w' n = writable w n)).
Proof.
  intros a args w r w' H. unfold cli_main in H.
  destruct (args_cases args) as [(i & o & N & P)|(m & E & [(d & P & _)|[(o & P & _)|(i & P & _)]])]; rewrite P in H; cbn [bind] in H;
    try (injection H as <- <-; left; split; [discriminate|reflexivity]).
  unfold read_file in H. destruct (files w i) as [data|] eqn:F; cbn [bind] in H; [|injection H as <- <-; left; split; [discriminate|reflexivity]].
  destruct (assemble a (c_string data)) as [bin|d|d|s|u|] eqn:A; cbn [bind] in H; try (injection H as <- <-; left; split; [discriminate|reflexivity]).
  destruct (writable w o) eqn:W; [|injection H as <- <-; left; split; [discriminate|reflexivity]].
  injection H as <- <-. right. split; [reflexivity|]. exists i, o, data, (c_string data), bin, (words_to_bytes bin).
  split; [exact N|]. split; [exact F|]. split; [apply c_string_before|]. split; [exact A|]. split; [exact W|]. split; [apply words_little_endian|].
  cbn [write_file files writable]. split; [rewrite (proj2 (text_eqb_eq o o) eq_refl); reflexivity|]. split; [|reflexivity].
  intros n NE. destruct (text_eqb n o) eqn:E; [apply text_eqb_eq in E; contradiction|reflexivity].
Qed.
(** ... and these runs do happen. *)
Theorem cli_succeeds : forall a args w i o data p bin, names args i o -> files w i = Some data -> before_nul data p -> assemble a p = Ok bin ->
  writable w o = true -> exists w', cli_main a args w = (Ok tt, w').
Proof.
  intros a args w i o data p bin N F B A W. unfold cli_main. rewrite (names_ok _ _ _ N). cbn [bind]. unfold read_file. rewrite F. cbn [bind].
  rewrite <- (before_nul_fun _ _ B), A. cbn [bind]. rewrite W. eexists. reflexivity.
Qed.
(** Argument vectors with a flaw are rejected with its message. *)
Theorem cli_rejects : forall a args w m, args_error args m -> cli_main a args w = (Fatal (Diag None m), w).
Proof.
  assert (U : forall args m, args_error args m -> parse_args args None None = Fatal (Diag None m) \/
    (exists o, parse_args args None None = Ok (None, o) /\ m = "no input file") \/
    (exists i, parse_args args None None = Ok (Some i, None) /\ m = "no output file")).
  { intros args m E. destruct E as [pre a rest NA (i & NI & P)|pre rest (o & P)|pre P|args P|i NI];
      repeat match goal with X : _ \/ _ |- _ => destruct X | X : exists _, _ |- _ => destruct X | X : _ /\ _ |- _ => destruct X end; subst;
      cbn [app parse_args];
      repeat match goal with
      | X : ?i <> dash_o |- context [text_eqb ?i (lit "-o")] => replace (text_eqb i (lit "-o")) with false by
          (symmetry; destruct (text_eqb i (lit "-o")) eqn:?; [match goal with Y : text_eqb _ _ = true |- _ => apply text_eqb_eq in Y; contradiction end|reflexivity])
      | |- context [text_eqb dash_o (lit "-o")] => change (text_eqb dash_o (lit "-o")) with true
      end; cbn [parse_args]; eauto. }
  intros a args w m E. unfold cli_main. destruct (U _ _ E) as [P|[(o & P & ->)|(i & P & ->)]]; rewrite P; reflexivity.
Qed.
Theorem cli_order : forall a w i o, i <> dash_o -> cli_main a [i; dash_o; o] w = cli_main a [dash_o; o; i] w.
Proof.
  intros a w i o N. unfold cli_main. rewrite (names_ok [i; dash_o; o] i o), (names_ok [dash_o; o; i] i o); [reflexivity| |]; split; auto.
Qed.
(** There is no third possibility. *)
Theorem args_complete : forall args, (exists i o, names args i o /\ forall m, ~ args_error args m) \/
  (exists m, args_error args m /\ (forall m', args_error args m' -> m' = m) /\ forall i o, ~ names args i o).
Proof.
  intros args. destruct (args_cases args) as [(i & o & N & P)|(m & E & _)].
  - left. exists i, o. split; [exact N|]. intros m E. exact (error_not_names _ _ _ _ E N).
  - right. exists m. split; [exact E|]. split; [|intros i o; exact (error_not_names _ _ _ _ E)].
    intros m' E'. pose proof (cli_rejects true args (World (fun _ => None) (fun _ => true)) m E) as A.
    pose proof (cli_rejects true args (World (fun _ => None) (fun _ => true)) m' E') as B. rewrite A in B. injection B as ->. reflexivity.
Qed.
