(** * Report: the diagnostic of a rejected program. *)
From Verif Require Import Encode Base Float Lexer Operand Catalogue Table Parse Assemble Diag Spec LexFacts Param Reach Program
  SpecLex Lexemes Where SpecProgram SpecLink Link SpecDiag Message Told Clash Layout.
From Coq Require Import Lia.
Local Open Scope string_scope.
Local Open Scope list_scope.
Open Scope Z_scope.

Definition mnemonic (w : text) : Prop := exists i, In i table /\ w = lit (i_mnemonic i).

(** ** What is said *)

Lemma plain_program : forallb plain_ok program_sentences = true.
Proof. vm_compute. reflexivity. Qed.
Definition of_program (d : diag) : Prop := d_pos d = None /\ exists s, In s program_sentences /\ prints (d_msg d) (lit s).
Lemma program_says : forall s : string, In s program_sentences -> of_program (Diag None s).
Proof. intros s I. split; [reflexivity|]. exists s. split; [exact I|]. apply plain_prints. exact (forallb_in _ _ _ _ plain_program I). Qed.
Lemma entry_says : of_program (Diag None entry_message).
Proof. split; [reflexivity|]. exists "entrypoint ""main"" not found". split; [cbn; tauto|]. split; reflexivity. Qed.
Lemma dksh_says : forall ls o n d, write_dksh ls o n = Fatal d -> of_program d.
Proof.
  intros ls o n d H. unfold write_dksh, fatal_plain in H. destruct (o_type o) as [ty|]; [|injection H as <-; apply program_says; cbn; tauto].
  destruct (find_label ls _) as [e|]; [|injection H as <-; apply entry_says]. destruct (negb _); [injection H as <-; apply program_says; cbn; tauto|].
  unfold scratch_size in H. destruct (_ || _ || _); cbn [bind] in H; [discriminate|]. destruct (o_dims o) as [[? ?] ?]. discriminate.
Qed.
Lemma binary_says : forall ls o code d, binary ls o code = Fatal d -> of_program d.
Proof.
  intros ls o code d H. unfold binary in H. cbv zeta in H.
  match type of H with context [if o_dksh o then write_dksh ls o ?k else _] => set (n := k) in H end.
  destruct (o_dksh o).
  - destruct (write_dksh ls o n) as [hd|e|d'|w|u|] eqn:W; cbn [bind] in H; try discriminate.
    + destruct (match o_type o with Some _ => _ | None => _ end); [|discriminate]. injection H as <-. apply program_says; cbn; tauto.
    + injection H as <-. eapply dksh_says, W.
  - cbn [bind] in H. destruct (match o_type o with Some _ => _ | None => _ end); [|discriminate]. injection H as <-. apply program_says; cbn; tauto.
Qed.

(** The text [q] behind [b] and the gap [g] is where [body] is said. *)
Definition about (code b g q body : text) : Prop :=
  code = b ++ g ++ q /\ boundary (Cursor code 0 0) (Cursor (g ++ q) (Where.newlines b) (width (last_line b))) /\ gap g q /\
  ((exists w k r, q = w ++ r /\ token_text w k r /\ says mnemonic (defined code) k body) \/ (bad_text q /\ complains q body)).
Theorem assemble_says : forall a code d, assemble a code = Fatal d -> ~ In NUL code -> small code ->
  of_program d \/
  exists b g q body, about code b g q body /\ d_pos d = Some (Where.newlines (b ++ g), width (last_line (b ++ g))) /\ prints (d_msg d) body.
Proof.
  intros a code d H NN SM. unfold assemble in H. destruct (generate_labels code) as [ls| | | | |] eqn:G; cbn [bind] in H; try discriminate.
  2:{ pose proof (generate_labels_outcomes code) as O. rewrite G in O. contradiction. }
  assert (DF : forall w, find_label ls w = None -> ~ defined code w).
  { intros w. apply undefined. intros nm z. apply (first_definition code ls NN G). }
  pose proof (decode_held mnemonic (defined code) (Cursor code 0 0) SM (S (S (List.length code))) a ls (S (count_semi code)) 0 (Ctx (Cursor code 0 0) 0 options0) []
    DF table_ok (fun w K => K) (boundary_refl _)) as W.
  destruct (decode_loop _ a ls _ _ _ _) as [(o, ops)| |d'| | |]; cbn [bind] in H; try discriminate.
  - left. apply binary_says in H. exact H.
  - right. injection H as <-. destruct W as (cb & g & cs & s & B & M & GP & P & PR & T).
    destruct (boundary_moves _ _ B) as (b & MB). exists b, g, (rest cs), s. pose proof (moves_trans _ _ _ _ _ MB M) as MM.
    destruct MM as (R & L & C). cbn [rest line col] in *. rewrite P, L, lines_newlines, C, cols_last. split; [|split; [reflexivity|exact PR]].
    split; [rewrite R, <- app_assoc; reflexivity|]. split; [|split; assumption].
    destruct cb as [rb lb ob]. destruct MB as (R1 & L1 & C1). cbn [rest line col] in *. rewrite lines_newlines in L1. rewrite cols_last in C1.
    destruct M as (M & _). cbn [rest] in M. rewrite <- M, <- C1. replace (Where.newlines b) with lb by (rewrite L1; lia). exact B.
Qed.

(** ** How it is printed *)

Lemma place_prints : forall b file l c, exists s, printf b (Message place_format (place_args file l c)) = Some s /\ place_text file l c s.
Proof.
  intros b file l c. eexists. split.
  - fmt_is (escape "[1m" ++ lit "%s" ++ (lit ":" ++ escape "[1m") ++ lit "%d" ++ lit ":" ++ lit "%d" ++ lit ": ").
    unfold place_args. repeat fstep. cbn [string_arg int_arg option_map append]. reflexivity.
  - exists (c_string file), (decimal_of (l + 1)), (decimal_of (c + 1)). split; [apply c_string_shown|]. split; [apply decimal_numeral|]. split; [apply decimal_numeral|].
    rewrite <- !app_assoc. reflexivity.
Qed.
Lemma error_prints : forall b, printf b error_format = Some (red (lit "error:") ++ lit " ").
Proof. intros []; reflexivity. Qed.
Lemma plain_stderr : forall file d body, d_pos d = None -> prints (d_msg d) body ->
  stderr_of false file d = Some (error_text body) /\ stderr_of true file d = if miscast body then None else Some (error_text body).
Proof.
  intros file d body P (F & T). unfold stderr_of, fatal_plain_output. rewrite P, !error_prints, F, T. unfold error_text.
  change LF with "010"%char. cbn [append]. split; [rewrite <- app_assoc; reflexivity|]. destruct (miscast body); [reflexivity|]. cbn [append]. rewrite <- app_assoc. reflexivity.
Qed.
Lemma placed_stderr : forall file d body l c, d_pos d = Some (l, c) -> prints (d_msg d) body ->
  exists p, place_text file l c p /\ stderr_of false file d = Some (p ++ error_text body) /\
    stderr_of true file d = if miscast body then None else Some (p ++ error_text body).
Proof.
  intros file d body l c P (F & T). destruct (place_prints false file l c) as (p & E & PT). exists p. split; [exact PT|].
  assert (E' : printf true (Message place_format (place_args file l c)) = Some p) by exact E.
  unfold stderr_of, fatal_output. rewrite P, !error_prints, F, T, E, E'. unfold error_text.
  change LF with "010"%char. cbn [append]. split; [rewrite <- !app_assoc; reflexivity|]. destruct (miscast body); [reflexivity|]. cbn [append]. rewrite <- !app_assoc. reflexivity.
Qed.

(** Both ways of reporting print the same. *)
Lemma digits_no_nul : forall n z, ~ In NUL (decimal_digits n z).
Proof.
  induction n as [|n IH]; intros z; [intros []|]. cbn [decimal_digits]. cbv zeta.
  assert (L : ~ In NUL [ascii_of_N (48 + Z.to_N (z mod 10))]).
  { intros [E|[]]. pose proof (Z.mod_pos_bound z 10 ltac:(lia)) as B. assert (X : N_of_ascii (ascii_of_N (48 + Z.to_N (z mod 10))) = N_of_ascii NUL) by congruence.
    rewrite N_ascii_embedding in X by lia. change (N_of_ascii NUL) with 0%N in X. lia. }
  destruct (z <? 10); [exact L|]. intros I. apply in_app_or in I as [I|I]; [exact (IH _ I)|exact (L I)].
Qed.
Lemma decimal_no_nul : forall z, ~ In NUL (decimal_of z).
Proof. intros z. unfold decimal_of. cbv zeta. destruct (z <? 0); [|apply digits_no_nul]. intros [E|I]; [discriminate|]. exact (digits_no_nul _ _ I). Qed.
Lemma c_string_clean : forall w, ~ In NUL (c_string w).
Proof. induction w as [|ch w IH]; [intros []|]. cbn [c_string]. destruct (Ascii.eqb_spec ch NUL); [intros []|]. intros [E|I]; [congruence|exact (IH I)]. Qed.
Lemma firstn_clean : forall n (w : text), ~ In NUL w -> ~ In NUL (firstn n w).
Proof. intros n w H I. apply H. rewrite <- (firstn_skipn n w). apply in_or_app. left. exact I. Qed.
Lemma append_clean : forall a b s, append a b = Some s -> (forall x, a = Some x -> ~ In NUL x) -> (forall x, b = Some x -> ~ In NUL x) -> ~ In NUL s.
Proof.
  intros [x|] [y|] s H A B; try discriminate. injection H as <-. intros I. apply in_app_or in I as [I|I]; [exact (A _ eq_refl I)|exact (B _ eq_refl I)].
Qed.
Lemma string_clean : forall a x, string_arg a = Some x -> ~ In NUL x.
Proof. intros [] x H; try discriminate. injection H as <-. apply c_string_clean. Qed.
Lemma view_clean : forall p a x, view_arg p a = Some x -> ~ In NUL x.
Proof.
  intros p [] x H; try discriminate; cbn [view_arg] in H.
  - injection H as <-. destruct (p <? 0); [apply c_string_clean|apply firstn_clean, c_string_clean].
  - destruct (_ || _); [discriminate|]. injection H as <-. apply c_string_clean.
Qed.
Lemma format_clean : forall b fmt args s, ~ In NUL fmt -> format b fmt args = Some s -> ~ In NUL s.
Proof.
  intros b fmt. remember (List.length fmt) as n eqn:EN. revert fmt EN. induction n as [n IH] using (well_founded_induction lt_wf). intros fmt -> args s NN H.
  destruct fmt as [|ch f1]; [injection H as <-; intros []|]. cbn [format] in H.
  assert (N1 : ~ In NUL f1) by (intros I; apply NN; right; exact I).
  destruct (negb _).
  { eapply append_clean; [exact H| |].
    - intros x E. injection E as <-. intros [E|[]]. apply NN. left. exact E.
    - intros x E. eapply (IH (List.length f1)); [cbn; lia|reflexivity|exact N1|exact E]. }
  destruct f1 as [|c1 f2]; [discriminate|]. destruct args as [|a args1]; [discriminate|].
  assert (N2 : ~ In NUL f2) by (intros I; apply N1; right; exact I).
  destruct (Ascii.eqb c1 "s"%char).
  { eapply append_clean; [exact H|apply string_clean|]. intros x E. eapply (IH (List.length f2)); [cbn; lia|reflexivity|exact N2|exact E]. }
  destruct (Ascii.eqb c1 "d"%char).
  { eapply append_clean; [exact H| |].
    - intros x E. destruct (int_arg b a); [|discriminate]. injection E as <-. apply decimal_no_nul.
    - intros x E. eapply (IH (List.length f2)); [cbn; lia|reflexivity|exact N2|exact E]. }
  destruct (Ascii.eqb c1 "l"%char).
  { destruct f2 as [|c2 f3]; [discriminate|]. destruct (Ascii.eqb c2 "d"%char); [|discriminate].
    eapply append_clean; [exact H| |].
    - intros x E. destruct (long_arg a); [|discriminate]. injection E as <-. apply decimal_no_nul.
    - intros x E. eapply (IH (List.length f3)); [cbn; lia|reflexivity| |exact E]. intros I. apply N2. right. exact I. }
  destruct (Ascii.eqb c1 "."%char); [|discriminate]. destruct f2 as [|c2 [|c3 f4]]; try discriminate; destruct args1 as [|a' args2]; try discriminate.
  destruct (_ && _); [|discriminate]. eapply append_clean; [exact H| |].
  - intros x E. destruct (int_arg b a); [|discriminate]. eapply view_clean, E.
  - intros x E. eapply (IH (List.length f4)); [cbn; lia|reflexivity| |exact E]. intros I. apply N2. right. right. exact I.
Qed.
Lemma printf_clean : forall b m s, printf b m = Some s -> ~ In NUL s.
Proof. intros b m s H. eapply format_clean; [apply c_string_clean|exact H]. Qed.

Lemma header_prints : forall b file l c x, printf b (Message place_format (place_args file l c)) = Some x ->
  printf b (Message (place_format ++ error_format) (place_args file l c)) = Some (x ++ red (lit "error:") ++ lit " ").
Proof.
  intros b file l c x H.
  assert (G : forall rest, (forall args, format b rest args = Some rest) ->
    format b (lit (place_format) ++ rest) (place_args file l c) = Some (x ++ rest)).
  { intros rest R. revert H. fmt_is (escape "[1m" ++ lit "%s" ++ (lit ":" ++ escape "[1m") ++ lit "%d" ++ lit ":" ++ lit "%d" ++ lit ": ").
    unfold place_args. repeat fstep. cbn [string_arg int_arg option_map append]. intros H. apply (f_equal (fun o => match o with Some v => v | None => [] end)) in H. cbv beta iota in H. subst x.
    change (lit place_format ++ rest) with (escape "[1m" ++ lit "%s" ++ (lit ":" ++ escape "[1m") ++ lit "%d" ++ lit ":" ++ lit "%d" ++ lit ": " ++ rest).
    repeat first [rewrite format_plain by reflexivity | rewrite format_s | rewrite format_d]. rewrite R. cbn [string_arg int_arg option_map append]. rewrite <- !app_assoc. reflexivity. }
  specialize (G (red (lit "error:") ++ lit " ")). apply G. intros args. apply format_end. reflexivity.
Qed.
Lemma store_whole : forall n bytes, List.length bytes = n -> store (repeat NUL n) 0 bytes = Some bytes.
Proof.
  intros n bytes L. unfold store. rewrite repeat_length. cbn [plus firstn app]. rewrite <- L, Nat.leb_refl. rewrite skipn_all2 by (rewrite repeat_length; lia). rewrite app_nil_r. reflexivity.
Qed.

Theorem both_ways : forall strict file l c m out, fatal_output strict file l c m = Some out ->
  fail_message strict file l c m =
    if INT32_MAX <? Z.of_nat (List.length out) then None else Some (firstn (List.length out - 1) out ++ [NUL]).
Proof.
  intros strict file l c m out H. unfold fatal_output in H.
  destruct (place_prints strict file l c) as (p & P & _). rewrite P, error_prints in H. unfold fail_message. rewrite (header_prints _ _ _ _ _ P).
  destruct (printf strict m) as [body|]; [|discriminate]. cbn [append] in H. apply (f_equal (fun o => match o with Some v => v | None => [] end)) in H. cbv beta iota in H.
  set (first := p ++ red (lit "error:") ++ lit " ") in *. cbv zeta.
  assert (EO : out = (first ++ body) ++ [LF]) by (rewrite <- H; unfold first; rewrite <- !app_assoc; reflexivity). clear H P. clearbody first. subst out.
  rewrite !app_length. cbn [List.length]. rewrite !Nat2Z.inj_add. change (Z.of_nat 1) with 1.
  destruct (INT32_MAX <? Z.of_nat (List.length first) + Z.of_nat (List.length body) + 1); [reflexivity|].
  replace (Z.to_nat (Z.of_nat (List.length first) + Z.of_nat (List.length body) + 1)) with (List.length first + List.length body + 1)%nat by lia.
  replace (List.length first + List.length body + 1 - 1)%nat with (List.length first + List.length body + 0)%nat by lia.
  rewrite Nat.add_0_r, <- app_length, firstn_app, firstn_all, Nat.sub_diag. cbn [firstn]. rewrite app_nil_r.
  assert (S1 : snprintf_bytes (Z.of_nat (List.length first) + Z.of_nat (List.length body) + 1) first = first ++ [NUL]).
  { unfold snprintf_bytes. replace (_ <=? 0) with false by (symmetry; apply Z.leb_gt; lia). rewrite firstn_all2 by lia. reflexivity. }
  assert (S2 : snprintf_bytes (Z.of_nat (List.length first) + Z.of_nat (List.length body) + 1 - Z.of_nat (List.length first)) body = body ++ [NUL]).
  { unfold snprintf_bytes. replace (_ <=? 0) with false by (symmetry; apply Z.leb_gt; lia). rewrite firstn_all2 by lia. reflexivity. }
  rewrite S1, S2. unfold store at 1. rewrite !app_length, repeat_length. cbn [List.length plus].
  replace (Nat.leb (List.length first + 1) (List.length first + List.length body + 1)) with true by (symmetry; apply Nat.leb_le; lia). cbn [firstn app].
  unfold store. rewrite !app_length, skipn_length, repeat_length. cbn [List.length].
  replace (Nat.leb _ _) with true by (symmetry; apply Nat.leb_le; lia). f_equal.
  set (tail := skipn (List.length first + 1) _).
  assert (LT : List.length tail = List.length body) by (unfold tail; rewrite skipn_length, repeat_length; lia). clearbody tail.
  rewrite (skipn_all2 (n := List.length first + (List.length body + 1))) by (rewrite !app_length, LT; cbn [List.length]; lia).
  rewrite app_nil_r, <- (app_assoc first [NUL] tail), firstn_app, firstn_all, Nat.sub_diag. cbn [firstn]. rewrite app_nil_r, <- app_assoc. reflexivity.
Qed.
Theorem raised_alike : forall strict file l c m out, fatal_output strict file l c m = Some out -> Z.of_nat (List.length out) <= INT32_MAX ->
  exists buffer, fail_message strict file l c m = Some buffer /\ raise_output buffer = out /\ List.length buffer = List.length out.
Proof.
  intros strict file l c m out H B. rewrite (both_ways _ _ _ _ _ _ H). replace (INT32_MAX <? _) with false by (symmetry; apply Z.ltb_ge; exact B).
  eexists. split; [reflexivity|]. unfold fatal_output in H. destruct (place_prints strict file l c) as (p & P & _). pose proof (printf_clean _ _ _ P) as C1.
  rewrite P, error_prints in H. destruct (printf strict m) as [body|] eqn:PM; [|discriminate]. pose proof (printf_clean _ _ _ PM) as C2.
  cbn [append] in H. apply (f_equal (fun o => match o with Some v => v | None => [] end)) in H. cbv beta iota in H. clear P PM.
  set (first := p ++ red (lit "error:") ++ lit " ") in *.
  assert (EO : out = (first ++ body) ++ [LF]) by (rewrite <- H; unfold first; rewrite <- !app_assoc; reflexivity). clear H.
  assert (CC : ~ In NUL (first ++ body)).
  { intros I. apply in_app_or in I as [I|I]; [|exact (C2 I)]. unfold first in I. apply in_app_or in I as [I|I]; [exact (C1 I)|]. cbn in I. intuition discriminate. }
  clearbody first. subst out. rewrite app_length. cbn [List.length]. replace (List.length (first ++ body) + 1 - 1)%nat with (List.length (first ++ body)) by lia.
  rewrite firstn_app, firstn_all, Nat.sub_diag. cbn [firstn]. rewrite app_nil_r. split; [|rewrite app_length; reflexivity].
  unfold raise_output. f_equal. revert CC. generalize (first ++ body) as t. induction t as [|ch t IH]; intros N; [reflexivity|]. cbn [app c_string].
  destruct (Ascii.eqb_spec ch NUL) as [->|_]; [destruct N; left; reflexivity|]. rewrite IH; [reflexivity|]. intros I. apply N. right. exact I.
Qed.
