(** * LexFacts: the tokenizer moves left to right and always stops. *)
From Verif Require Import Base Float Lexer.
From Coq Require Import Lia.
Local Open Scope char_scope.
Open Scope Z_scope.

(** ** Inversion of [bind] *)

Lemma bind_ok : forall A B (m : res A) (k : A -> res B) b,
  bind m k = Ok b <-> exists a, m = Ok a /\ k a = Ok b.
Proof.
  intros A B [a|e|d|w|u|] k b; cbn; split; intros H; try discriminate;
    try (destruct H as (x & Hx & H); congruence); eauto.
Qed.

Lemma bind_assoc : forall A B C (m : res A) (k : A -> res B) (h : B -> res C),
  bind (bind m k) h = bind m (fun a => bind (k a) h).
Proof. intros A B C [a|e|d|w|u|] k h; reflexivity. Qed.

(** Split every successful [bind] in hypothesis [H]. *)
Ltac inv_bind H :=
  match type of H with
  | bind ?m ?k = Ok ?b =>
      let x := fresh "x" in let Hx := fresh "Hx" in
      apply bind_ok in H; destruct H as (x & Hx & H)
  end.

(** ** Positions *)

(** Line and column after the characters of a text. *)
Fixpoint lines (p : text) (l : Z) : Z :=
  match p with [] => l | ch :: p' => lines p' (adv_line ch l) end.
Fixpoint cols (p : text) (c : Z) : Z :=
  match p with [] => c | ch :: p' => cols p' (adv_col ch c) end.

Lemma lines_app : forall p q l, lines (p ++ q) l = lines q (lines p l).
Proof. induction p; cbn; auto. Qed.
Lemma cols_app : forall p q c, cols (p ++ q) c = cols q (cols p c).
Proof. induction p; cbn; auto. Qed.

(** [moves c p c']: from [c], consuming exactly the characters [p], to [c']. *)
Definition moves (c : cursor) (p : text) (c' : cursor) : Prop :=
  rest c = p ++ rest c' /\ line c' = lines p (line c) /\ col c' = cols p (col c).

Lemma moves_refl : forall c, moves c [] c.
Proof. intros [r l q]; repeat split. Qed.
Lemma moves_trans : forall a p b q c, moves a p b -> moves b q c -> moves a (p ++ q) c.
Proof.
  intros a p b q c (H1 & H2 & H3) (H4 & H5 & H6); repeat split.
  - rewrite H1, H4. apply app_assoc.
  - rewrite lines_app; congruence.
  - rewrite cols_app; congruence.
Qed.
Lemma moves_length : forall c p c', moves c p c' ->
  List.length (rest c) = (List.length p + List.length (rest c'))%nat.
Proof. intros c p c' (H & _); rewrite H; apply app_length. Qed.

Lemma moves_between : forall c p c', moves c p c' -> between c c' = p.
Proof.
  intros c p c' H. unfold between. rewrite (moves_length _ _ _ H).
  replace (List.length p + List.length (rest c') - List.length (rest c'))%nat
    with (List.length p) by lia.
  destruct H as (H & _). rewrite H, firstn_app, Nat.sub_diag, firstn_all, firstn_O.
  apply app_nil_r.
Qed.

(** [next] consumes one character. *)
Lemma next_moves : forall c c', next c = Ok c' ->
  exists ch, moves c [ch] c' /\ peek (rest c) = ch.
Proof.
  intros [r l q] c' H; unfold next in H; cbn in H.
  destruct r as [|ch r]; [discriminate|]. injection H as <-.
  exists ch; repeat split.
Qed.
Lemma next_not_ok : forall c, (forall c', next c <> Ok c') -> rest c = [] /\ next c = Undef UB_read_past_nul.
Proof.
  intros [[|ch r] l q] H; unfold next in *; cbn in *; auto.
  exfalso; eapply H; reflexivity.
Qed.
Lemma next_cases : forall c,
  (rest c = [] /\ next c = Undef UB_read_past_nul) \/
  (exists ch r, rest c = ch :: r /\ next c = Ok (Cursor r (adv_line ch (line c)) (adv_col ch (col c)))).
Proof. intros [[|ch r] l q]; unfold next; cbn; eauto 6. Qed.

(** [skipc] consumes the longest run of characters satisfying [p]. *)
Lemma skip_while_spec : forall p l ln cl,
  exists q, moves (Cursor l ln cl) q (skip_while p l ln cl)
    /\ forallb p q = true
    /\ (rest (skip_while p l ln cl) = [] \/ p (peek (rest (skip_while p l ln cl))) = false).
Proof.
  intros p l; induction l as [|ch l IH]; intros ln cl; cbn.
  - exists []; repeat split; auto.
  - destruct (p ch) eqn:E.
    + destruct (IH (adv_line ch ln) (adv_col ch cl)) as (q & (H1 & H2 & H3) & H4 & H5).
      exists (ch :: q); cbn in *. split; [|split; [rewrite E; auto|auto]].
      repeat split; cbn; auto; congruence.
    + exists []; repeat split; auto.
Qed.
Lemma skipc_spec : forall p c,
  exists q, moves c q (skipc p c) /\ forallb p q = true
    /\ (rest (skipc p c) = [] \/ p (peek (rest (skipc p c))) = false).
Proof. intros p [r l q]; apply skip_while_spec. Qed.

(** ** One pass of the tokenizer *)

Definition is_semi (ch : ascii) : bool := Ascii.eqb ";" ch.
Lemma separator_facts : forall ch, is_separator ch = false ->
  is_semi ch = false /\ Ascii.eqb ch NUL = false.
Proof.
  intros ch H; destruct ch as [[] [] [] [] [] [] [] []]; vm_compute in H |- *; try discriminate; auto.
Qed.

Lemma lex_predicate_spec : forall t c k c', lex_predicate t c = Ok (k, c') ->
  exists p, moves c p c' /\ (p <> []) /\
    (forall x, k = Some x -> exists i n, x = TPred i n /\ (i <= 7)%N).
Proof.
  intros t c k c' H. unfold lex_predicate in H.
  inv_bind H. rename x into c1.
  assert (M1 : exists p1, moves c p1 c1).
  { destruct (Ascii.eqb (peek (rest c)) "!").
    - inv_bind Hx. apply next_moves in Hx0 as (ch & M & _).
      destruct (is_contained "Pp" (peek (rest x))); try discriminate.
      injection Hx as <-; eauto.
    - injection Hx as <-; exists []; apply moves_refl. }
  destruct M1 as (p1 & M1). clear Hx.
  inv_bind H. rename x into c2. apply next_moves in Hx as (ch2 & M2 & _).
  pose proof (moves_trans _ _ _ _ _ M1 M2) as M12.
  set (ch := peek (rest c2)) in *.
  assert (Hdec : is_decimal ch = true -> (N_of_ascii ch - 48 <= 9)%N).
  { unfold is_decimal. intros Hd. apply andb_true_iff in Hd as (A & B).
    apply N.leb_le in A, B. lia. }
  destruct (is_contained "Tt" ch); [|destruct (is_decimal ch) eqn:Hd]; cbn [negb andb] in H.
  - inv_bind H. apply next_moves in Hx as (ch3 & M3 & _).
    pose proof (moves_trans _ _ _ _ _ M12 M3) as M.
    destruct (is_separator (peek (rest x))).
    + injection H as <- <-. eexists; split; [exact M|split].
      * destruct p1; discriminate.
      * intros ? [= <-]. do 2 eexists; split; [reflexivity|lia].
    + injection H as <- <-. eexists; split; [exact M|split].
      * destruct p1; discriminate.
      * discriminate.
  - inv_bind H. apply next_moves in Hx as (ch3 & M3 & _).
    pose proof (moves_trans _ _ _ _ _ M12 M3) as M.
    destruct (is_separator (peek (rest x))).
    + destruct (N.ltb 6 (N_of_ascii ch - 48)) eqn:E; [discriminate|].
      injection H as <- <-. eexists; split; [exact M|split].
      * destruct p1; discriminate.
      * intros ? [= <-]. do 2 eexists; split; [reflexivity|]. apply N.ltb_ge in E. lia.
    + injection H as <- <-. eexists; split; [exact M|split].
      * destruct p1; discriminate.
      * discriminate.
  - injection H as <- <-. eexists; split; [exact M12|split].
    + destruct p1; discriminate.
    + discriminate.
Qed.

(** ** Ranges of numeric literals *)

(** A sign and a magnitude up to infinity: not a NaN. *)
Definition f32_ok (f : N) : Prop :=
  exists neg mag, f = with_sign neg f32_sign mag /\ (mag <= f32_inf)%N.
Lemma round_ratio_le : forall p emin inf num den, (round_ratio p emin inf num den <= Z.to_N inf)%N.
Proof.
  intros p emin inf num den. unfold round_ratio. destruct (num =? 0); [apply N.le_0_l|].
  cbv zeta. match goal with |- ((if ?b then _ else _) <= _)%N => destruct b eqn:E end; [apply N.le_refl|].
  apply Z.leb_gt in E. match goal with |- (Z.to_N ?x <= _)%N => set (pat := x) in * end. clearbody pat. lia.
Qed.
Lemma f32_of_ratio_ok : forall neg num den, f32_ok (f32_of_ratio neg num den).
Proof.
  intros neg num den. exists neg. eexists. split; [reflexivity|].
  pose proof (round_ratio_le 24 (-149) (Z.of_N f32_inf) num den) as H. rewrite N2Z.id in H. exact H.
Qed.
Lemma strtof_ok : forall l f e, strtof l = (f, e) -> f32_ok f.
Proof.
  intros l f e H. unfold strtof in H.
  match type of H with (let '(_, _) := ?x in _) = _ => destruct x as (neg, l1) end.
  destruct (starts_digit 10 l1).
  - destruct (digits 10 0 l1) as (ip, l2).
    assert (G : forall x y : text, (f32_of_ratio neg ip 1, x) = (f, y) -> f32_ok f)
      by (intros x y [= <- _]; apply f32_of_ratio_ok).
    destruct l2 as [|ch l2]; [eapply G; exact H|].
    destruct ch as [[] [] [] [] [] [] [] []]; try (eapply G; exact H).
    destruct (digits 10 ip l2) as (v, l3). injection H as <- _. apply f32_of_ratio_ok.
  - injection H as <- _. exists false, 0%N. split; [reflexivity|apply N.le_0_l].
Qed.
Lemma clamp64_range : forall z, INT64_MIN <= clamp64 z <= INT64_MAX.
Proof.
  intros z. unfold clamp64, INT64_MIN, INT64_MAX.
  destruct (Z.ltb_spec z (-9223372036854775808)); [lia|].
  destruct (Z.ltb_spec 9223372036854775807 z); lia.
Qed.
Lemma strtoll_range : forall b l z e, strtoll b l = (z, e) -> INT64_MIN <= z <= INT64_MAX.
Proof.
  intros b l z e H. unfold strtoll in H.
  match type of H with (let '(_, _) := ?x in _) = _ => destruct x as (neg, l1) end.
  match type of H with (let '(_, _) := ?x in _) = _ => destruct x as (b1, l2) end.
  destruct (starts_digit b1 l2).
  - destruct (digits b1 0 l2) as (v, l3). injection H as <- _. apply clamp64_range.
  - injection H as <- _. unfold INT64_MIN, INT64_MAX. lia.
Qed.

(** The kinds a numeric literal can produce. *)
Lemma lex_immediate_spec : forall t c k c',
  is_imm_char (peek (rest c)) = true ->
  lex_immediate t c = Ok (k, c') ->
  exists p, moves c p c' /\ p <> [] /\ ((exists z, k = TImm z /\ INT64_MIN <= z <= INT64_MAX) \/ (exists f, k = TFloat f /\ f32_ok f)).
Proof.
  intros t c k c' Hc H. unfold lex_immediate in H.
  destruct (skipc_spec is_imm_char c) as (p1 & M1 & F1 & E1).
  set (c1 := skipc is_imm_char c) in *.
  assert (Hp1 : p1 <> []).
  { intros ->. destruct M1 as (M1 & _). cbn in M1. rewrite M1 in Hc.
    destruct E1 as [E1|E1].
    - rewrite E1 in Hc. vm_compute in Hc. discriminate.
    - congruence. }
  inv_bind H. destruct x as (is_fp, c2).
  assert (M2 : exists p2, moves c p2 c2 /\ p2 <> []).
  { destruct (Ascii.eqb (peek (rest c1)) ".").
    - destruct (existsb is_hex_char (between c c1)); [discriminate|].
      inv_bind Hx. apply next_moves in Hx0 as (ch & M & _).
      destruct (skipc_spec is_decimal x) as (p3 & M3 & _).
      injection Hx as _ <-.
      exists ((p1 ++ [ch]) ++ p3). split.
      + eapply moves_trans; eauto. eapply moves_trans; eauto.
      + destruct p1; discriminate.
    - injection Hx as _ <-. eauto. }
  destruct M2 as (p2 & M2 & Hp2). clear Hx.
  destruct (negb (is_separator (peek (rest c2)))); [discriminate|].
  destruct is_fp.
  - destruct (strtof (rest c)) as (f, e) eqn:ES. apply strtof_ok in ES.
    destruct (negb (same_end e c2)); [discriminate|].
    injection H as <- <-. exists p2; repeat split; try apply M2; eauto.
  - destruct (strtoll 0 (rest c)) as (z, e) eqn:ES. apply strtoll_range in ES.
    destruct (negb (same_end e c2)); [discriminate|].
    injection H as <- <-. exists p2; repeat split; try apply M2; eauto.
Qed.

Lemma lex_register_spec : forall t c k c',
  lex_register t c = Ok (k, c') ->
  exists p, moves c p c' /\ p <> [] /\ (forall x, k = Some x -> exists r, x = TReg r /\ (r <= 255)%N).
Proof.
  intros t c k c' H. unfold lex_register in H.
  inv_bind H. rename x into c1. apply next_moves in Hx as (ch & M1 & _).
  destruct (Ascii.eqb (peek (rest c1)) "Z").
  - inv_bind H. apply next_moves in Hx as (ch2 & M2 & _).
    destruct (negb (is_separator (peek (rest x)))); [discriminate|].
    injection H as <- <-. eexists; split; [eapply moves_trans; eauto|split; [discriminate|]].
    intros ? [= <-]. eexists; split; [reflexivity|]. vm_compute. discriminate.
  - destruct (skipc_spec is_decimal c1) as (p2 & M2 & _).
    set (c2 := skipc is_decimal c1) in *.
    destruct (is_separator (peek (rest c2))); cbn [negb] in H.
    + destruct (strtoll 10 (rest c1)) as (v, e).
      destruct (negb (same_end e c2)); [discriminate|].
      destruct ((v <? 0) || (NUM_USER_REGISTERS <=? v)) eqn:E; [discriminate|].
      injection H as <- <-. eexists; split; [eapply moves_trans; eauto|split; [discriminate|]].
      intros ? [= <-]. eexists; split; [reflexivity|].
      apply orb_false_iff in E as (E1 & E2). apply Z.ltb_ge in E1. apply Z.leb_gt in E2.
      unfold NUM_USER_REGISTERS in E2. lia.
    + injection H as <- <-. eexists; split; [eapply moves_trans; eauto|split; [discriminate|]].
      discriminate.
Qed.

Lemma lex_identifier_spec : forall t c0 p0 c r, moves c0 p0 c ->
  lex_identifier t c0 c = Ok r ->
  exists p c', moves c0 p c' /\ p <> [] /\
    (r = Skip c' \/ r = Got (Token (TIdent p) (t_line t) (t_col t)) c').
Proof.
  intros t c0 p0 c r M0 H. unfold lex_identifier in H.
  inv_bind H. rename x into c1. apply next_moves in Hx as (ch & M1 & _).
  destruct (skipc_spec (fun ch => negb (is_separator ch)) c1) as (p2 & M2 & _).
  set (c2 := skipc (fun ch => negb (is_separator ch)) c1) in *.
  pose proof (moves_trans _ _ _ _ _ (moves_trans _ _ _ _ _ M0 M1) M2) as M.
  rewrite (moves_between _ _ _ M) in H.
  set (p := (p0 ++ [ch]) ++ p2) in *.
  assert (p <> []) by (unfold p; destruct p0; discriminate).
  destruct (Ascii.eqb (last p NUL) ":"); injection H as <-; eauto 6.
Qed.

(** Tokens carry well-formed payloads. *)
Definition kind_ok (k : tkind) : Prop :=
  match k with
  | TIdent s => s <> []
  | TReg r => (r <= 255)%N
  | TPred i _ => (i <= 7)%N
  | TImm z => INT64_MIN <= z <= INT64_MAX
  | TFloat f => f32_ok f
  | _ => True
  end.

Lemma operator_peek : forall ch, is_operator ch = true ->
  (operator_type ch = TSemi -> ch = ";") /\ operator_type ch <> TNone /\ kind_ok (operator_type ch).
Proof.
  intros ch H.
  destruct ch as [[] [] [] [] [] [] [] []]; vm_compute in H; try discriminate;
    repeat split; try discriminate; auto.
Qed.

(** What one pass does: [q] is the skipped white space, [b] the characters
    of the token. *)
Definition got_spec (c : cursor) (t : token) (c' : cursor) : Prop :=
  exists q cq b,
    moves c q cq /\ moves cq b c' /\ t_line t = line cq /\ t_col t = col cq /\
    (kind t = TNone -> b = [] /\ peek (rest c') = NUL) /\
    (kind t <> TNone -> b <> []) /\
    (kind t = TSemi -> b = [";"]) /\
    kind_ok (kind t).

Lemma got_intro : forall c q cq b c' k,
  moves c q cq -> moves cq b c' ->
  (k = TNone -> b = [] /\ peek (rest c') = NUL) ->
  (k <> TNone -> b <> []) ->
  (k = TSemi -> b = [";"]) ->
  kind_ok k ->
  got_spec c (Token k (line cq) (col cq)) c'.
Proof. intros; exists q, cq, b; cbn; auto 10. Qed.

Lemma tokenize1_spec : forall c r, tokenize1 c = Ok r ->
  match r with
  | Got t c' => got_spec c t c'
  | Skip c' => exists p, moves c p c' /\ p <> []
  end.
Proof.
  intros c0 r H. unfold tokenize1 in H.
  destruct (skipc_spec is_blank c0) as (q & M0 & F0 & E0).
  set (c := skipc is_blank c0) in *.
  set (ch := peek (rest c)) in *.
  destruct (Ascii.eqb ch NUL) eqn:EN.
  { injection H as <-. apply Ascii.eqb_eq in EN.
    apply (got_intro _ q _ []); try assumption; try discriminate; cbn; auto using moves_refl. }
  destruct (is_operator ch && (negb (is_sign ch) || negb (is_decimal (peek1 (rest c))))) eqn:EO.
  { inv_bind H. injection H as <-. apply next_moves in Hx as (ch' & M1 & E1).
    apply andb_true_iff in EO as (EO & _).
    destruct (operator_peek _ EO) as (S1 & S2 & S3). fold ch in E1. subst ch'.
    apply (got_intro _ q _ [ch]); try assumption.
    - intros HN; contradiction.
    - discriminate.
    - intros HS; rewrite S1; auto. }
  inv_bind H. destruct x as (pk, c1).
  assert (M1 : exists p1, moves c p1 c1 /\ (pk <> None -> p1 <> [] /\ exists i n, pk = Some (TPred i n) /\ (i <= 7)%N)
                /\ (is_contained "!Pp" ch = false -> c1 = c)).
  { destruct (is_contained "!Pp" ch).
    - apply lex_predicate_spec in Hx as (p1 & M1 & N1 & K1). exists p1; split; [exact M1|split; [|discriminate]].
      intros Hk. destruct pk as [k|]; [|congruence]. split; [exact N1|].
      destruct (K1 k eq_refl) as (i & n & -> & Hi); eauto.
    - injection Hx as <- <-. exists []; split; [apply moves_refl|split; [congruence|reflexivity]]. }
  destruct M1 as (p1 & M1 & K1 & N1). clear Hx.
  destruct pk as [k|].
  { injection H as <-. destruct K1 as (K1 & i & n & [= ->] & Hi); [discriminate|].
    apply (got_intro _ q _ p1); auto; discriminate. }
  destruct ((is_decimal ch || is_sign ch) && negb (Ascii.eqb (peek1 (rest c1)) "D")) eqn:EI.
  { assert (c1 = c) as ->.
    { apply N1. apply andb_true_iff in EI as (EI & _). clear -EI.
      destruct ch as [[] [] [] [] [] [] [] []]; vm_compute in EI |- *; auto; discriminate. }
    inv_bind H. destruct x as (k, c2). injection H as <-.
    apply lex_immediate_spec in Hx as (p2 & M2 & N2 & K2).
    - apply (got_intro _ q _ p2); auto;
        destruct K2 as [(z & -> & ?)|(f & -> & ?)]; cbn; auto; discriminate.
    - fold ch. unfold is_imm_char. apply andb_true_iff in EI as (EI & _).
      apply orb_true_iff in EI as [-> | ->]; rewrite ?orb_true_r; reflexivity. }
  inv_bind H. destruct x as (rk, c2).
  assert (M2 : exists p2, moves c p2 c2 /\ (rk <> None -> p2 <> [] /\ exists r, rk = Some (TReg r) /\ (r <= 255)%N)).
  { destruct (Ascii.eqb ch "R").
    - apply lex_register_spec in Hx as (p2 & M2 & N2 & K2). exists (p1 ++ p2).
      split; [eapply moves_trans; eauto|].
      intros Hk. destruct rk as [k|]; [|congruence]. split; [destruct p1; [auto|discriminate]|].
      destruct (K2 k eq_refl) as (rr & -> & Hr); eauto.
    - injection Hx as <- <-. exists p1; split; auto. congruence. }
  destruct M2 as (p2 & M2 & K2). clear Hx.
  destruct rk as [k|].
  { injection H as <-. destruct K2 as (K2 & rr & [= ->] & Hr); [discriminate|].
    apply (got_intro _ q _ p2); auto; discriminate. }
  apply (lex_identifier_spec _ _ _ _ _ M2) in H as (p & c' & M & Np & [-> | ->]).
  - exists (q ++ p); split; [eapply moves_trans; eauto|]. destruct q; [auto|discriminate].
  - apply (got_intro _ q _ p); auto; discriminate.
Qed.

(** ** [tokenize] *)

Lemma got_prepend : forall c p c1 t c', moves c p c1 -> got_spec c1 t c' -> got_spec c t c'.
Proof.
  intros c p c1 t c' M (q & cq & b & H1 & H2). exists (p ++ q), cq, b.
  split; [eapply moves_trans; eauto|exact H2].
Qed.

Lemma tokenize_fuel_spec : forall n c t c', tokenize_fuel n c = Ok (t, c') -> got_spec c t c'.
Proof.
  induction n as [|n IH]; intros c t c' H; [discriminate|]. cbn in H.
  inv_bind H. apply tokenize1_spec in Hx. destruct x as [t1 c1|c1].
  - injection H as <- <-; exact Hx.
  - destruct Hx as (p & M & _). eapply got_prepend; eauto.
Qed.
Lemma tokenize_spec : forall c t c', tokenize c = Ok (t, c') -> got_spec c t c'.
Proof. intros c t c'; apply tokenize_fuel_spec. Qed.

(** No part of the lexer runs out of fuel by itself. *)
Ltac no_fuel :=
  repeat match goal with
  | |- bind ?m _ <> OutOfFuel =>
      let H := fresh in
      assert (H : m <> OutOfFuel);
      [ | destruct m; cbn [bind]; try discriminate; try (exfalso; apply H; reflexivity) ]
  | |- next ?c <> OutOfFuel => destruct (next_cases c) as [(_ & ->)|(? & ? & _ & ->)]; discriminate
  | |- fatal_error _ _ <> OutOfFuel => discriminate
  | |- Ok _ <> OutOfFuel => discriminate
  | |- (if ?b then _ else _) <> OutOfFuel => destruct b
  | |- context [let '(_, _) := ?x in _] => destruct x
  | |- context [match ?x with Some _ => _ | None => _ end] => destruct x
  end.

Lemma lex_predicate_fuel : forall t c, lex_predicate t c <> OutOfFuel.
Proof. intros t c; unfold lex_predicate; no_fuel. Qed.
Lemma lex_immediate_fuel : forall t c, lex_immediate t c <> OutOfFuel.
Proof. intros t c; unfold lex_immediate; no_fuel. Qed.
Lemma lex_register_fuel : forall t c, lex_register t c <> OutOfFuel.
Proof. intros t c; unfold lex_register; no_fuel. Qed.
Lemma lex_identifier_fuel : forall t c0 c, lex_identifier t c0 c <> OutOfFuel.
Proof. intros t c0 c; unfold lex_identifier; no_fuel. Qed.

Lemma tokenize1_fuel : forall c, tokenize1 c <> OutOfFuel.
Proof.
  intros c; unfold tokenize1; no_fuel;
    auto using lex_predicate_fuel, lex_immediate_fuel, lex_register_fuel, lex_identifier_fuel.
Qed.

(** The fuel of [tokenize] is irrelevant above the length of the text. *)
Lemma tokenize_fuel_enough : forall n c, (List.length (rest c) < n)%nat ->
  tokenize_fuel n c = tokenize c /\ tokenize c <> OutOfFuel.
Proof.
  unfold tokenize.
  assert (G : forall n m c, (List.length (rest c) < n)%nat -> (List.length (rest c) < m)%nat ->
              tokenize_fuel n c = tokenize_fuel m c /\ tokenize_fuel n c <> OutOfFuel).
  { induction n as [|n IH]; intros m c Hn Hm; [lia|]. destruct m as [|m]; [lia|]. cbn.
    pose proof (tokenize1_fuel c) as F. pose proof (tokenize1_spec c) as P.
    destruct (tokenize1 c) as [r|e|d|w|u|]; cbn [bind];
      try (split; [reflexivity|discriminate]); [|congruence].
    destruct r as [t c1|c1]; [split; [reflexivity|discriminate]|].
    destruct (P _ eq_refl) as (p & M & Np). apply moves_length in M.
    destruct p; [congruence|]. cbn in M. apply IH; lia. }
  intros n c H. split; [apply G; lia|]. apply (G _ (S (List.length (rest c)))); lia.
Qed.

Theorem tokenize_never_out_of_fuel : forall c, tokenize c <> OutOfFuel.
Proof. intros c; apply (tokenize_fuel_enough (S (List.length (rest c)))); lia. Qed.

(** The recursive equation of the C++ function. *)
Lemma tokenize_step : forall c,
  tokenize c = bind (tokenize1 c) (fun r => match r with Got t c' => Ok (t, c') | Skip c' => tokenize c' end).
Proof.
  intros c. unfold tokenize at 1. cbn [tokenize_fuel].
  pose proof (tokenize1_spec c) as P.
  destruct (tokenize1 c) as [r|e|d|w|u|]; try reflexivity. cbn [bind].
  destruct r as [t c1|c1]; [reflexivity|].
  destruct (P _ eq_refl) as (p & M & Np). apply moves_length in M.
  destruct p; [congruence|]. cbn in M. apply tokenize_fuel_enough; lia.
Qed.

