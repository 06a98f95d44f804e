(** * Decode: the decode loop of [assemble] and the label scan. *)
From Verif Require Import Base Float Lexer Operand Catalogue Table Parse Assemble
  Spec LexFacts SchedFuel Param Reach ParseFacts Outcomes.
From Coq Require Import Lia.
Local Open Scope char_scope.
Open Scope Z_scope.

(** ** Addresses *)

Lemma addr_0 : addr 0 = 8.
Proof. reflexivity. Qed.

Lemma addr_pos : forall k, 0 < addr k /\ addr k mod 8 = 0 /\ addr k mod 32 <> 0.
Proof.
  intros k. unfold addr. pose proof (Z.div_mod (Z.of_nat k) 3). pose proof (Z.mod_pos_bound (Z.of_nat k) 3).
  set (q := Z.of_nat k / 3) in *. set (r := Z.of_nat k mod 3) in *.
  split; [lia|]. split.
  - rewrite Z.mul_comm. apply Z.mod_mul. lia.
  - replace (8 * (4 * q + 1 + r)) with (8 * (1 + r) + q * 32) by lia.
    rewrite Z.mod_add by lia. rewrite Z.mod_small by lia. lia.
Qed.

Lemma addr_step : forall k, addr (S k) = if Z.rem (addr k + 8) 32 =? 0 then addr k + 16 else addr k + 8.
Proof.
  intros k. destruct (addr_pos k) as (P & _). rewrite Z.rem_mod_nonneg by lia. unfold addr in *.
  rewrite Nat2Z.inj_succ. unfold Z.succ. set (n := Z.of_nat k) in *. assert (0 <= n) by lia. clearbody n.
  destruct (_ =? 0) eqn:E; [apply Z.eqb_eq in E|apply Z.eqb_neq in E]; Z.div_mod_to_equations; lia.
Qed.

Lemma addr_inj : forall j k, addr j = addr k -> j = k.
Proof.
  assert (M : forall k, addr k < addr (S k)).
  { intros k. rewrite addr_step. destruct (_ =? _); lia. }
  assert (L : forall n k, addr k < addr (S n + k)).
  { induction n as [|n IH]; intros k; [apply M|]. eapply Z.lt_trans; [apply IH|].
    change (S (S n) + k)%nat with (S (S n + k)). apply M. }
  intros j k H. destruct (Nat.lt_trichotomy j k) as [C|[C|C]]; auto.
  - pose proof (L (k - j - 1)%nat j). replace (S (k - j - 1) + j)%nat with k in H0 by lia. lia.
  - pose proof (L (j - k - 1)%nat k). replace (S (j - k - 1) + k)%nat with j in H0 by lia. lia.
Qed.

(** ** Counting ';' *)

Lemma semis_app : forall p q, semis (p ++ q) = (semis p + semis q)%nat.
Proof. induction p as [|ch p IH]; intros q; cbn [semis app]; auto. rewrite IH. destruct (Ascii.eqb _ _); reflexivity. Qed.
Lemma count_semi_semis : forall code, count_semi code = semis code.
Proof.
  unfold count_semi. induction code as [|ch code IH]; [reflexivity|]. cbn [filter semis].
  rewrite Ascii.eqb_sym. destruct (Ascii.eqb ch ";"); cbn [List.length]; rewrite IH; reflexivity.
Qed.
Lemma moves_semis : forall c p c', moves c p c' -> semis (rest c) = (semis p + semis (rest c'))%nat.
Proof. intros c p c' (H & _). rewrite H. apply semis_app. Qed.

(** ** The decode loop *)

(** [decodes a ls x l y]: from context [x] the parser reads the instructions
    of [l] one after the other (each with the context it leaves behind) and
    then the end of the text in context [y]. *)
Inductive decodes (a : bool) (ls : labels) : ctx -> list (ctx * opcode) -> ctx -> Prop :=
| decodes_end : forall x, parse_instruction a ls x opcode0 = Ok None -> decodes a ls x [] x
| decodes_cons : forall x x' op l y,
    parse_instruction a ls x opcode0 = Ok (Some (x', op)) ->
    decodes a ls x' l y -> decodes a ls x ((x', op) :: l) y.

Definition ctx0 (code : text) : ctx := Ctx (Cursor code 0 0) 0 options0.

Lemma instruction_counts : forall a ls x x' op, parse_instruction a ls x opcode0 = Ok (Some (x', op)) ->
  (semis (rest (c_cur x')) < semis (rest (c_cur x)))%nat /\
  (List.length (rest (c_cur x')) < List.length (rest (c_cur x)))%nat.
Proof.
  intros a ls x x' op H. apply instruction_semi in H as ((p & M) & _).
  pose proof (moves_semis _ _ _ M) as S. pose proof (moves_length _ _ _ M) as L.
  rewrite semis_app in S. rewrite app_length in L. cbn in S, L. lia.
Qed.

(** Enough fuel, and the buffer is large enough. *)
Lemma decode_loop_outcome : forall a ls max n idx x acc,
  (List.length (rest (c_cur x)) < n)%nat ->
  (idx + semis (rest (c_cur x)) < max)%nat ->
  clean false a (decode_loop n a ls max idx x acc) /\
  (forall d, decode_loop n a ls max idx x acc <> Err d).
Proof.
  intros a ls max; induction n as [|n IH]; intros idx x acc Hn Hm; [lia|]. cbn [decode_loop].
  replace (Nat.leb max idx) with false by (symmetry; apply Nat.leb_gt; lia).
  destruct (instruction_clean table a ls x opcode0) as (C & E).
  unfold parse_instruction.
  destruct (parse_instruction_with table a ls x opcode0) as [[(x', op)|]|d|d|w|u|] eqn:P; cbn [bind];
    try (split; [exact C|discriminate]).
  - apply instruction_counts in P. apply IH; lia.
  - destruct a; cbn [andb]; [|split; [exact I|discriminate]].
    destruct (negb _); (split; [reflexivity || exact I|discriminate]).
  - exfalso; eapply E; reflexivity.
Qed.

Lemma decode_loop_ok : forall a ls max n idx x acc o ops,
  decode_loop n a ls max idx x acc = Ok (o, ops) ->
  exists l y, decodes a ls x l y /\ ops = rev acc ++ map snd l /\ o = c_opts y /\
    (a = true -> S (idx + List.length l) = max).
Proof.
  intros a ls max; induction n as [|n IH]; intros idx x acc o ops H; [discriminate|].
  cbn [decode_loop] in H. destruct (Nat.leb max idx); [discriminate|].
  inv_bind H. destruct x0 as [(x', op)|].
  - apply IH in H as (l & y & D & -> & -> & A). exists ((x', op) :: l), y. split; [econstructor; eauto|].
    split; [cbn; rewrite <- app_assoc; reflexivity|]. split; [reflexivity|].
    intros Ha. specialize (A Ha). cbn [List.length]. lia.
  - destruct (a && _) eqn:E; [discriminate|]. injection H as <- <-.
    exists [], x. split; [constructor; auto|]. split; [symmetry; apply app_nil_r|]. split; [reflexivity|].
    intros ->. cbn [andb] in E. apply negb_false_iff, Nat.eqb_eq in E. cbn [List.length]. lia.
Qed.

(** Conversely. *)
Lemma decode_loop_complete : forall a ls max x l y, decodes a ls x l y -> forall n idx acc,
  (List.length (rest (c_cur x)) < n)%nat -> (idx + semis (rest (c_cur x)) < max)%nat ->
  (a = true -> S (idx + List.length l) = max) ->
  decode_loop n a ls max idx x acc = Ok (c_opts y, rev acc ++ map snd l).
Proof.
  intros a ls max x l y D. induction D as [x H|x x' op l y H D IH]; intros n idx acc Hn Hm Ha;
    (destruct n as [|n]; [lia|]); cbn [decode_loop];
    replace (Nat.leb max idx) with false by (symmetry; apply Nat.leb_gt; lia); rewrite H; cbn [bind].
  - replace (a && negb (Nat.eqb (S idx) max)) with false.
    + cbn. rewrite app_nil_r. reflexivity.
    + destruct a; [|reflexivity]. specialize (Ha eq_refl). cbn [List.length] in Ha.
      replace max with (S idx) by lia. rewrite Nat.eqb_refl. reflexivity.
  - apply instruction_counts in H. rewrite IH;
      [|lia|lia|intros A; specialize (Ha A); cbn [List.length] in Ha; lia].
    cbn [rev map]. rewrite <- app_assoc. reflexivity.
Qed.

(** The addresses of successive instructions. *)
Lemma bump_addr : forall k, bump (addr k) = addr k.
Proof.
  intros k. unfold bump. destruct (addr_pos k) as (P & _ & M). rewrite Z.rem_mod_nonneg by lia.
  replace (addr k mod 32 =? 0) with false by lia. reflexivity.
Qed.
Lemma bump_next : forall k, bump (addr k + 8) = addr (S k).
Proof. intros k. unfold bump. rewrite addr_step. destruct (_ =? _); lia. Qed.

Definition pc_ok (x : ctx) (k : nat) : Prop := bump (c_pc x) = addr k.
Lemma decodes_pc : forall a ls x x' op k, pc_ok x k ->
  parse_instruction a ls x opcode0 = Ok (Some (x', op)) -> pc_ok x' (S k).
Proof.
  intros a ls x x' op k P H. apply instruction_semi in H as (_ & H). unfold pc_ok in *.
  rewrite H, P. apply bump_next.
Qed.

(** In the trace of a program, [k] instructions lie before instruction [k];
    [l1] is the part already decoded. *)
Lemma decodes_semis : forall a ls x l y, decodes a ls x l y ->
  exists p, moves (c_cur x) p (c_cur y) /\ (List.length l <= semis p)%nat.
Proof.
  intros a ls x l y D. induction D as [x H|x x' op l y H D (p & M & L)].
  - exists []; split; [apply moves_refl|cbn; lia].
  - apply instruction_semi in H as ((q & Q) & _). exists ((q ++ [";"]) ++ p).
    split; [eapply moves_trans; eauto|]. rewrite !semis_app. cbn. lia.
Qed.
Lemma decodes_app : forall a ls x l1 l2 y, decodes a ls x (l1 ++ l2) y ->
  exists z, decodes a ls z l2 y /\
    (exists p, moves (c_cur x) p (c_cur z) /\ (List.length l1 <= semis p)%nat) /\
    (forall k, pc_ok x k -> pc_ok z (k + List.length l1)) /\
    z = last (map fst l1) x.
Proof.
  intros a ls x l1. revert x. induction l1 as [|(x', op) l1 IH]; intros x l2 y D; cbn [app] in D.
  - exists x. split; [exact D|]. split; [exists []; split; [apply moves_refl|cbn; lia]|].
    split; [|reflexivity]. intros k. rewrite Nat.add_0_r. auto.
  - inversion D as [|x0 x0' op0 l0 y0 H D' E1 E2 E3]; subst.
    destruct (IH _ _ _ D') as (z & Dz & (p & M & L) & P & Z).
    exists z. split; [exact Dz|]. split; [|split].
    + pose proof (instruction_semi _ _ _ _ _ _ _ H) as ((q & Q) & _).
      exists ((q ++ [";"]) ++ p). split; [eapply moves_trans; eauto|].
      rewrite !semis_app. cbn [List.length semis]. cbn. lia.
    + intros k K. cbn [List.length]. rewrite <- Nat.add_succ_comm. apply P.
      eapply decodes_pc; eauto.
    + rewrite Z. destruct l1 as [|(x2, op2) l1]; [reflexivity|]. cbn [map last fst].
      assert (G : forall (d d' : ctx) l, l <> [] -> last l d = last l d').
      { intros d d' l. induction l as [|h l IHl]; [congruence|]. intros _. cbn. destruct l; [reflexivity|].
        apply IHl. discriminate. }
      destruct (map fst l1) eqn:E; [reflexivity|]. apply G. discriminate.
Qed.

(** ** The label scan *)

Lemma advance_spec : forall c pc, rest c <> [] ->
  exists ch c', advance (c, pc) = Ok (c', bump_pc ch pc) /\ moves c [ch] c' /\ peek (rest c) = ch.
Proof.
  intros [r l q] pc H. cbn in H. destruct r as [|ch r]; [congruence|].
  exists ch. eexists. split; [reflexivity|]. split; [|reflexivity]. repeat split.
Qed.
Lemma advance_end : forall c pc, rest c = [] -> advance (c, pc) = Undef UB_read_past_nul.
Proof. intros [r l q] pc H. cbn in H. subst. reflexivity. Qed.

Lemma bump_pc_addr : forall ch k, bump_pc ch (addr k) = addr (semis [ch] + k).
Proof.
  intros ch k. unfold bump_pc. cbn [semis]. destruct (Ascii.eqb ch ";"); [|reflexivity].
  cbv zeta. change (1 + k)%nat with (S k). rewrite addr_step. destruct (_ =? _); lia.
Qed.

(** Sufficient fuel is assumed below; [next_line] eats one line. *)
Lemma next_line_spec : forall n c k, (List.length (rest c) <= n)%nat -> rest c <> [] ->
  ~ In NUL (rest c) -> 0 <= col c ->
  exists p c', next_line n (c, addr k) = Ok (c', addr (semis p + k)) /\ moves c p c' /\
    p <> [] /\ 0 <= col c' /\
    (exists p0 ch, p = p0 ++ [ch] /\ ~ In LF p0 /\ (ch = LF \/ rest c' = [])).
Proof.
  induction n as [|n IH]; intros c k Hn Hr HN HC.
  { destruct (rest c); [congruence|cbn in Hn; lia]. }
  cbn [next_line]. destruct (advance_spec c (addr k) Hr) as (ch & c1 & A & M & P).
  rewrite A. cbn [bind]. rewrite bump_pc_addr.
  pose proof M as (R1 & L1 & C1). cbn in R1, C1.
  assert (HC1 : 0 <= col c1).
  { rewrite C1. unfold adv_col. destruct (Ascii.eqb ch TAB); [lia|]. destruct (Ascii.eqb ch LF); lia. }
  assert (HLF : ch <> LF -> 0 < col c1).
  { intros HX. rewrite C1. unfold adv_col. destruct (Ascii.eqb ch TAB); [lia|].
    destruct (Ascii.eqb ch LF) eqn:E; [apply Ascii.eqb_eq in E; congruence|lia]. }
  destruct (negb (Ascii.eqb (peek (rest c1)) NUL) && (0 <? col c1)) eqn:E.
  - apply andb_true_iff in E as (E1 & E2). apply Z.ltb_lt in E2.
    assert (Hr1 : rest c1 <> []) by (intros HX; rewrite HX in E1; discriminate).
    destruct (IH c1 (semis [ch] + k)%nat) as (p & c' & H & M' & Np & HC' & p0 & ch' & -> & F & T); auto.
    { rewrite R1 in Hn. cbn in Hn. lia. }
    { intros HX. apply HN. rewrite R1. right; exact HX. }
    exists (ch :: p0 ++ [ch']), c'. split.
    { rewrite H. f_equal. f_equal. f_equal. change (ch :: p0 ++ [ch']) with ([ch] ++ p0 ++ [ch']).
      rewrite !semis_app. lia. }
    split; [apply (moves_trans _ [ch] _ _ _ M M')|]. split; [discriminate|]. split; [exact HC'|].
    exists (ch :: p0), ch'. split; [reflexivity|]. split; [|exact T].
    intros [->|HX]; [|auto]. rewrite C1 in E2. cbn in E2. lia.
  - exists [ch], c1. split; [reflexivity|]. split; [exact M|]. split; [discriminate|]. split; [exact HC1|].
    exists [], ch. split; [reflexivity|]. split; [intros []|].
    destruct (Ascii.eqb ch LF) eqn:EL; [left; apply Ascii.eqb_eq; exact EL|right].
    apply Ascii.eqb_neq in EL. specialize (HLF EL).
    apply andb_false_iff in E as [E|E]; [|apply Z.ltb_ge in E; lia].
    apply negb_false_iff, Ascii.eqb_eq in E. destruct (rest c1) as [|x r] eqn:ER; [reflexivity|].
    exfalso. apply HN. rewrite R1. cbn in E. subst x. right; left; reflexivity.
Qed.

Lemma label_char_facts : forall ch, is_label_char ch = true ->
  (letter ch \/ digit ch \/ ch = "_") /\ Ascii.eqb ch ";" = false /\ ch <> LF /\ ch <> ":".
Proof.
  intros ch H. unfold is_label_char in H. split.
  - unfold letter, digit. unfold is_alnum, is_alpha, is_decimal in H.
    apply orb_true_iff in H as [H|H]; [|apply Ascii.eqb_eq in H; auto].
    apply orb_true_iff in H as [H|H]; [|apply andb_true_iff in H as (H1 & H2); apply N.leb_le in H1, H2; lia].
    apply orb_true_iff in H as [H|H]; apply andb_true_iff in H as (H1 & H2); apply N.leb_le in H1, H2; lia.
  - destruct ch as [[] [] [] [] [] [] [] []]; vm_compute in H; try discriminate;
      (split; [reflexivity|split; discriminate]).
Qed.
Lemma letter_alpha : forall ch, letter ch <-> is_alpha ch = true.
Proof.
  intros ch. unfold letter, is_alpha. rewrite orb_true_iff, !andb_true_iff, !N.leb_le. tauto.
Qed.
Lemma name_char : forall ch, letter ch \/ digit ch \/ ch = "_" -> is_label_char ch = true.
Proof.
  intros ch H. unfold is_label_char, is_alnum. destruct H as [H|[H|H]].
  - apply letter_alpha in H. rewrite H. reflexivity.
  - unfold digit in H. unfold is_decimal. rewrite !orb_true_iff, !andb_true_iff, !N.leb_le. tauto.
  - subst; reflexivity.
Qed.

Lemma skip_label_spec : forall n c pc, (List.length (rest c) < n)%nat ->
  exists p c', skip_label n (c, pc) = Ok (c', pc) /\ moves c p c' /\
    Forall (fun ch => is_label_char ch = true) p /\ is_label_char (peek (rest c')) = false.
Proof.
  induction n as [|n IH]; intros c pc Hn; [lia|]. cbn [skip_label fst].
  destruct (is_label_char (peek (rest c))) eqn:E.
  - assert (Hr : rest c <> []) by (intros HX; rewrite HX in E; discriminate).
    destruct (advance_spec c pc Hr) as (ch & c1 & A & M & P). rewrite A. cbn [bind]. rewrite P in E.
    assert (B : bump_pc ch pc = pc).
    { unfold bump_pc. destruct (label_char_facts _ E) as (_ & -> & _). reflexivity. }
    rewrite B. destruct (IH c1 pc) as (p & c' & H & M' & F & T).
    { apply moves_length in M. cbn in M. lia. }
    exists (ch :: p), c'. split; [exact H|]. split; [apply (moves_trans _ [ch] _ _ _ M M')|]. split; auto.
  - exists [], c. split; [reflexivity|]. split; [apply moves_refl|]. split; auto.
Qed.

Lemma name_chars_semis : forall p, Forall (fun ch => is_label_char ch = true) p ->
  semis p = O /\ ~ In LF p /\ ~ In ":" p.
Proof.
  intros p F. induction F as [|ch p H F (I1 & I2 & I3)]; [repeat split; auto|].
  destruct (label_char_facts _ H) as (_ & S & NL & NC). cbn [semis]. rewrite S.
  split; [exact I1|]. split; intros [X|X]; auto.
Qed.

(** Two runs of name characters followed by ':' at the same place are equal. *)
Lemma name_run_unique : forall a b x y,
  Forall (fun ch => is_label_char ch = true) a -> Forall (fun ch => is_label_char ch = true) b ->
  is_label_char (peek x) = false -> a ++ x = b ++ ":" :: y -> a = b /\ x = ":" :: y.
Proof.
  induction a as [|ch a IH]; intros b x y Fa Fb Hx E.
  - cbn in E. destruct b as [|ch b]; [auto|]. subst x. cbn in Hx. inversion Fb; subst. congruence.
  - destruct b as [|ch' b]; cbn in E; injection E as -> E.
    + inversion Fa; subst. discriminate.
    + inversion Fa; inversion Fb; subst. destruct (IH b x y) as (-> & ->); auto.
Qed.

(** ** Correctness of the label scan, for texts without NUL. *)

Definition scanned (code p : text) (ls : labels) : Prop :=
  forall name,
    match find_label ls name with
    | Some v => exists p1, defines code p1 name /\ (List.length p1 < List.length p)%nat /\
        v = addr (semis p1) /\ forall p2, defines code p2 name -> (List.length p1 <= List.length p2)%nat
    | None => forall p2, defines code p2 name -> (List.length p <= List.length p2)%nat
    end.

Lemma text_eqb_eq : forall a b, text_eqb a b = true <-> a = b.
Proof.
  induction a as [|x a IH]; intros [|y b]; cbn; split; try discriminate; auto.
  - intros H. apply andb_true_iff in H as (H1 & H2). apply Ascii.eqb_eq in H1. apply IH in H2. congruence.
  - intros [= -> ->]. rewrite Ascii.eqb_refl. apply IH. reflexivity.
Qed.
Lemma text_eqb_refl : forall a, text_eqb a a = true.
Proof. intros a; apply text_eqb_eq; reflexivity. Qed.

Lemma find_insert : forall ls n v m, find_label (insert_label ls n v) m =
  match find_label ls m with Some w => Some w | None => if text_eqb n m then Some v else None end.
Proof.
  intros ls n v m. unfold insert_label. destruct (find_label ls n) as [w|] eqn:E.
  - destruct (find_label ls m) eqn:E2; [reflexivity|]. destruct (text_eqb n m) eqn:T; [|reflexivity].
    apply text_eqb_eq in T. congruence.
  - cbn [find_label]. destruct (text_eqb n m) eqn:T.
    + apply text_eqb_eq in T. subst m. rewrite E. reflexivity.
    + destruct (find_label ls m); reflexivity.
Qed.

(** A prefix of the same text is determined by its length. *)
Lemma prefix_eq : forall (p1 p2 x y : text), p1 ++ x = p2 ++ y ->
  List.length p1 = List.length p2 -> p1 = p2 /\ x = y.
Proof.
  induction p1 as [|a p1 IH]; intros [|b p2] x y H L; cbn in *; try discriminate; auto.
  injection H as -> H. injection L as L. destruct (IH _ _ _ H L) as (-> & ->). auto.
Qed.
Lemma prefix_split : forall (p1 p2 x y : text), p1 ++ x = p2 ++ y ->
  (List.length p1 <= List.length p2)%nat -> exists z, p2 = p1 ++ z /\ x = z ++ y.
Proof.
  induction p1 as [|a p1 IH]; intros p2 x y H L; cbn in *; [eauto|].
  destruct p2 as [|b p2]; cbn in L; [lia|]. injection H as -> H.
  destruct (IH p2 x y H) as (z & -> & ->); [lia|]. exists z; auto.
Qed.

(** No line starts strictly inside a line. *)
Lemma inside_line : forall code p p0 ch r p2, code = p ++ (p0 ++ [ch]) ++ r -> ~ In LF p0 ->
  line_start p2 -> (exists y, code = p2 ++ y) -> (List.length p < List.length p2)%nat ->
  (List.length p + List.length (p0 ++ [ch]) <= List.length p2)%nat.
Proof.
  intros code p p0 ch r p2 E F LS (y & E2) L.
  destruct (Nat.le_gt_cases (List.length p + List.length (p0 ++ [ch])) (List.length p2)) as [C|C]; auto.
  exfalso. destruct LS as [->|(p' & ->)]; [cbn in L; lia|].
  change (ascii_of_N 10) with LF in *.
  rewrite app_length in L, C. rewrite app_length in C. cbn in L, C.
  assert (E3 : p ++ (p0 ++ [ch] ++ r) = p' ++ (LF :: y)).
  { rewrite <- app_assoc in E. cbn in E |- *. rewrite <- E, E2, <- app_assoc. reflexivity. }
  destruct (prefix_split _ _ _ _ E3) as (z & -> & E4); [lia|].
  rewrite app_length in C.
  assert (E5 : p0 ++ (ch :: r) = z ++ (LF :: y)) by exact E4. symmetry in E5.
  destruct (prefix_split _ _ _ _ E5) as (z2 & Ez & E6); [lia|].
  destruct z2 as [|c z2].
  - rewrite app_nil_r in Ez. subst z. lia.
  - cbn in E6. injection E6 as <- _. apply F. rewrite Ez. apply in_or_app. right; left; reflexivity.
Qed.

Lemma defines_prefix : forall code p name, defines code p name -> exists y, code = p ++ y.
Proof. intros code p name (_ & _ & q & ->). eexists; reflexivity. Qed.
Lemma label_name_chars : forall name, label_name name ->
  name <> [] /\ is_alpha (peek name) = true /\ Forall (fun ch => is_label_char ch = true) name.
Proof.
  intros name (ch & s & -> & L & F). split; [discriminate|]. split; [apply letter_alpha; exact L|].
  constructor; [apply name_char; auto|]. eapply Forall_impl; [|exact F]. intros a; apply name_char.
Qed.
Lemma chars_label_name : forall name, is_alpha (peek name) = true ->
  Forall (fun ch => is_label_char ch = true) name -> label_name name.
Proof.
  intros [|ch s] A F; [discriminate|]. inversion F; subst. exists ch, s. split; [reflexivity|].
  split; [apply letter_alpha; exact A|]. eapply Forall_impl; [|eassumption].
  intros a Ha; apply label_char_facts; exact Ha.
Qed.

(** One step of the scan: from [p] to [p ++ line]. *)
Lemma scanned_step : forall code p ls line r p0 ch,
  line_start p -> code = p ++ line ++ r -> line = p0 ++ [ch] -> ~ In LF p0 ->
  scanned code p ls ->
  (forall name, ~ defines code p name) ->
  scanned code (p ++ line) ls.
Proof.
  intros code p ls line r p0 ch LS E EL F S ND name. specialize (S name).
  destruct (find_label ls name) as [v|].
  - destruct S as (p1 & D & L & V & M). exists p1. split; [exact D|]. split; [rewrite app_length; lia|]. auto.
  - intros p2 D. pose proof (S _ D) as L. rewrite app_length.
    destruct (Nat.eq_dec (List.length p) (List.length p2)) as [EQ|NE].
    + exfalso. destruct (defines_prefix _ _ _ D) as (y & E2).
      destruct (prefix_eq p p2 (line ++ r) y) as (<- & _); [congruence|exact EQ|]. eapply ND; eauto.
    + subst line. eapply inside_line; eauto; [apply D|apply (defines_prefix _ _ _ D)|lia].
Qed.
Lemma scanned_define : forall code p ls line r p0 ch name,
  line_start p -> code = p ++ line ++ r -> line = p0 ++ [ch] -> ~ In LF p0 ->
  scanned code p ls -> defines code p name -> 
  (forall name', defines code p name' -> name' = name) ->
  scanned code (p ++ line) (insert_label ls name (addr (semis p))).
Proof.
  intros code p ls line r p0 ch name LS E EL F S DN U name'. specialize (S name').
  rewrite find_insert. destruct (find_label ls name') as [v|].
  - destruct S as (p1 & D & L & V & M). exists p1. split; [exact D|]. split; [rewrite app_length; lia|]. auto.
  - destruct (text_eqb name name') eqn:T.
    + apply text_eqb_eq in T. subst name'. exists p. split; [exact DN|].
      split; [rewrite app_length; subst line; rewrite app_length; cbn; lia|]. split; [reflexivity|].
      exact S.
    + intros p2 D. pose proof (S _ D) as L. rewrite app_length.
      destruct (Nat.eq_dec (List.length p) (List.length p2)) as [EQ|NE].
      * exfalso. destruct (defines_prefix _ _ _ D) as (y & E2).
        destruct (prefix_eq p p2 (line ++ r) y) as (<- & _); [congruence|exact EQ|].
        rewrite (U _ D), text_eqb_refl in T. discriminate.
      * subst line. eapply inside_line; eauto; [apply D|apply (defines_prefix _ _ _ D)|lia].
Qed.

(** The last line is a bare identifier reaching the end of the text. *)
Definition bare_last_line (code : text) : Prop :=
  exists p name, code = p ++ name /\ line_start p /\ label_name name.

Lemma labels_loop_spec : forall code n p c ls,
  ~ In NUL code -> code = p ++ rest c -> (line_start p \/ rest c = []) -> 0 <= col c ->
  (List.length (rest c) < n)%nat -> scanned code p ls ->
  (exists ls', generate_labels_loop n (c, addr (semis p)) ls = Ok ls' /\ scanned code code ls' /\
     ~ (exists p2 name, code = p2 ++ name /\ line_start p2 /\ label_name name /\ (List.length p <= List.length p2)%nat)) \/
  (generate_labels_loop n (c, addr (semis p)) ls = Undef UB_read_past_nul /\ bare_last_line code).
Proof.
  intros code; induction n as [|n IH]; intros p c ls HN E LS HC Hn SC; [lia|].
  cbn [generate_labels_loop fst].
  assert (HNc : ~ In NUL (rest c)) by (intros X; apply HN; rewrite E; apply in_or_app; auto).
  destruct (rest c) as [|a r] eqn:ER.
  { cbn. left. exists ls. split; [reflexivity|]. rewrite app_nil_r in E. subst p. split; [exact SC|].
    intros (p2 & name & E2 & _ & LN & L). apply label_name_chars in LN as (NN & _ & _).
    rewrite E2, app_length in L. destruct name; [congruence|cbn in L; lia]. }
  assert (Hr : rest c <> []) by congruence.
  assert (LSp : line_start p) by (destruct LS as [LS|LS]; [exact LS|congruence]).
  cbn [peek]. replace (Ascii.eqb a NUL) with false.
  2:{ symmetry. apply Ascii.eqb_neq. intros ->. apply HNc. left; reflexivity. }
  assert (NAME : forall name, defines code p name -> exists q, a :: r = name ++ ":" :: q /\ label_name name).
  { intros name (_ & LN & q & E2). exists q. split; [|exact LN]. rewrite E in E2. apply app_inv_head in E2. exact E2. }
  (* no bare identifier starts inside a line that ends before the end of the text *)
  assert (BARE : forall line r' p0 ch, code = p ++ line ++ r' -> line = p0 ++ [ch] -> ~ In LF p0 ->
     ~ (exists name, code = p ++ name /\ label_name name) ->
     ~ (exists p2 name, code = p2 ++ name /\ line_start p2 /\ label_name name /\ (List.length (p ++ line) <= List.length p2)%nat) ->
     ~ (exists p2 name, code = p2 ++ name /\ line_start p2 /\ label_name name /\ (List.length p <= List.length p2)%nat)).
  { intros line r' p0 ch El Eq F N1 N2 (p2 & name & E2 & LS2 & LN & L).
    destruct (Nat.eq_dec (List.length p) (List.length p2)) as [EQ|NE].
    - destruct (prefix_eq p p2 (a :: r) name) as (<- & _); [congruence|exact EQ|]. apply N1; eauto.
    - apply N2. exists p2, name. repeat (split; auto). rewrite app_length. subst line.
      eapply (inside_line code p p0 ch r'); eauto. lia. }
  destruct (is_alpha a) eqn:EA; cbn [negb].
  - (* an identifier *)
    assert (Hn1 : (List.length (rest c) < Datatypes.S (List.length (a :: r)))%nat) by (rewrite ER; lia).
    destruct (skip_label_spec _ c (addr (semis p)) Hn1) as (name & c1 & SK & M1 & F1 & T1).
    rewrite SK. cbn [bind]. pose proof (moves_between _ _ _ M1) as BW. rewrite BW.
    assert (LN : label_name name).
    { apply chars_label_name; [|exact F1]. destruct M1 as (R1 & _). rewrite ER in R1.
      destruct name as [|x name]; [|cbn in R1; injection R1 as -> _; exact EA].
      exfalso. cbn in R1. rewrite <- R1 in T1. cbn in T1. unfold is_label_char, is_alnum in T1. rewrite EA in T1. discriminate. }
    destruct (name_chars_semis _ F1) as (SN & NLF & _).
    pose proof M1 as (R1 & _ & C1). rewrite ER in R1.
    destruct (rest c1) as [|b r1] eqn:ER1.
    { right. cbn [peek]. replace (Ascii.eqb NUL ":") with false by reflexivity. cbn [next_line].
      rewrite advance_end by exact ER1. cbn [bind]. split; [reflexivity|].
      exists p, name. rewrite app_nil_r in R1. rewrite R1 in E. auto. }
    assert (Hr1 : rest c1 <> []) by congruence.
    assert (HC1 : 0 <= col c1).
    { rewrite C1. clear -HC. revert HC. generalize (col c). induction name as [|x name IHn]; intros z Hz; cbn; [exact Hz|].
      apply IHn. unfold adv_col. destruct (Ascii.eqb x TAB); [lia|]. destruct (Ascii.eqb x LF); lia. }
    destruct (next_line_spec (Datatypes.S (List.length (a :: r))) c1 (semis p)) as
      (q & c2 & NL & M2 & Nq & HC2 & p0 & ch & Eq & F2 & T2); auto.
    { apply (f_equal (@List.length ascii)) in R1. rewrite app_length in R1. rewrite ER1. lia. }
    { rewrite ER1. intros X. apply HNc. rewrite R1. apply in_or_app; auto. }
    rewrite NL. cbn [bind].
    pose proof (moves_trans _ _ _ _ _ M1 M2) as (R2 & _ & _). rewrite ER in R2.
    assert (SQ : (semis q + semis p = semis (p ++ name ++ q))%nat) by (rewrite !semis_app, SN; lia).
    rewrite SQ.
    assert (E2 : code = p ++ (name ++ q) ++ rest c2) by (rewrite E, R2; reflexivity).
    assert (EL : name ++ q = (name ++ p0) ++ [ch]) by (rewrite Eq; apply app_assoc).
    assert (FL : ~ In LF (name ++ p0)) by (intros X; apply in_app_or in X as [X|X]; auto).
    assert (NB : ~ (exists name', code = p ++ name' /\ label_name name')).
    { intros (name' & E3 & LN'). apply label_name_chars in LN' as (_ & _ & F3).
      rewrite E, R1 in E3. apply app_inv_head in E3.
      assert (X : In b name') by (rewrite <- E3; apply in_or_app; right; left; reflexivity).
      rewrite Forall_forall in F3. apply F3 in X. cbn in T1. congruence. }
    match goal with |- context [generate_labels_loop n _ ?L] => set (ls1 := L) end.
    assert (S1 : scanned code (p ++ name ++ q) ls1).
    { unfold ls1. cbn [peek]. destruct (Ascii.eqb b ":") eqn:EB.
      - apply Ascii.eqb_eq in EB. subst b. eapply scanned_define; eauto.
        + split; [exact LSp|]. split; [exact LN|]. exists r1. rewrite E, R1. reflexivity.
        + intros name' D. apply NAME in D as (q' & E3 & LN'). rewrite R1 in E3.
          apply label_name_chars in LN' as (_ & _ & F3).
          destruct (name_run_unique name name' (":" :: r1) q') as (-> & _); auto.
      - eapply scanned_step; eauto. intros name' D. apply NAME in D as (q' & E3 & LN').
        rewrite R1 in E3. apply label_name_chars in LN' as (_ & _ & F3).
        destruct (name_run_unique name name' (b :: r1) q') as (_ & X); auto. injection X as -> _. discriminate. }
    destruct (IH (p ++ name ++ q) c2 ls1) as [(ls' & G1 & G2 & G3)|(G1 & G2)]; auto.
    + rewrite E, R2, <- !app_assoc. reflexivity.
    + destruct T2 as [->|T2]; [left|right; exact T2].
      right. exists (p ++ name ++ p0). rewrite Eq, <- !app_assoc. reflexivity.
    + apply (f_equal (@List.length ascii)) in R2. rewrite app_length in R2.
      assert (0 < List.length (name ++ q))%nat by (rewrite app_length; destruct q; [congruence|cbn; lia]). lia.
    + left. exists ls'. split; [exact G1|]. split; [exact G2|]. eapply BARE; eauto.
  - (* another line *)
    destruct (next_line_spec (Datatypes.S (List.length (a :: r))) c (semis p)) as
      (q & c2 & NL & M2 & Nq & HC2 & p0 & ch & Eq & F2 & T2); auto.
    { rewrite ER. lia. }
    { rewrite ER. exact HNc. }
    rewrite NL. cbn [bind]. pose proof M2 as (R2 & _ & _). rewrite ER in R2.
    assert (SQ : (semis q + semis p = semis (p ++ q))%nat) by (rewrite !semis_app; lia). rewrite SQ.
    assert (E2 : code = p ++ q ++ rest c2) by (rewrite E, R2; reflexivity).
    assert (S1 : scanned code (p ++ q) ls).
    { eapply scanned_step; eauto. intros name D. apply NAME in D as (q' & E3 & LN).
      apply label_name_chars in LN as (NN & A & _). destruct name; [congruence|]. cbn in E3, A. injection E3 as <- _. congruence. }
    destruct (IH (p ++ q) c2 ls) as [(ls' & G1 & G2 & G3)|(G1 & G2)]; auto.
    + rewrite E, R2, <- !app_assoc. reflexivity.
    + destruct T2 as [->|T2]; [left|right; exact T2].
      right. exists (p ++ p0). rewrite Eq, <- !app_assoc. reflexivity.
    + apply (f_equal (@List.length ascii)) in R2. rewrite app_length in R2.
      destruct q; [congruence|cbn in R2, Hn; lia].
    + left. exists ls'. split; [exact G1|]. split; [exact G2|]. eapply BARE; eauto.
      intros (name' & E3 & LN'). apply label_name_chars in LN' as (NN & A & _).
      rewrite E in E3. apply app_inv_head in E3. subst name'. cbn in A. congruence.
Qed.

(** The label table of a text: first definitions, with their addresses. *)
Theorem generate_labels_spec : forall code, ~ In NUL code ->
  (exists ls, generate_labels code = Ok ls /\ ~ bare_last_line code /\
     forall name v, find_label ls name = Some v <->
       exists p, first_defines code p name /\ v = addr (semis p)) \/
  (generate_labels code = Undef UB_read_past_nul /\ bare_last_line code).
Proof.
  intros code HN. unfold generate_labels. change 8 with (addr (semis [])).
  destruct (labels_loop_spec code (Datatypes.S (List.length code)) [] (Cursor code 0 0) []) as
    [(ls & G & SC & B)|(G & B)]; auto.
  - left; left; reflexivity.
  - cbn; lia.
  - intros name p2 _. cbn; lia.
  - left. exists ls. split; [exact G|]. split.
    { intros (p & name & E & LS & LN). apply B. exists p, name. repeat (split; auto). cbn; lia. }
    intros name v. specialize (SC name). split.
    + intros F. rewrite F in SC. destruct SC as (p & D & _ & V & M). exists p. split; [split; auto|exact V].
    + intros (p & (D & M) & V). destruct (find_label ls name) as [w|].
      * destruct SC as (p1 & D1 & _ & V1 & M1). specialize (M _ D1). specialize (M1 _ D).
        destruct (defines_prefix _ _ _ D) as (y & E). destruct (defines_prefix _ _ _ D1) as (y1 & E1).
        destruct (prefix_eq p p1 y y1) as (<- & _); [congruence|lia|]. congruence.
      * exfalso. specialize (SC _ D). destruct D as (_ & _ & q & E). rewrite E, app_length in SC.
        rewrite app_length in SC. cbn in SC. lia.
Qed.
