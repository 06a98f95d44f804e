(** * Opts: option lines are read as they are written and settle as specified. *)
From Verif Require Import Base Float Lexer Operand Catalogue Table Parse Assemble Spec SpecOperand SpecInsn SpecOpts Bits LexFacts
  SchedFuel Param Reach ParseFacts Outcomes Decode Program Operands Stream.
From Coq Require Import Lia.
Local Open Scope string_scope.
Local Open Scope list_scope.
Open Scope Z_scope.

(** What one option does to the settings; [None]: the type is already given. *)
Definition apply_setting (s : setting) (o : options) : option options :=
  match s with
  | SType k ty =>
      match o_type o with
      | Some _ => None
      | None => Some (Options (Some ty) (o_dksh o || k) (o_num_gprs o) (o_local o) (o_dims o) (o_shared o))
      end
  | SGroup x y z => Some (Options (o_type o) (o_dksh o) (o_num_gprs o) (o_local o) (u32_of_Z x, u32_of_Z y, u32_of_Z z) (o_shared o))
  | SShared z => Some (Options (o_type o) (o_dksh o) (o_num_gprs o) (o_local o) (o_dims o) (s32_of_Z z))
  | SLocal z => Some (Options (o_type o) (o_dksh o) (o_num_gprs o) (s32_of_Z z) (o_dims o) (o_shared o))
  | SIgnored _ => Some o
  end.
Fixpoint apply_settings (l : list setting) (o : options) : option options :=
  match l with
  | [] => Some o
  | s :: l => match apply_setting s o with Some o => apply_settings l o | None => None end
  end.

(** ** Lines *)

Lemma lines_le : forall p n, n <= lines p n.
Proof.
  induction p as [|ch p IH]; intros n; cbn; [lia|]. specialize (IH (adv_line ch n)). unfold adv_line in *.
  destruct (Ascii.eqb _ _); lia.
Qed.
Lemma moves_line : forall c p c', moves c p c' -> line c <= line c'.
Proof. intros c p c' (_ & -> & _). apply lines_le. Qed.
Lemma token_line : forall c t c', tokenize c = Ok (t, c') -> line c <= t_line t <= line c'.
Proof.
  intros c t c' H. apply tokenize_spec in H as (q & cq & b & M1 & M2 & -> & _). apply moves_line in M1, M2. lia.
Qed.

(** ** One option *)

Lemma type_name : forall t ty, program_type t = Some ty <-> exists n, In (n, ty) type_names /\ kind t = id n.
Proof.
  intros t ty. unfold program_type. split.
  - intros H.
    repeat match type of H with
    | context [equal t ?n] => let E := fresh in destruct (equal t n) eqn:E; [apply equal_iff in E|]; cbn [orb] in H
    end; try discriminate; injection H as <-; eexists; (split; [|eassumption]); cbn; tauto.
  - intros (n & I & K). unfold equal. rewrite K. cbn in I.
    repeat match goal with X : _ \/ _ |- _ => destruct X as [X|X] end; try contradiction; injection I as <- <-; reflexivity.
Qed.

(** The arguments [ts] of the option [t]. *)
Definition arguments (t : token) (c : cursor) (s : setting) (t1 : token) (c1 : cursor) : Prop :=
  exists ts, tokens c ts c1 /\ t1 = last ts t /\ written s (map kind (t :: ts)) /\
    (one_line s -> Forall (fun u => t_line u = t_line t) ts).

Lemma parse_type_ok : forall t c o t1 c1 o1 k, kind t = id (if k : bool then ".dksh" else ".type") ->
  (parse_type (t_line t) t c o = Ok (t1, c1, o1) <->
   exists ty, arguments t c (SType k ty) t1 c1 /\ o_type o = None /\
     o1 = Options (Some ty) (o_dksh o) (o_num_gprs o) (o_local o) (o_dims o) (o_shared o)).
Proof.
  intros t c o t1 c1 o1 k K. unfold parse_type. split.
  - destruct (o_type o); [discriminate|]. intros H. inv_bind H. destruct x as (u, c2). unfold check_option_line in H.
    destruct (Z.eqb_spec (t_line u) (t_line t)); [|discriminate]. cbn [bind] in H.
    destruct (program_type u) as [ty|] eqn:P; [|destruct (string_is_active _); discriminate].
    injection H as <- <- <-. exists ty. split; [|split; reflexivity]. apply type_name in P as (n & I & KN).
    exists [u]. split; [econstructor; [exact Hx|constructor]|]. split; [reflexivity|]. split.
    + cbn [map]. rewrite K, KN. destruct k; constructor; exact I.
    + intros _. repeat constructor. assumption.
  - intros (ty & (ts & TS & -> & W & L) & N & ->). rewrite N.
    assert (E : exists u n, ts = [u] /\ kind u = id n /\ In (n, ty) type_names).
    { destruct ts as [|u [|u2 ts]]; cbn [map] in W; inversion W; subst; exists u; eauto. }
    destruct E as (u & n & -> & KU & I). inversion TS as [|? ? cu ? ? T TN]; subst. inversion TN; subst. rewrite T. cbn [bind].
    specialize (L Logic.I). apply Forall_inv in L. unfold check_option_line. rewrite L, Z.eqb_refl. cbn [bind].
    rewrite (proj2 (type_name u ty)) by eauto. reflexivity.
Qed.

Lemma option_int_ok : forall c m z t c', option_int c m = Ok (z, t, c') <-> tokenize c = Ok (t, c') /\ kind t = TImm z.
Proof.
  intros c m z t c'. unfold option_int. split.
  - intros H. inv_bind H. destruct x as (u, c1). destruct (kind u) eqn:K; try discriminate. injection H as <- <- <-. auto.
  - intros (T & K). rewrite T. cbn [bind]. rewrite K. reflexivity.
Qed.

Definition option_body (t : token) (c : cursor) (o : options) : res (token * cursor * options) :=
  let option_line := t_line t in
  if equal t ".dksh" then
    parse_type option_line t c
      (Options (o_type o) true (o_num_gprs o) (o_local o) (o_dims o) (o_shared o))
  else if equal t ".type" then parse_type option_line t c o
  else if equal t ".num_gprs" then
    let* (t, c) := tokenize c in
    match kind t with
    | TImm _ => fatal_error t "expected number of general purpose registers"
    | _ => Undef UB_inactive_union
    end
  else if equal t ".workgroup_size" then
    let* (x, _, c) := option_int c "expected workgroup sizes" in
    let* (y, _, c) := option_int c "expected workgroup sizes" in
    let* (z, t, c) := option_int c "expected workgroup sizes" in
    let* _ := check_option_line option_line t in
    Ok (t, c, Options (o_type o) (o_dksh o) (o_num_gprs o) (o_local o)
                (u32_of_Z x, u32_of_Z y, u32_of_Z z) (o_shared o))
  else if equal t ".shared_memory" then
    let* (z, t, c) := option_int c "expected shared memory size" in
    Ok (t, c, Options (o_type o) (o_dksh o) (o_num_gprs o) (o_local o) (o_dims o) (s32_of_Z z))
  else if equal t ".local_memory" then
    let* (z, t, c) := option_int c "expected local memory size" in
    Ok (t, c, Options (o_type o) (o_dksh o) (o_num_gprs o) (s32_of_Z z) (o_dims o) (o_shared o))
  else Ok (t, c, o).

Lemma parse_option_eq : forall t c o, parse_option t c o =
  let* (t1, c1, o1) := option_body t c o in
  let* (t2, c2) := tokenize c1 in
  if Z.eqb (t_line t) (t_line t2) then fatal_error t2 "expected new line after option" else Ok (t2, c2, o1).
Proof. reflexivity. Qed.

(** The names of options tell them apart. *)
Lemma name_of : forall s k ks, written s (k :: ks) ->
  match s with
  | SType true _ => k = id ".dksh"
  | SType false _ => k = id ".type"
  | SGroup _ _ _ => k = id ".workgroup_size"
  | SShared _ => k = id ".shared_memory"
  | SLocal _ => k = id ".local_memory"
  | SIgnored n => k = TIdent ("."%char :: n) /\ ~ In ("."%char :: n) (map lit known_options)
  end.
Proof. intros s k ks W. inversion W; subst; auto. Qed.

Lemma is_option_iff : forall t, is_option t = true <-> exists n, kind t = TIdent ("."%char :: n).
Proof.
  intros t. unfold is_option. split.
  - destruct (kind t) as [|[|ch s]| | | | | | | | | | | | |]; try discriminate. cbn [peek]. intros H. apply Ascii.eqb_eq in H as ->. eauto.
  - intros (n & ->). reflexivity.
Qed.
Lemma written_option : forall s k ks, written s (k :: ks) -> exists n, k = TIdent ("."%char :: n).
Proof. intros s k ks W. inversion W; subst; unfold id; cbn; eauto. Qed.

Lemma body_ok : forall t c o t1 c1 o1, is_option t = true -> t_line t <= line c ->
  (option_body t c o = Ok (t1, c1, o1) <->
   exists s, arguments t c s t1 c1 /\ apply_setting s o = Some o1).
Proof.
  intros t c o t1 c1 o1 IO LC. unfold option_body. split.
  - intros H.
    destruct (equal t ".dksh") eqn:E1.
    { apply equal_iff in E1. apply (parse_type_ok _ _ _ _ _ _ true E1) in H as (ty & A & N & ->). exists (SType true ty).
      split; [exact A|]. cbn in N |- *. rewrite N, orb_true_r. reflexivity. }
    destruct (equal t ".type") eqn:E2.
    { apply equal_iff in E2. apply (parse_type_ok _ _ _ _ _ _ false E2) in H as (ty & A & N & ->). exists (SType false ty).
      split; [exact A|]. cbn. rewrite N, orb_false_r. reflexivity. }
    destruct (equal t ".num_gprs") eqn:E3.
    { inv_bind H. destruct x as (u, c2). destruct (kind u); discriminate. }
    destruct (equal t ".workgroup_size") eqn:E4.
    { apply equal_iff in E4. inv_bind H. destruct x as ((x, tx), cx). inv_bind H. destruct x0 as ((y, t_y), cy).
      inv_bind H. destruct x0 as ((z, tz), cz). apply option_int_ok in Hx as (TX & KX), Hx0 as (TY & KY), Hx1 as (TZ & KZ).
      unfold check_option_line in H. destruct (Z.eqb_spec (t_line tz) (t_line t)) as [L|]; [|discriminate]. cbn [bind] in H.
      injection H as <- <- <-. exists (SGroup x y z). split; [|reflexivity]. exists [tx; t_y; tz].
      split; [econstructor; [exact TX|]; econstructor; [exact TY|]; econstructor; [exact TZ|constructor]|].
      split; [reflexivity|]. split; [cbn [map]; rewrite E4, KX, KY, KZ; constructor|]. intros _.
      apply token_line in TX, TY, TZ.
      repeat constructor; lia. }
    destruct (equal t ".shared_memory") eqn:E5.
    { apply equal_iff in E5. inv_bind H. destruct x as ((z, u), c2). apply option_int_ok in Hx as (T & KZ). injection H as <- <- <-.
      exists (SShared z). split; [|reflexivity]. exists [u]. split; [econstructor; [exact T|constructor]|]. split; [reflexivity|].
      split; [cbn [map]; rewrite E5, KZ; constructor|intros []]. }
    destruct (equal t ".local_memory") eqn:E6.
    { apply equal_iff in E6. inv_bind H. destruct x as ((z, u), c2). apply option_int_ok in Hx as (T & KZ). injection H as <- <- <-.
      exists (SLocal z). split; [|reflexivity]. exists [u]. split; [econstructor; [exact T|constructor]|]. split; [reflexivity|].
      split; [cbn [map]; rewrite E6, KZ; constructor|intros []]. }
    injection H as <- <- <-. apply is_option_iff in IO as (n & K). exists (SIgnored n). split; [|reflexivity].
    exists []. split; [constructor|]. split; [reflexivity|]. split; [|intros []]. cbn [map]. rewrite K. constructor.
    intros I. cbn [map known_options In] in I.
    repeat match goal with X : equal t _ = false |- _ => apply equal_ne in X; rewrite K in X end.
    unfold id in *. repeat match goal with X : _ \/ _ |- _ => destruct X as [X|X] end; try contradiction; rewrite <- I in *; contradiction.
  - intros (s & (ts & TS & -> & W & L) & A). cbn [map] in W. pose proof (name_of _ _ _ W) as NM.
    destruct s as [k ty|x y z|z|z|n].
    + destruct k.
      * rewrite (equal_true _ _ NM). apply (parse_type_ok _ _ _ _ _ _ true NM). exists ty. split; [exists ts; auto|].
        cbn in A |- *. destruct (o_type o); [discriminate|]. injection A as <-. rewrite orb_true_r. auto.
      * rewrite (equal_false t ".dksh"), (equal_true t ".type") by (rewrite NM; discriminate || reflexivity).
        apply (parse_type_ok _ _ _ _ _ _ false NM). exists ty. split; [exists ts; auto|].
        cbn in A |- *. destruct (o_type o); [discriminate|]. injection A as <-. rewrite orb_false_r. auto.
    + do 3 rewrite equal_false by (rewrite NM; discriminate). rewrite (equal_true t ".workgroup_size") by exact NM.
      assert (E : exists tx t_y tz, ts = [tx; t_y; tz] /\ kind tx = TImm x /\ kind t_y = TImm y /\ kind tz = TImm z).
      { destruct ts as [|tx [|t_y [|tz [|]]]]; cbn [map] in W; inversion W; subst; eauto 8. }
      destruct E as (tx & t_y & tz & -> & EX & EY & EZ).
      inversion TS as [|? ? c2 ? ? T1 TS2]; subst. inversion TS2 as [|? ? c3 ? ? T2 TS3]; subst. inversion TS3 as [|? ? c4 ? ? T3 TS4]; subst.
      inversion TS4; subst.
      rewrite (proj2 (option_int_ok _ _ x tx c2)) by auto. cbn [bind]. rewrite (proj2 (option_int_ok _ _ y t_y c3)) by auto. cbn [bind].
      rewrite (proj2 (option_int_ok _ _ z tz c1)) by auto. cbn [bind]. specialize (L Logic.I).
      apply Forall_inv_tail, Forall_inv_tail, Forall_inv in L. unfold check_option_line. rewrite L, Z.eqb_refl. cbn [bind].
      injection A as <-. reflexivity.
    + do 4 rewrite equal_false by (rewrite NM; discriminate). rewrite (equal_true t ".shared_memory") by exact NM.
      assert (E : exists u, ts = [u] /\ kind u = TImm z).
      { destruct ts as [|u [|]]; cbn [map] in W; inversion W; subst; eauto. }
      destruct E as (u & -> & E).
      inversion TS as [|? ? c2 ? ? T1 TS2]; subst. inversion TS2; subst.
      rewrite (proj2 (option_int_ok _ _ z u c1)) by auto. cbn [bind]. injection A as <-. reflexivity.
    + do 5 rewrite equal_false by (rewrite NM; discriminate). rewrite (equal_true t ".local_memory") by exact NM.
      assert (E : exists u, ts = [u] /\ kind u = TImm z).
      { destruct ts as [|u [|]]; cbn [map] in W; inversion W; subst; eauto. }
      destruct E as (u & -> & E).
      inversion TS as [|? ? c2 ? ? T1 TS2]; subst. inversion TS2; subst.
      rewrite (proj2 (option_int_ok _ _ z u c1)) by auto. cbn [bind]. injection A as <-. reflexivity.
    + destruct NM as (NM & NI). assert (ts = []) as -> by (destruct ts; cbn [map] in W; inversion W; reflexivity). inversion TS; subst.
      repeat rewrite equal_false by (rewrite NM; intros E; injection E as E; apply NI; rewrite E; cbn; tauto).
      injection A as <-. reflexivity.
Qed.

(** ** Option lists *)

Lemma parse_option_ok : forall t c o t2 c2 o1, is_option t = true -> t_line t <= line c ->
  (parse_option t c o = Ok (t2, c2, o1) <->
   exists s ts c1, tokens c ts c1 /\ written s (map kind (t :: ts)) /\ (one_line s -> Forall (fun u => t_line u = t_line t) ts) /\
     apply_setting s o = Some o1 /\ tokenize c1 = Ok (t2, c2) /\ t_line t2 <> t_line t).
Proof.
  intros t c o t2 c2 o1 IO LC. rewrite parse_option_eq. split.
  - intros H. inv_bind H. destruct x as ((t1, c1), o'). apply (body_ok _ _ _ _ _ _ IO LC) in Hx as (s & (ts & TS & -> & W & L) & A).
    inv_bind H. destruct x as (u, c3). destruct (Z.eqb_spec (t_line t) (t_line u)) as [|NL]; [discriminate|]. injection H as <- <- <-.
    exists s, ts, c1. repeat split; auto.
  - intros (s & ts & c1 & TS & W & L & A & T & NL).
    rewrite (proj2 (body_ok t c o (last ts t) c1 o1 IO LC)) by (exists s; split; [exists ts|]; auto). cbn [bind].
    rewrite T. cbn [bind]. destruct (Z.eqb_spec (t_line t) (t_line t2)); [congruence|reflexivity].
Qed.

Lemma options_forward : forall n c0 t c o t' c' o', tokenize c0 = Ok (t, c) -> parse_options n t c o = Ok (t', c', o') ->
  exists l c1, options_at c0 l c1 /\ tokenize c1 = Ok (t', c') /\ is_option t' = false /\ apply_settings l o = Some o'.
Proof.
  induction n as [|n IH]; intros c0 t c o t' c' o' T H; [discriminate|]. cbn [parse_options] in H.
  destruct (is_option t) eqn:IO.
  - inv_bind H. destruct x as ((t2, c2), o1). pose proof (token_line _ _ _ T) as TL.
    apply parse_option_ok in Hx as (s & ts & c1 & TS & W & L & A & T2 & NL); [|exact IO|lia].
    destruct (IH _ _ _ _ _ _ _ T2 H) as (l & c3 & O & T3 & N & AL).
    exists (s :: l), c3. split; [|split; [exact T3|split; [exact N|cbn [apply_settings]; rewrite A; exact AL]]].
    eapply options_one; [econstructor; [exact T|exact TS]|exact W|exact L|exact T2|exact NL|exact O].
  - injection H as <- <- <-. exists [], c0. split; [constructor|]. auto.
Qed.
Lemma options_backward : forall c0 l c1 t' c' o o', options_at c0 l c1 -> tokenize c1 = Ok (t', c') -> is_option t' = false ->
  apply_settings l o = Some o' -> forall t c, tokenize c0 = Ok (t, c) -> exists n, parse_options n t c o = Ok (t', c', o').
Proof.
  intros c0 l c1 t' c' o o' O T' N. revert o.
  induction O as [c0|c0 s t ts c1 t2 c2 l c3 TS W L T2 NL O IH]; intros o A u c T.
  - rewrite T' in T. injection T as <- <-. injection A as <-. exists 1%nat. cbn [parse_options]. rewrite N. reflexivity.
  - inversion TS as [|? ? cx ? ? T0 TS']; subst. rewrite T0 in T. injection T as <- <-. cbn [apply_settings] in A.
    destruct (apply_setting s o) as [o1|] eqn:E; [|discriminate]. destruct (IH T' o1 A _ _ T2) as (n & P).
    assert (IO : is_option t = true) by (apply is_option_iff; exact (written_option _ _ _ W)).
    pose proof (token_line _ _ _ T0) as TL.
    exists (S n). cbn [parse_options]. rewrite IO.
    rewrite (proj2 (parse_option_ok t cx o t2 c2 o1 IO ltac:(lia))); [exact P|]. exists s, ts, c1. repeat split; auto.
Qed.
Lemma options_rejected : forall c0 l c1 o, options_at c0 l c1 ->
  apply_settings l o = None -> forall t c, tokenize c0 = Ok (t, c) -> exists n d, parse_options n t c o = Fatal d.
Proof.
  intros c0 l c1 o O. revert o.
  induction O as [c0|c0 s t ts c1 t2 c2 l c3 TS W L T2 NL O IH]; intros o A u c T; [discriminate|].
  inversion TS as [|? ? cx ? ? T0 TS']; subst. rewrite T0 in T. injection T as <- <-. cbn [apply_settings] in A.
  assert (IO : is_option t = true) by (apply is_option_iff; exact (written_option _ _ _ W)).
  pose proof (token_line _ _ _ T0) as TL.
  destruct (apply_setting s o) as [o1|] eqn:E.
  - destruct (IH o1 A _ _ T2) as (n & d & P).
    exists (S n), d. cbn [parse_options]. rewrite IO.
    rewrite (proj2 (parse_option_ok t cx o t2 c2 o1 IO ltac:(lia))); [exact P|]. exists s, ts, c1. repeat split; auto.
  - exists 1%nat. eexists. cbn [parse_options]. rewrite IO, parse_option_eq. unfold option_body.
    pose proof (name_of _ _ _ W) as NM. destruct s as [k ty| | | |]; try discriminate. cbn [apply_setting] in E.
    destruct (o_type o) as [ty'|] eqn:OT; [|discriminate]. destruct k.
    + rewrite (equal_true _ _ NM). unfold parse_type. reflexivity.
    + rewrite (equal_false t ".dksh"), (equal_true t ".type") by (rewrite NM; discriminate || reflexivity).
      unfold parse_type. rewrite OT. reflexivity.
Qed.
Lemma options_more : forall n m t c o, (n <= m)%nat -> parse_options n t c o <> OutOfFuel -> parse_options m t c o = parse_options n t c o.
Proof.
  induction n as [|n IH]; intros m t c o L H; [cbn in H; congruence|]. destruct m as [|m]; [lia|]. cbn [parse_options] in *.
  destruct (is_option t); [|reflexivity]. destruct (parse_option t c o) as [((t1, c1), o1)| | | | |]; cbn [bind] in *; try reflexivity.
  apply IH; [lia|exact H].
Qed.
Lemma options_fuel : forall n t c o, parse_options n t c o <> OutOfFuel ->
  parse_options (S (S (List.length (rest c)))) t c o = parse_options n t c o.
Proof.
  intros n t c o H. set (m := (n + S (S (List.length (rest c))))%nat).
  rewrite <- (options_more n m t c o); [|subst m; lia|exact H].
  apply parse_options_fuel; unfold len; subst m; destruct (is_option t); lia.
Qed.

Lemma no_option_iff : forall c, no_option c <-> forall t c2, tokenize c = Ok (t, c2) -> forall n, kind t <> TIdent ("."%char :: n).
Proof.
  intros c. split.
  - intros H t c2 T n K. specialize (H _ _ T). assert (is_option t = true) by (apply is_option_iff; eauto). congruence.
  - intros H t c2 T. destruct (is_option t) eqn:E; [|reflexivity]. apply is_option_iff in E as (n & K). destruct (H _ _ T n K).
Qed.
Lemma options_token : forall c l c1 t' c', options_at c l c1 -> tokenize c1 = Ok (t', c') -> exists t c2, tokenize c = Ok (t, c2) /\
  ((l = [] /\ t = t') \/ is_option t = true).
Proof.
  intros c l c1 t' c' O T. destruct O as [c|c s t ts c1 t2 c2 l c3 TS W L T2 NL O].
  - eauto 8.
  - inversion TS as [|? ? cx ? ? T0 TS']; subst. exists t, cx. split; [exact T0|]. right. apply is_option_iff. exact (written_option _ _ _ W).
Qed.

(** The options of an instruction are read first; the rest of it is read as
    if it stood alone. *)
Theorem instruction_options : forall tbl a ls x op r,
  parse_instruction_with tbl a ls x op = Ok (Some r) <->
  exists l c1 o, options_at (c_cur x) l c1 /\ no_option c1 /\ apply_settings l (c_opts x) = Some o /\
    parse_instruction_with tbl a ls (Ctx c1 (c_pc x) o) op = Ok (Some r).
Proof.
  intros tbl a ls x op (x', op'). rewrite parse_instruction_some. split.
  - intros (t & c & t1 & c1 & o & t2 & c2 & op1 & s & T & NT & O & G & NM & PT & -> & ->).
    destruct (options_forward _ _ _ _ _ _ _ _ T O) as (l & c0 & OA & T1 & N & A).
    exists l, c0, o. split; [exact OA|]. split; [intros u cu TU; rewrite T1 in TU; injection TU as <- <-; exact N|]. split; [exact A|].
    apply parse_instruction_some. exists t1, c1, t1, c1, o, t2, c2, op1, s. split; [exact T1|].
    split; [|split; [cbn [parse_options]; rewrite N; reflexivity|auto]].
    destruct G as [(_ & <- & _)|(tp & cp & K & _)]; [|rewrite K; discriminate]. destruct NM as (n & ->). discriminate.
  - intros (l & c0 & o & OA & N & A & P). apply parse_instruction_some in P as (t & c & t1 & c1 & o1 & t2 & c2 & op1 & s & T & NT & O & G & NM & PT & E & ->).
    cbn [c_cur c_pc c_opts] in *. pose proof (N _ _ T) as NO. cbn [parse_options] in O. rewrite NO in O. injection O as <- <- <-.
    destruct (options_token _ _ _ _ _ OA T) as (u & cu & TU & K).
    destruct (options_backward _ _ _ _ _ _ _ OA T NO A _ _ TU) as (n & PO).
    exists u, cu, t, c, o, t2, c2, op1, s. split; [exact TU|].
    split; [destruct K as [(_ & ->)|K]; [exact NT|exact (is_option_not_none _ K)]|].
    split; [rewrite (options_fuel n); rewrite PO; [reflexivity|discriminate]|]. auto.
Qed.

(** Options with nothing behind them, or a second type. *)
Theorem options_dangling : forall tbl a ls x l c1, options_at (c_cur x) l c1 -> l <> [] ->
  ((exists t c, tokenize c1 = Ok (t, c) /\ kind t = TNone) \/ apply_settings l (c_opts x) = None) ->
  exists d, parse_instruction_with tbl a ls x opcode0 = Fatal d.
Proof.
  intros tbl a ls x l c1 OA NE H.
  assert (TU : exists u cu, tokenize (c_cur x) = Ok (u, cu) /\ is_option u = true).
  { destruct OA as [c|c s t ts c1 t2 c2 l c3 TS W L T2 NL O]; [congruence|].
    inversion TS as [|? ? cx ? ? T0 TS']; subst. exists t, cx. split; [exact T0|]. apply is_option_iff. exact (written_option _ _ _ W). }
  destruct TU as (u & cu & TU & K). rewrite parse_instruction_eq, TU. cbn [bind].
  destruct (ttype_eqb (type_of (kind u)) ty_none) eqn:E; [apply none_type in E; destruct (is_option_not_none _ K E)|].
  unfold rest_of_instruction. destruct (apply_settings l (c_opts x)) as [o|] eqn:A.
  - destruct H as [(t & c & T & KT)|H]; [|discriminate].
    assert (NO : is_option t = false) by (unfold is_option; rewrite KT; reflexivity).
    destruct (options_backward _ _ _ _ _ _ _ OA T NO A _ _ TU) as (n & PO).
    rewrite (options_fuel n), PO by (rewrite PO; discriminate). cbn [bind]. rewrite KT. cbn [type_of ttype_eqb].
    replace (add_bits a opcode0 (shl64 7 16)) with (@Ok opcode (Opcode (shl64 7 16) 0 0)) by (destruct a; reflexivity).
    cbn [bind]. rewrite KT. eexists. reflexivity.
  - destruct (options_rejected _ _ _ _ OA A _ _ TU) as (n & d & PO).
    rewrite (options_fuel n), PO by (rewrite PO; discriminate). eexists. reflexivity.
Qed.

(** ** What a list of options amounts to *)

Definition settles (l : list setting) (o : options) : Prop :=
  (List.length (types l) <= 1)%nat /\ o_type o = hd_error (types l) /\ (o_dksh o = true <-> container l) /\ o_num_gprs o = 8 /\
  o_local o = int32 (latest local_of 0 l) /\ o_shared o = int32 (latest shared_of 0 l) /\
  o_dims o = let '(x, y, z) := latest group_of (1, 1, 1) l in (uint32 x, uint32 y, uint32 z).

Lemma s32_int32 : forall z, s32_of_Z z = int32 z.
Proof.
  intros z. unfold s32_of_Z, int32. change (Z.of_N two32) with 4294967296. change (2 ^ 32) with 4294967296. change (2 ^ 31) with 2147483648.
  change (4294967296 / 2) with 2147483648. pose proof (Z.div_mod z 4294967296 ltac:(lia)). pose proof (Z.mod_pos_bound z 4294967296 ltac:(lia)).
  set (q := z / 4294967296) in *. set (m := z mod 4294967296) in *.
  destruct (Z.ltb_spec m 2147483648).
  - replace ((z + 2147483648) mod 4294967296) with (m + 2147483648); [lia|]. apply (Z.mod_unique_pos _ _ q); lia.
  - replace ((z + 2147483648) mod 4294967296) with (m - 2147483648); [lia|]. apply (Z.mod_unique_pos _ _ (q + 1)); lia.
Qed.

Definition dksh_of (s : setting) : bool := match s with SType k _ => k | _ => false end.
Definition taken (o : options) : nat := match o_type o with Some _ => 1%nat | None => O end.
Definition moved {A B} (f : A -> B) (pick : setting -> option A) (s : setting) : option B := option_map f (pick s).
Definition u32s (p : Z * Z * Z) : N * N * N := let '(x, y, z) := p in (u32_of_Z x, u32_of_Z y, u32_of_Z z).
Lemma latest_moved : forall A B (f : A -> B) pick l d, latest (moved f pick) (f d) l = f (latest pick d l).
Proof.
  intros A B f pick l. unfold latest. induction l as [|s l IH]; intros d; [reflexivity|]. cbn [fold_left]. unfold moved at 2.
  destruct (pick s); cbn [option_map]; apply IH.
Qed.
Lemma apply_settings_iff : forall l o o', apply_settings l o = Some o' <->
  (List.length (types l) + taken o <= 1)%nat /\
  o_type o' = match o_type o with Some ty => Some ty | None => hd_error (types l) end /\
  o_dksh o' = o_dksh o || existsb dksh_of l /\ o_num_gprs o' = o_num_gprs o /\
  o_local o' = latest (moved s32_of_Z local_of) (o_local o) l /\
  o_shared o' = latest (moved s32_of_Z shared_of) (o_shared o) l /\
  o_dims o' = latest (moved u32s group_of) (o_dims o) l.
Proof.
  induction l as [|s l IH]; intros o o'.
  - cbn [apply_settings types flat_map existsb latest fold_left List.length hd_error]. rewrite orb_false_r. unfold latest. cbn [fold_left]. split.
    + intros [= <-]. unfold taken. destruct (o_type o); repeat split; lia.
    + intros (_ & H1 & H2 & H3 & H4 & H5 & H6). destruct o, o'; cbn in *. f_equal. destruct o_type; congruence.
  - cbn [apply_settings]. destruct s as [k ty|x y z|z|z|n]; cbn [apply_setting].
    + destruct (o_type o) as [ty'|] eqn:OT.
      * split; [discriminate|]. intros (H & _). cbn [types flat_map app List.length] in H. unfold taken in H. rewrite OT in H. lia.
      * rewrite IH. unfold taken. rewrite OT. cbn [o_type o_dksh o_num_gprs o_local o_shared o_dims].
        unfold latest. cbn [fold_left existsb dksh_of types flat_map app List.length hd_error moved option_map local_of shared_of group_of]. rewrite orb_assoc.
        fold (types l). split; intros (H & H1); (split; [lia|exact H1]).
    + rewrite IH. unfold taken. reflexivity.
    + rewrite IH. unfold taken. reflexivity.
    + rewrite IH. unfold taken. reflexivity.
    + rewrite IH. unfold taken. reflexivity.
Qed.
Lemma container_iff : forall l, existsb dksh_of l = true <-> container l.
Proof.
  intros l. rewrite existsb_exists. split.
  - intros (s & I & H). destruct s as [[] ty| | | |]; try discriminate. exists ty. exact I.
  - intros (ty & I). exists (SType true ty). auto.
Qed.
Theorem settings_settle : forall l o, apply_settings l options0 = Some o <-> settles l o.
Proof.
  intros l o. rewrite apply_settings_iff. unfold settles, taken. cbn [options0 o_type o_dksh o_num_gprs o_local o_shared o_dims orb].
  change 0 with (s32_of_Z 0) at 1 2. change (1, 1, 1)%N with (u32s (1, 1, 1)). rewrite !latest_moved, !s32_int32, <- container_iff.
  assert (E : u32s (latest group_of (1, 1, 1) l) = let '(x, y, z) := latest group_of (1, 1, 1) l in (uint32 x, uint32 y, uint32 z)).
  { destruct (latest group_of (1, 1, 1) l) as ((x, y), z). reflexivity. }
  rewrite E. split; intros (H1 & H2 & H3 & H); (split; [lia|]; split; [exact H2|]; split; [|exact H]).
  - rewrite H3. reflexivity.
  - destruct (o_dksh o), (existsb dksh_of l); try reflexivity; [symmetry|]; apply H3; reflexivity.
Qed.

(** ** Uniqueness *)

Lemma type_names_fun : forall n ty ty', In (n, ty) type_names -> In (n, ty') type_names -> ty = ty'.
Proof.
  intros n ty ty' H H'. cbn in H, H'.
  repeat match goal with X : _ \/ _ |- _ => destruct X as [X|X] end; try contradiction; congruence.
Qed.
Lemma not_known : forall name s (P : Prop), In s known_options -> ~ In ("."%char :: name) (map lit known_options) -> TIdent ("."%char :: name) = id s -> P.
Proof. intros name s P I N E. injection E as E. destruct N. rewrite E. apply in_map, I. Qed.
Definition arity (s : setting) : nat := match s with SType _ _ => 1 | SGroup _ _ _ => 3 | SShared _ | SLocal _ => 1 | SIgnored _ => 0 end.
Lemma written_arity : forall s k ks, written s (k :: ks) -> List.length ks = arity s.
Proof. intros s k ks W. inversion W; reflexivity. Qed.
Definition same_name (s s' : setting) : Prop :=
  match s, s' with
  | SType k _, SType k' _ => k = k'
  | SGroup _ _ _, SGroup _ _ _ | SShared _, SShared _ | SLocal _, SLocal _ => True
  | SIgnored n, SIgnored n' => n = n'
  | _, _ => False
  end.
Lemma written_name : forall s s' k ks ks', written s (k :: ks) -> written s' (k :: ks') -> same_name s s'.
Proof.
  intros s s' k ks ks' W W'. apply name_of in W, W'.
  destruct s as [[] ?|? ? ?|?|?|?], s' as [[] ?|? ? ?|?|?|?]; cbn [same_name]; auto;
    repeat match goal with X : _ /\ _ |- _ => destruct X end; subst; try discriminate;
    try match goal with
    | N : ~ In _ (map lit known_options), E : TIdent _ = id ?s |- _ => apply (not_known _ s _ ltac:(cbn; tauto) N E)
    | N : ~ In _ (map lit known_options), E : id ?s = TIdent _ |- _ => apply (not_known _ s _ ltac:(cbn; tauto) N (eq_sym E))
    end.
  congruence.
Qed.
Lemma written_len : forall s s' k ks ks', written s (k :: ks) -> written s' (k :: ks') -> List.length ks = List.length ks'.
Proof.
  intros s s' k ks ks' W W'. pose proof (written_name _ _ _ _ _ W W') as N. rewrite (written_arity _ _ _ W), (written_arity _ _ _ W').
  destruct s, s'; try contradiction; reflexivity.
Qed.
Lemma written_det : forall s s' k ks, written s (k :: ks) -> written s' (k :: ks) -> s = s'.
Proof.
  intros s s' k ks W W'. pose proof (written_name _ _ _ _ _ W W') as N.
  destruct s as [b ty|? ? ?|?|?|?], s' as [b' ty'|? ? ?|?|?|?]; try contradiction; cbn [same_name] in N.
  - subst b'. f_equal.
    assert (A : forall u ty, written (SType b ty) u -> exists k n, u = [k; id n] /\ In (n, ty) type_names) by (intros u v X; inversion X; eauto).
    apply A in W as (k1 & n & E & I), W' as (k2 & n' & E' & I'). rewrite E in E'. injection E' as _ E'. apply lit_inj in E' as <-.
    eauto using type_names_fun.
  - assert (A : forall x y z u, written (SGroup x y z) u -> exists k, u = [k; TImm x; TImm y; TImm z]) by (intros x' y' z' u X; inversion X; eauto).
    apply A in W as (k1 & E), W' as (k2 & E'). rewrite E in E'. injection E' as _ -> -> ->. reflexivity.
  - assert (A : forall x u, written (SShared x) u -> exists k, u = [k; TImm x]) by (intros x' u X; inversion X; eauto).
    apply A in W as (k1 & E), W' as (k2 & E'). rewrite E in E'. injection E' as _ ->. reflexivity.
  - assert (A : forall x u, written (SLocal x) u -> exists k, u = [k; TImm x]) by (intros x' u X; inversion X; eauto).
    apply A in W as (k1 & E), W' as (k2 & E'). rewrite E in E'. injection E' as _ ->. reflexivity.
  - congruence.
Qed.
Lemma tokens_det : forall c ts c1 ts' c1', tokens c ts c1 -> tokens c ts' c1' -> List.length ts = List.length ts' -> ts = ts' /\ c1 = c1'.
Proof.
  intros c ts c1 ts' c1' H. revert ts' c1'. induction H as [c|c t c2 ts c1 T H IH]; intros ts' c1' H' L.
  - destruct ts'; [|discriminate]. inversion H'; auto.
  - destruct ts' as [|t' ts']; [discriminate|]. inversion H' as [|? ? c2' ? ? T' H2]; subst. rewrite T in T'. injection T' as <- <-.
    injection L as L. destruct (IH _ _ H2 L) as (-> & ->). auto.
Qed.
Lemma options_det : forall c l c1 l' c1', options_at c l c1 -> no_option c1 -> options_at c l' c1' -> no_option c1' -> l = l' /\ c1 = c1'.
Proof.
  intros c l c1 l' c1' H N. revert l' c1'.
  induction H as [c|c s t ts c1 t2 c2 l c3 TS W L T2 NL O IH]; intros l' c1' H' N'.
  - destruct H' as [c|c s t ts c1 t2 c2 l c3 TS W L T2 NL O]; [auto|]. exfalso. inversion TS as [|? ? cx ? ? T0 TS']; subst.
    apply N in T0. apply written_option in W. apply is_option_iff in W. congruence.
  - inversion H' as [|? s' t' ts' ? ? ? ? ? TS' W' L' T2' NL' O']; subst.
    + exfalso. inversion TS as [|? ? cx ? ? T0 TS']; subst. apply N' in T0. apply written_option in W. apply is_option_iff in W. congruence.
    + inversion TS as [|? ? cx ? ? T0 TSX]; subst. inversion TS' as [|? ? cx' ? ? T0' TSX']; subst. rewrite T0 in T0'. injection T0' as <- <-.
      cbn [map] in W, W'. pose proof (written_len _ _ _ _ _ W W') as LN. rewrite !map_length in LN.
      destruct (tokens_det _ _ _ _ _ TSX TSX' LN) as (<- & <-). rewrite (written_det _ _ _ _ W W') in *.
      destruct (IH N _ _ O' N') as (-> & ->). auto.
Qed.

(** ** Programs *)

Lemma decodes_options : forall a ls x l y, decodes a ls x l y ->
  exists ss, options_before (c_cur x) (map (fun p => c_cur (fst p)) l) ss /\ apply_settings (List.concat ss) (c_opts x) = Some (c_opts y).
Proof.
  intros a ls x l y D. induction D as [x P|x x' op l y P D IH].
  - exists []. split; [constructor|reflexivity].
  - destruct IH as (ss & B & A). unfold parse_instruction in P. pose proof P as P0. apply instruction_options in P as (s & c1 & o & OA & N & AS & P).
    assert (E : c_opts x' = o).
    { apply parse_instruction_some in P as (t & c & t1 & c2 & o1 & t2 & c3 & op1 & st & T & NT & O & _ & _ & _ & -> & _).
      cbn [c_cur c_opts] in *. pose proof (N _ _ T) as NO. cbn [parse_options] in O. rewrite NO in O. injection O as _ _ <-. reflexivity. }
    exists (s :: ss). split.
    + cbn [map]. apply (before_next _ _ c1); [exact OA|apply no_option_iff, N|exact B].
    + cbn [List.concat]. rewrite E in A. clear - AS A. revert AS. generalize (c_opts x). induction s as [|z s IH]; intros o0 AS.
      * injection AS as ->. exact A.
      * cbn [app apply_settings] in *. destruct (apply_setting z o0); [|discriminate]. apply IH, AS.
Qed.
Theorem program_options : forall a code ls l y, program a code ls l y ->
  exists ss, options_before (start code) (map (fun p => c_cur (fst p)) l) ss /\ settles (List.concat ss) (c_opts y).
Proof.
  intros a code ls l y (_ & D & _). destruct (decodes_options _ _ _ _ _ D) as (ss & B & A). exists ss. split; [exact B|].
  apply settings_settle. exact A.
Qed.
Theorem options_before_unique : forall c ends ss ss', options_before c ends ss -> options_before c ends ss' -> ss = ss'.
Proof.
  intros c ends ss ss' H. revert ss'. induction H as [c|c s c1 c' ends ss OA N B IH]; intros ss' H'; inversion H' as [|? s' c1' ? ? ? OA' N' B']; subst; [reflexivity|].
  apply no_option_iff in N, N'. destruct (options_det _ _ _ _ _ OA N OA' N') as (-> & _). f_equal. apply IH, B'.
Qed.

Lemma options_prefix : forall c l c1 l' c1', options_at c l c1 -> options_at c l' c1' -> no_option c1' -> exists l2, l' = l ++ l2 /\ options_at c1 l2 c1'.
Proof.
  intros c l c1 l' c1' H. revert l' c1'.
  induction H as [c|c s t ts c1 t2 c2 l c3 TS W L T2 NL O IH]; intros l' c1' H' N'.
  - exists l'. auto.
  - inversion H' as [|? s' t' ts' ? ? ? ? ? TS' W' L' T2' NL' O']; subst.
    + exfalso. inversion TS as [|? ? cx ? ? T0 TS']; subst. apply N' in T0. apply written_option in W. apply is_option_iff in W. congruence.
    + inversion TS as [|? ? cx ? ? T0 TSX]; subst. inversion TS' as [|? ? cx' ? ? T0' TSX']; subst. rewrite T0 in T0'. injection T0' as <- <-.
      cbn [map] in W, W'. pose proof (written_len _ _ _ _ _ W W') as LN. rewrite !map_length in LN.
      destruct (tokens_det _ _ _ _ _ TSX TSX' LN) as (<- & <-). rewrite (written_det _ _ _ _ W W') in *.
      destruct (IH _ _ O' N') as (l2 & -> & O2). exists l2. auto.
Qed.
(** No instruction with this option is accepted. *)
Theorem num_gprs_never : forall tbl a ls x op l c1 t c, options_at (c_cur x) l c1 -> tokenize c1 = Ok (t, c) -> kind t = id ".num_gprs" ->
  forall r, parse_instruction_with tbl a ls x op <> Ok r.
Proof.
  intros tbl a ls x op l c1 t c OA T K [r|] H.
  - apply instruction_options in H as (l' & c1' & o & OA' & N & _). destruct (options_prefix _ _ _ _ _ OA OA' N) as (l2 & _ & O2).
    destruct O2 as [c2|c2 s u ts c3 t2 c4 l2 c5 TS W L T2 NL O].
    + specialize (N _ _ T). unfold is_option in N. rewrite K in N. discriminate.
    + inversion TS as [|? ? cx ? ? T0 TSX]; subst. rewrite T in T0. injection T0 as <- <-. cbn [map] in W. apply name_of in W. rewrite K in W.
      destruct s as [[] ?| | | |]; try discriminate. destruct W as (W & NI). injection W as W. apply NI. rewrite <- W. cbn. tauto.
  - apply parse_instruction_none in H as (u & cu & TU & KU). destruct (options_token _ _ _ _ _ OA T) as (u' & cu' & TU' & [(_ & ->)|IO]).
    + rewrite TU in TU'. injection TU' as <- <-. rewrite KU in K. discriminate.
    + rewrite TU in TU'. injection TU' as <- <-. exact (is_option_not_none _ IO KU).
Qed.
Theorem options_trailing : forall a ls x l c1 t c, options_at (c_cur x) l c1 -> l <> [] -> tokenize c1 = Ok (t, c) -> kind t = TNone ->
  exists d, parse_instruction a ls x opcode0 = Fatal d.
Proof. intros a ls x l c1 t c OA NE T K. apply (options_dangling _ _ _ _ _ _ OA NE). left. eauto. Qed.
Theorem options_twice : forall a ls x l c1, options_at (c_cur x) l c1 ->
  (1 < List.length (types l) \/ types l <> [] /\ o_type (c_opts x) <> None)%nat -> exists d, parse_instruction a ls x opcode0 = Fatal d.
Proof.
  intros a ls x l c1 OA H. apply (options_dangling _ _ _ _ _ _ OA); [destruct H as [H|(H & _)]; intros ->; [cbn in H; lia|apply H; reflexivity]|].
  right. destruct (apply_settings l (c_opts x)) as [o|] eqn:E; [|reflexivity]. exfalso. apply apply_settings_iff in E as (E & _). unfold taken in E.
  destruct H as [H|(H1 & H2)]; [lia|]. destruct (o_type (c_opts x)); [|congruence]. destruct (types l); [congruence|cbn in E; lia].
Qed.
