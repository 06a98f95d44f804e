(** * Rename: only the addresses of labels matter. *)
From Verif Require Import Base Float Lexer Operand Catalogue Table Parse Assemble Spec LexFacts SchedFuel Param Reach ParseFacts
  Outcomes Decode Program Footprint Encode Emit Layout SpecOperand SpecInsn SpecOpts SpecSafe Operands Operands3 Notes Insn Words Recover Fields2 Sched
  Position Literals SpecLex Lexemes Stream Opts SpecContainer Container Text Compose Safe SpecProgram Language SpecLink Link SpecEdit Edit SpecRename.
From Coq Require Import Lia.
Local Open Scope string_scope.
Local Open Scope list_scope.
Open Scope Z_scope.

(** ** Words of operands that are no jumps *)

Definition jump_text (x : text) : bool := existsb (fun m => text_eqb x (lit m)) jumps.
Definition quiet_word (p s : string) : bool := negb (jump_text (lit p ++ lit s)).
Fixpoint quiet (o : opnd) : bool :=
  match o with
  | OFlag s _ | OOptText s | OReqText s _ _ | OReqTextAfter s _ _ _ => quiet_word "" s
  | OReqTable p _ tbl _ => forallb (quiet_word p) tbl
  | OS2r tbl => forallb (quiet_word "") tbl
  | OOptType ty _ => match ty with ty_ident => false | _ => true end
  | OAbs _ o => quiet o
  | OLabel => false
  | _ => true
  end.
Lemma table_quiet : forallb (fun i => if place_bound i then true else forallb quiet (i_operands i)) table = true.
Proof. vm_compute. reflexivity. Qed.

Definition plain_kind (k : tkind) : Prop := match k with TIdent x => jump_text x = false | _ => True end.
Lemma entry_dot : forall tbl k i, entry tbl "." k i -> plain_kind k.
Proof. intros tbl k i (s & _ & -> & _). reflexivity. Qed.
Lemma entry_quiet : forall tbl p k i, forallb (quiet_word p) tbl = true -> entry tbl p k i -> plain_kind k.
Proof.
  intros tbl p k i Q (s & E & -> & _). apply nth_error_In in E. pose proof (forallb_in _ _ _ _ Q E) as X. unfold quiet_word in X.
  apply negb_true_iff in X. exact X.
Qed.
Lemma listed_quiet : forall (l : list (string * N)) s v, forallb (fun x => quiet_word "" (fst x)) l = true -> In (s, v) l -> plain_kind (id s).
Proof. intros l s v Q I. pose proof (forallb_in _ _ _ _ Q I) as X. unfold quiet_word in X. cbv beta in X. apply negb_true_iff in X. exact X. Qed.
Lemma word_quiet : forall s, quiet_word "" s = true -> plain_kind (id s).
Proof. intros s X. unfold quiet_word in X. apply negb_true_iff in X. exact X. Qed.
Lemma register_quiet : forall a ks nx n r, register a ks nx n r -> Forall plain_kind ks.
Proof. intros a ks nx n r [(-> & _)|(-> & _)]; repeat constructor. Qed.
Lemma signed_quiet : forall s ks neg, quiet_word "" s = true -> signed_name s ks neg -> Forall plain_kind ks.
Proof. intros s ks neg Q [(-> & _)|[(-> & _)|(-> & _)]]; repeat constructor; exact (word_quiet s Q). Qed.
Lemma memory_quiet : forall imm a sz sh ks b r, memory imm a sz sh ks b r -> Forall plain_kind ks.
Proof.
  intros imm a sz sh ks b r (kr & ki & n & o & -> & R & I & _). constructor; [exact Logic.I|]. apply Forall_app. split; [|apply Forall_app; split; [|repeat constructor]].
  - destruct R as [(-> & _)|[(-> & _)|(-> & _)]]; repeat constructor.
  - destruct I as [(-> & _)|(_ & -> & _)]; repeat constructor.
Qed.
Lemma tlds_quiet : forallb (fun x => let '(s, _, _, _, _) := x in quiet_word "" s) tlds_codes = true. Proof. reflexivity. Qed.
Lemma texs_quiet : forallb (fun x => let '(s, _, _, _) := x in quiet_word "" s) texs_codes = true. Proof. reflexivity. Qed.
Ltac one := repeat constructor; first [eapply entry_dot; eassumption | eapply listed_quiet; [|eassumption]; reflexivity | apply word_quiet; assumption].
Lemma spells_quiet : forall o lab pc w ks nx b r, quiet o = true -> spells lab pc o w ks nx b r -> Forall plain_kind ks.
Proof.
  induction o; intros lab pc w ks nx b r Q S; cbn [quiet] in Q; cbn [spells] in S; try discriminate Q.
  - destruct S as (-> & _). repeat constructor.
  - destruct S as (_ & [(-> & _)|(-> & _)]); one.
  - destruct S as (z & -> & _). repeat constructor.
  - destruct S as (z & -> & _). repeat constructor.
  - destruct S as (_ & [(k & i & -> & E & _)|(i & -> & _)]); one.
  - destruct S as (k & i & -> & E & _). repeat constructor. eapply entry_quiet; eassumption.
  - destruct S as (-> & _). one.
  - destruct S as (-> & _). one.
  - destruct S as (_ & _ & [-> |(-> & _)]); one.
  - destruct S as (z & -> & _). repeat constructor.
  - destruct S as (n & R & _). eapply register_quiet, R.
  - destruct S as (n & R & _). eapply register_quiet, R.
  - destruct S as (x & y & -> & _). repeat constructor.
  - destruct S as (z & -> & _). repeat constructor.
  - destruct S as (f & [-> |[(z & -> & _)|[(neg & S & _)|(neg & S & _)]]] & _); first [solve [repeat constructor]|eapply signed_quiet; [|exact S]; reflexivity].
  - destruct S as (mag & neg & [(f & -> & _)|[(z & -> & _)|[(S & _)|(S & _)]]] & _); first [solve [repeat constructor]|eapply signed_quiet; [|exact S]; reflexivity].
  - destruct S as (h & neg & sp & [(f & -> & _)|[(z & -> & _)|[(S & _)|(S & _)]]] & _); first [solve [repeat constructor]|eapply signed_quiet; [|exact S]; reflexivity].
  - destruct S as (i & neg & -> & _). repeat constructor.
  - destruct S as (i & -> & _). repeat constructor.
  - destruct S as (_ & [(k & -> & T & _)|(-> & _)]); repeat constructor. destruct k; try exact I. cbn [type_of] in T. subst ty. discriminate Q.
  - destruct S as [(ks' & b' & -> & S & _)|(_ & S)]; [|eapply IHo; eassumption]. constructor; [exact I|]. apply Forall_app. split; [eapply IHo; eassumption|repeat constructor].
  - destruct S as (_ & [(-> & _)|(-> & _)]); repeat constructor.
  - destruct S as (-> & _). repeat constructor.
  - eapply memory_quiet, S.
  - destruct S as (_ & [(k & i & -> & E & _)|(-> & _)]); one.
  - destruct S as (z & -> & _). repeat constructor.
  - destruct S as (kr & kp & z & n & -> & R & P & _). do 2 (constructor; [first [reflexivity|exact I]|]). apply Forall_app. split; [eapply register_quiet, R|].
    apply Forall_app. split; [destruct P as [-> | ->]; repeat constructor|repeat constructor].
  - destruct S as (kr & n & -> & R & _). do 2 (constructor; [first [reflexivity|exact I]|]). apply Forall_app. split; [eapply register_quiet, R|repeat constructor].
  - destruct S as (_ & [(s1 & s2 & -> & _)|(-> & _)]); [destruct s1, s2|]; repeat constructor.
  - destruct S as (_ & [(s & v & J & -> & _)|(-> & _)]); [|constructor]. repeat constructor. destruct (N.eqb _ _); (eapply listed_quiet; [|exact J]; reflexivity).
  - destruct S as (k & i & -> & _ & [(E & _)|(_ & E & _)]); one.
  - destruct S as (bank & km & b' & -> & _ & M & _). do 4 (constructor; [first [reflexivity|exact I]|]). eapply memory_quiet, M.
  - destruct S as (_ & [(s & v & J & -> & _)|[(-> & _)|[(s & v & J & -> & _)|(k & i & -> & _ & _ & E & _)]]]); repeat constructor;
      first [eapply entry_quiet; eassumption|eapply listed_quiet; [|exact J]; reflexivity].
  - destruct S as (_ & [(s & v & J & -> & _)|[(-> & _)|(-> & _)]]); repeat constructor. eapply listed_quiet; [|exact J]; reflexivity.
  - destruct S as (_ & [(k & i & -> & E & _)|(-> & _)]); one.
  - destruct S as (_ & [(s & v & J & -> & _)|[(-> & _)|[(-> & _)|(-> & _)]]]); repeat constructor. eapply listed_quiet; [|exact J]; reflexivity.
  - destruct S as (_ & [(k & i & -> & E & _)|[(k & i & -> & _ & E & _)|(-> & _)]]); one.
  - destruct S as (s & v & J & -> & _). repeat constructor. eapply listed_quiet; [|exact J]; reflexivity.
  - destruct S as (-> & _). repeat constructor.
  - destruct S as (kl & kd & lod & dc & -> & _ & _ & L & D). apply Forall_app.
    split; [destruct L as [(-> & _)|[(-> & _)|(-> & _)]]|destruct D as [(-> & _)|(-> & _)]]; repeat constructor.
  - destruct S as (s & code & J & -> & _). repeat constructor. pose proof (forallb_in _ _ _ _ tlds_quiet J) as X. exact (word_quiet s X).
  - destruct S as (s & code & J & -> & _). repeat constructor. pose proof (forallb_in _ _ _ _ texs_quiet J) as X. exact (word_quiet s X).
  - destruct S as (s & v & J & -> & _). repeat constructor. destruct (N.eqb _ _); (eapply listed_quiet; [|exact J]; reflexivity).
Qed.

Lemma spell_list_quiet : forall lab pc nx ops w ks w' r, forallb quiet ops = true -> spell_list lab pc nx ops w ks w' r -> Forall plain_kind ks.
Proof.
  intros lab pc nx ops w ks w' r Q H. induction H as [w|o ops w ks1 ks2 b r1 r2 w' S H IH]; [constructor|].
  cbn [forallb] in Q. apply andb_true_iff in Q as (Q1 & Q2). apply Forall_app. split; [eapply spells_quiet; eassumption|auto].
Qed.
Lemma notes_quiet : forall l ks, notes_tokens l ks -> Forall plain_kind ks.
Proof.
  intros l ks H. induction H as [|x l k ks N H IH]; [constructor|]. apply Forall_app. split; [|exact IH].
  destruct x; cbn [note_tokens] in N; [subst k|subst k|subst k|subst k|destruct N as [-> | ->]]; repeat constructor.
Qed.
Lemma form_quiet : forall lab pc i gi gn ks op, In i table -> place_bound i = false -> form_spells lab pc i gi gn ks op -> Forall plain_kind ks.
Proof.
  intros lab pc i gi gn ks op I B (ko & kn & notes & w & r & -> & _ & S & N & _). pose proof (forallb_in _ _ _ _ table_quiet I) as Q. cbv beta in Q. rewrite B in Q.
  apply Forall_app. split; [eapply spell_list_quiet; eassumption|]. apply Forall_app. split; [eapply notes_quiet; eassumption|repeat constructor].
Qed.
Lemma written_quiet : forall s ks, written s ks -> Forall plain_kind ks.
Proof.
  intros s ks W. destruct W; repeat constructor; (eapply listed_quiet; [|eassumption]; reflexivity).
Qed.
Lemma jump_not_plain : forall m, In m jumps -> ~ plain_kind (id m).
Proof. intros m M P. unfold plain_kind, id, jump_text in P. assert (X : existsb (fun x => text_eqb (lit m) (lit x)) jumps = true) by (apply existsb_exists; exists m; split; [exact M|apply text_eqb_refl]). congruence. Qed.

(** ** Other labels *)

Section Renamed.
  Variables (code code' : text) (lab lab' : text -> option Z).
  Hypothesis L : labelled code lab.
  Hypothesis L' : labelled code' lab'.

  Lemma place_label : forall name z, same_place code code' name -> lab name = Some z -> lab' name = Some z.
  Proof.
    intros name z P E. apply L in E as (p & D & ->). destruct (proj1 (P (semis p)) (ex_intro _ p (conj D eq_refl))) as (p' & D' & E). apply L'. exists p'. rewrite E. auto.
  Qed.
  (** Tokens that mean the same. *)
  Definition means_same (k k' : tkind) : Prop :=
    (k = k' /\ forall name, k = TIdent name -> same_place code code' name) \/ (exists z, points lab k z /\ points lab' k' z).
  Lemma same_fixed : forall k k', means_same k k' -> (forall z, ~ points lab k z) -> k' = k.
  Proof. intros k k' [(-> & _)|(z & P & _)] N; [reflexivity|]. destruct (N z P). Qed.
  Lemma same_fixed' : forall k k', means_same k k' -> (forall z, ~ points lab' k' z) -> k = k'.
  Proof. intros k k' [(-> & _)|(z & _ & P)] N; [reflexivity|]. destruct (N z P). Qed.
  Lemma dot_points : forall lb s z, ~ points lb (TIdent ("."%char :: s)) z.
  Proof. intros lb s z P. exact (points_not_dot _ _ _ s P eq_refl). Qed.
  Lemma cc_points : forall lb z, ~ points lb (id "CC") z.
  Proof. intros lb z P. exact (points_not_cc _ _ _ P eq_refl). Qed.
  Lemma comma_points : forall lb z, ~ points lb TComma z.
  Proof. intros lb z [Q|(? & Q & _)]; discriminate. Qed.
  Lemma same_none : forall (ks : list tkind), Forall2 means_same [] ks -> ks = [].
  Proof. intros ks H. inversion H. reflexivity. Qed.
  Lemma same_one : forall k (ks : list tkind), Forall2 means_same [k] ks -> exists k', ks = [k'] /\ means_same k k'.
  Proof. intros k ks H. inversion H as [|? k' ? ks' M H' E1 E2]; subst. inversion H'; subst. eauto. Qed.
  Lemma spells_renamed : forall pc o w ks nx b r ks' nx', jump_operand o = true -> dotted o = true -> spells lab pc o w ks nx b r ->
    Forall2 means_same ks ks' -> (means_same nx nx' \/ nx = nx') -> spells lab' pc o w ks' nx' b r.
  Proof.
    intros pc o w ks nx b r ks' nx' J D S F X.
    assert (NX : forall k, (forall z, ~ points lab' k z) -> nx <> k -> nx' <> k).
    { intros k NP NE ->. destruct X as [X| ->]; [|apply NE; reflexivity]. apply NE. exact (same_fixed' _ _ X NP). }
    destruct o; try discriminate J; cbn [spells] in S |- *.
    - destruct S as (-> & S). apply same_one in F as (k' & -> & M). rewrite (same_fixed _ _ M (comma_points lab)). auto.
    - destruct s as [|c s]; [discriminate D|]. cbn [dotted] in D. apply Ascii.eqb_eq in D as ->. destruct S as (R & [(-> & B)|(-> & N & B)]); split; auto.
      + left. apply same_one in F as (k' & -> & M). rewrite (same_fixed _ _ M (dot_points lab (lit s))). auto.
      + right. apply same_none in F as ->. split; [reflexivity|]. split; [|exact B]. apply NX; [exact (dot_points lab' (lit s))|exact N].
    - destruct S as (R & [(k & i & -> & E & B)|(i & -> & N & DF & B)]); split; auto.
      + left. apply same_one in F as (k' & -> & M). destruct E as (s & E1 & -> & E2). rewrite (same_fixed _ _ M (dot_points lab (lit s))).
        exists (TIdent (lit "." ++ lit s)), i. split; [reflexivity|]. split; [|exact B]. exists s. auto.
      + right. apply same_none in F as ->. exists i. split; [reflexivity|]. split; [|auto]. intros s I. apply NX; [exact (dot_points lab' (lit s))|apply N; exact I].
    - destruct S as (g & K & B). exists g. split; [|exact B].
      destruct K as [(name & -> & E)| ->]; apply same_one in F as (k' & -> & M).
      + destruct M as [(<- & P)|(z & [Q|(n1 & Q & _ & E1)] & P)]; [left; exists name; split; [reflexivity|apply place_label; auto]|discriminate|].
        injection Q as <-. assert (z = g) as -> by congruence. destruct P as [-> |(n2 & -> & _ & E2)]; eauto.
      + destruct M as [(<- & P)|(z & [Q|(n1 & Q & _)] & P)]; [right; reflexivity| |discriminate]. injection Q as <-. destruct P as [-> |(n2 & -> & _ & E2)]; eauto.
    - destruct S as (R & [(k & i & -> & E & B)|(-> & N & B)]); split; auto.
      + left. inversion F as [|? k1 ? kt M F' E1 E2]; subst. apply same_one in F' as (k2 & -> & M2). destruct E as (s & E1 & -> & E2).
        rewrite (same_fixed _ _ M (cc_points lab)), (same_fixed _ _ M2 (dot_points lab (lit s))).
        exists (TIdent (lit "." ++ lit s)), i. split; [reflexivity|]. split; [|reflexivity]. exists s. auto.
      + right. apply same_none in F as ->. split; [reflexivity|]. split; [|exact B]. apply NX; [exact (cc_points lab')|exact N].
  Qed.
  Lemma list_renamed : forall pc nx ops w ks w' r, spell_list lab pc nx ops w ks w' r -> forallb jump_operand ops = true -> forallb dotted ops = true ->
    forall ks', Forall2 means_same ks ks' -> spell_list lab' pc nx ops w ks' w' r.
  Proof.
    intros pc nx ops w ks w' r S. induction S as [w|o ops w ks1 ks2 b r1 r2 w' S H IH]; intros J D ks' F; [apply same_none in F as ->; constructor|].
    cbn [forallb] in J, D. apply andb_true_iff in J as (J1 & J2). apply andb_true_iff in D as (D1 & D2).
    apply Forall2_app_inv_l in F as (k1 & k2 & F1 & F2 & ->). econstructor; [|apply IH; eauto].
    eapply spells_renamed; [exact J1|exact D1|exact S|exact F1|]. destruct F2; [right; reflexivity|left; assumption].
  Qed.
  Lemma same_list : forall ks ks', Forall2 means_same ks ks' -> (forall k z, In k ks -> ~ points lab k z) -> ks' = ks.
  Proof.
    intros ks ks' F. induction F as [|k k' ks ks' M F IH]; intros N; [reflexivity|]. f_equal; [|apply IH; intros; apply N; right; assumption].
    apply same_fixed; [exact M|]. intros z. apply N. left. reflexivity.
  Qed.

  Lemma same_refl : forall ks, (forall name, In (TIdent name) ks -> same_place code code' name) -> Forall2 means_same ks ks.
  Proof.
    induction ks as [|k ks IH]; intros P; constructor.
    - left. split; [reflexivity|]. intros name ->. apply P. left. reflexivity.
    - apply IH. intros name I. apply P. right. exact I.
  Qed.
  Lemma retargeted_means : forall ts ts', retargeted code code' ts ts' -> Forall2 means_same (map fst ts) (map fst ts') /\ map snd ts' = map snd ts.
  Proof.
    intros ts ts' R. induction R as [|k l ts ts' P R (IH1 & IH2)|m l mid k k' l' z ts ts' M NA NS P S S' R (IH1 & IH2)].
    - split; [constructor|reflexivity].
    - cbn [map fst snd]. split; [constructor; [left; auto|exact IH1]|congruence].
    - rewrite !map_cons, !map_app, !map_cons. cbn [fst snd]. split; [|congruence]. constructor; [left; split; [reflexivity|intros name E; apply P; left; exact E]|].
      apply Forall2_app; [apply same_refl; intros name I; apply P; right; exact I|]. constructor; [|exact IH1]. right. exists z.
      split; eapply stands_points; eassumption.
  Qed.
  Lemma retargeted_head : forall k l us vs, retargeted code code' ((k, l) :: us) vs -> exists us', vs = (k, l) :: us' /\
    Forall2 means_same (map fst us) (map fst us') /\ map snd us' = map snd us.
  Proof.
    intros k l us vs R. inversion R as [|k0 l0 ts ts' P R' E1 E2|m l0 mid k0 k' l' z ts ts' M NA NS P S S' R' E1 E2]; subst.
    - exists ts'. split; [reflexivity|]. apply retargeted_means. exact R'.
    - eexists. split; [reflexivity|]. destruct (retargeted_means _ _ R') as (F & E). rewrite !map_app, !map_cons. cbn [fst snd]. rewrite E. split; [|reflexivity].
      apply Forall2_app; [apply same_refl; intros name I; apply P; right; exact I|]. constructor; [|exact F]. right. exists z.
      split; eapply stands_points; eassumption.
  Qed.
End Renamed.

Definition stop (ts : list (tkind * Z)) : Prop := match ts with [] | (TAt, _) :: _ | (TSemi, _) :: _ => True | _ => False end.
Lemma stands_stop : forall code k l z ts, stands_for code k z -> ~ stop ((k, l) :: ts).
Proof. intros code k l z ts [-> |(n & p & -> & _)] S; exact S. Qed.
Lemma retargeted_split : forall code code' all all', retargeted code code' all all' -> forall us ts, all = us ++ ts ->
  (forall a m l b, In m jumps -> us = a ++ (id m, l) :: b -> In TSemi (map fst b) \/ stop ts) ->
  exists us' ts', all' = us' ++ ts' /\ retargeted code code' us us' /\ retargeted code code' ts ts'.
Proof.
  intros code code' all all' R. induction R as [|k l ts0 ts0' P R IH|m l mid k k' l' z ts0 ts0' M NA NS P S S' R IH]; intros us ts E C.
  - symmetry in E. apply app_eq_nil in E as (-> & ->). exists [], []. repeat split; constructor.
  - destruct us as [|u us]; cbn [app] in E.
    + subst ts. exists [], ((k, l) :: ts0'). repeat split; constructor; assumption.
    + injection E as <- ->. destruct (IH us ts eq_refl) as (us' & ts' & -> & R1 & R2).
      { intros a m l0 b J ->. apply (C ((k, l) :: a) m l0 b J eq_refl). }
      exists ((k, l) :: us'), ts'. repeat split; [constructor; assumption|exact R2].
  - destruct us as [|u us]; cbn [app] in E.
    + subst ts. exists []. eexists. split; [reflexivity|]. split; [constructor|]. econstructor; eassumption.
    + injection E as <- E. symmetry in E. destruct (cut_apart _ _ _ _ _ _ E) as [(y & E1 & E2)|(y & E1 & E2)].
      * subst us ts0. destruct (IH y ts eq_refl) as (us' & ts' & -> & R1 & R2).
        { intros a m0 l0 b J ->. apply (C ((id m, l) :: mid ++ (k, l') :: a) m0 l0 b J). cbn [app]. rewrite <- app_assoc. reflexivity. }
        exists ((id m, l) :: mid ++ (k', l') :: us'), ts'. split; [cbn [app]; rewrite <- app_assoc; reflexivity|]. split; [econstructor; eassumption|exact R2].
      * exfalso. subst mid. rewrite map_app in NA, NS. destruct (C [] m l us M eq_refl) as [I|T].
        -- apply NS, in_or_app. left. exact I.
        -- subst ts. destruct y as [|(ky, ly) y]; cbn [app] in T; [exact (stands_stop _ _ _ _ _ S T)|].
           destruct ky; try destruct T; [apply NA|apply NS]; apply in_or_app; right; left; reflexivity.
Qed.
Lemma retargeted_plain : forall code code' us us', retargeted code code' us us' -> Forall plain_kind (map fst us) -> us' = us.
Proof.
  intros code code' us us' R. induction R as [|k l ts0 ts0' P R IH|m l mid k k' l' z ts0 ts0' M NA NS P S S' R IH]; intros F; cbn [map fst] in F.
  - reflexivity.
  - inversion F; subst. rewrite IH by assumption. reflexivity.
  - inversion F as [|? ? X]. destruct (jump_not_plain m M X).
Qed.
Lemma plain_no_jump : forall (us a b : list (tkind * Z)) m l, Forall plain_kind (map fst us) -> In m jumps -> us <> a ++ (id m, l) :: b.
Proof.
  intros us a b m l F M ->. rewrite map_app, Forall_app in F. destruct F as (_ & F). inversion F as [|? ? X]. exact (jump_not_plain m M X).
Qed.
Lemma guard_plain : forall gi gn kg, guard_tokens gi gn kg -> Forall plain_kind kg.
Proof. intros gi gn kg [(-> & _)| ->]; repeat constructor. Qed.
Lemma mnemonic_plain : forall i, In i table -> place_bound i = false -> plain_kind (id (i_mnemonic i)).
Proof.
  intros i I B. unfold plain_kind, id. destruct (jump_text (lit (i_mnemonic i))) eqn:E; [|reflexivity]. exfalso.
  unfold jump_text in E. apply existsb_exists in E as (m & M & E). apply text_eqb_eq in E.
  pose proof (forallb_in _ _ _ _ jump_shapes I) as X. cbv beta in X.
  assert (J : jump_name i = true) by (unfold jump_name; apply existsb_exists; exists m; split; [exact M|rewrite E; apply text_eqb_refl]).
  rewrite J, B in X. discriminate.
Qed.
Lemma bound_named : forall i, In i table -> place_bound i = true -> In (i_mnemonic i) jumps.
Proof.
  intros i I B. pose proof (forallb_in _ _ _ _ jump_forms I) as X. cbv beta in X. rewrite B in X. apply andb_true_iff in X as (X & _).
  unfold jump_name in X. apply existsb_exists in X as (m & M & E). apply text_eqb_eq in E. apply lit_inj in E as <-. exact M.
Qed.

Lemma instruction_renamed : forall code code' lab lab' pc us us' op, labelled code lab -> labelled code' lab' ->
  instruction lab pc (map fst us) op -> retargeted code code' us us' -> instruction lab' pc (map fst us') op.
Proof.
  intros code code' lab lab' pc us us' op L L' (pre & i & post & gi & gn & kg & kf & T & G & F & P & E) R.
  assert (I : In i table) by (rewrite T; apply in_elt). destruct (place_bound i) eqn:B.
  - pose proof (forallb_in _ _ _ _ jump_forms I) as X. cbv beta in X. rewrite B in X. apply andb_true_iff in X as (JN & JO).
    pose proof (forallb_in _ _ _ _ jump_shapes I) as X. cbv beta in X. rewrite JN in X. apply andb_true_iff in X as (_ & DT).
    destruct F as (ko & kn & notes & w & r & -> & A & S & NT & NO & ->).
    replace (kg ++ id (i_mnemonic i) :: ko ++ kn ++ [TSemi]) with (kg ++ (id (i_mnemonic i) :: ko) ++ (kn ++ [TSemi])) in E by reflexivity.
    apply map_eq_app in E as (ug & x & -> & EG & E). apply map_eq_app in E as (y & u2 & -> & EY & E2). apply map_eq_cons in EY as ((k0, l0) & uo & -> & EK & EO). cbn [fst] in EK. subst k0.
    assert (ST : stop u2).
    { apply notes_marked in NT. destruct u2 as [|(k2, l2) u2]; [exact Logic.I|]. cbn [map fst] in E2. destruct NT as [-> |(v & ->)]; cbn [app] in E2; injection E2 as -> _; exact Logic.I. }
    rewrite app_assoc in R. destruct (retargeted_split _ _ _ _ R (ug ++ (id (i_mnemonic i), l0) :: uo) u2 eq_refl (fun _ _ _ _ _ _ => or_intror ST)) as (u1' & u2' & -> & R1 & R2).
    apply retargeted_plain in R2 as ->; [|rewrite E2; apply Forall_app; split; [eapply notes_quiet; eassumption|repeat constructor]].
    assert (PG : Forall plain_kind (map fst ug)) by (rewrite EG; eapply guard_plain; eassumption).
    destruct (retargeted_split _ _ _ _ R1 ug _ eq_refl) as (ug' & r' & -> & R3 & R4).
    { intros a m l b J EQ. destruct (plain_no_jump _ _ _ _ _ PG J EQ). }
    apply retargeted_plain in R3 as ->; [|exact PG]. destruct (retargeted_head _ _ _ _ L L' _ _ _ _ R4) as (uo' & -> & FM & _). rewrite EO in FM.
    assert (F' : form_spells lab' pc i gi gn (map fst uo' ++ kn ++ [TSemi]) (Opcode w r (notes_record notes))).
    { exists (map fst uo'), kn, notes, w, r. split; [reflexivity|]. split; [exact A|]. split; [|auto]. eapply list_renamed; [exact L|exact L'|exact S|exact JO|exact DT|exact FM]. }
    exists pre, i, post, gi, gn, kg, (map fst uo' ++ kn ++ [TSemi]). do 3 (split; [assumption|]). split.
    + intros j op2 J M F2. destruct (commas_bound _ _ table_commas _ _ _ T _ J M B) as (C1 & C2). eapply form_comma; eassumption.
    + rewrite !map_app. cbn [map fst]. rewrite EG, E2, <- app_assoc. reflexivity.
  - assert (PL : Forall plain_kind (map fst us)).
    { rewrite E. apply Forall_app. split; [eapply guard_plain; eassumption|]. constructor; [apply mnemonic_plain; assumption|eapply form_quiet; eassumption]. }
    apply retargeted_plain in R as ->; [|exact PL]. unfold place_bound in B. apply negb_false_iff in B.
    exists pre, i, post, gi, gn, kg, kf. split; [exact T|]. split; [exact G|]. split; [eapply form_place; eassumption|]. split; [|exact E].
    intros j op' J M F2. destruct (place_bound j) eqn:BJ.
    + assert (JT : In j table) by (rewrite T; apply in_or_app; left; exact J). apply bound_named in BJ; [|exact JT]. rewrite M in BJ.
      eapply jump_not_plain; [exact BJ|]. rewrite E, Forall_app in PL. destruct PL as (_ & PL). inversion PL. assumption.
    + unfold place_bound in BJ. apply negb_false_iff in BJ. apply (P j op' J M). eapply form_place; eassumption.
Qed.

Lemma sentence_renamed : forall code code' lab lab', labelled code lab -> labelled code' lab' -> forall n ts ss ops, sentence lab n ts ss ops ->
  forall ts', retargeted code code' ts ts' -> sentence lab' n ts' ss ops.
Proof.
  intros code code' lab lab' L L' n ts ss ops H. induction H as [n|n s t us v ts ss ops W O N S IH|n pre i post gi gn kg kf us ts ss op ops T G F P M S IH]; intros ts' R.
  - inversion R. constructor.
  - pose proof (written_quiet _ _ W) as PL. destruct (retargeted_split _ _ _ _ R (t :: us) (v :: ts) eq_refl) as (us' & vs & -> & R1 & R2).
    { intros a m l b J EQ. destruct (plain_no_jump _ _ _ _ _ PL J EQ). }
    apply retargeted_plain in R1 as ->; [|exact PL]. pose proof (IH _ R2) as S'. destruct (retargeted_means _ _ _ _ L L' _ _ R2) as (_ & E).
    destruct vs as [|v' vs]; [discriminate|]. cbn [map] in E. injection E as E _. cbn [app]. apply sentence_option; auto. congruence.
  - assert (IN : instruction lab (addr n) (map fst us) op) by (exists pre, i, post, gi, gn, kg, kf; auto 8).
    destruct (instruction_close _ _ _ _ IN) as (x & l & EX & _).
    destruct (retargeted_split _ _ _ _ R us ts eq_refl) as (us' & vs & -> & R1 & R2).
    { intros a m l0 b J EQ. left. rewrite EX in EQ. destruct b as [|u b] using rev_ind.
      - change (a ++ [(id m, l0)]) with (a ++ [(id m, l0)]) in EQ. apply app_inj_tail in EQ as (_ & EQ). discriminate.
      - clear IHb. rewrite app_comm_cons, app_assoc in EQ. apply app_inj_tail in EQ as (_ & <-). rewrite map_app. apply in_or_app. right. left. reflexivity. }
    apply sentence_of_instruction; [|apply IH; exact R2]. eapply instruction_renamed; [exact L|exact L'|exact IN|exact R1].
Qed.

Lemma same_place_file : forall code code' ss out w, same_place code code' (lit "main") -> file code ss out w -> file code' ss out w.
Proof.
  intros code code' ss out w P F. destruct F as [T|p head T C D M S PK]; [constructor; exact T|].
  destruct (proj1 (P (semis p)) (ex_intro _ p (conj D eq_refl))) as (p' & D' & E). rewrite <- E in M, PK. eapply file_container; eassumption.
Qed.

Theorem renamed : forall a code code' w ts ts' us, ~ In NUL code -> ~ In NUL code' -> tame code' -> Z.of_nat (List.length code') <= 2 ^ 57 ->
  lexes code 0 ts -> lexes code' 0 us -> retargeted code code' ts ts' -> alike ts' us -> same_place code code' (lit "main") ->
  assemble a code = Ok w -> assemble false code' = Ok w.
Proof.
  intros a code code' w ts ts' us N N' TM SH LX LX' R AL PM A. destruct (accepted_means _ _ _ N A) as (ts0 & lab & ss & ops & LX0 & LB & S & F).
  rewrite (lexes_same _ _ _ _ LX LX0) in S. destruct (labels_here code' N' TM SH) as (ls & G & _).
  assert (LB' : labelled code' (find_label ls)) by (intros name z; apply (first_definition code' ls N' G)).
  apply means_accepted; auto. exists us, (find_label ls), ss, ops. split; [exact LX'|]. split; [exact LB'|]. split.
  - eapply sentence_alike; [|exact AL]. exact (sentence_renamed code code' lab _ LB LB' _ _ _ _ S _ R).
  - eapply same_place_file; eassumption.
Qed.
(** The relation goes both ways. *)
Lemma same_place_sym : forall code code' name, same_place code code' name -> same_place code' code name.
Proof. intros code code' name P n. symmetry. apply P. Qed.
Lemma retargeted_sym : forall code code' ts ts', retargeted code code' ts ts' -> retargeted code' code ts' ts.
Proof.
  intros code code' ts ts' R. induction R as [|k l ts ts' P R IH|m l mid k k' l' z ts ts' M NA NS P S S' R IH].
  - constructor.
  - constructor; [|exact IH]. intros name E. apply same_place_sym, P, E.
  - apply retargeted_jump with (z := z); try assumption. intros name J. apply same_place_sym. exact (P name J).
Qed.

(** ** Deciding the side conditions *)

Lemma same_place_decided : forall code code' ls ls' name, ~ In NUL code -> ~ In NUL code' -> generate_labels code = Ok ls -> generate_labels code' = Ok ls' ->
  find_label ls name = find_label ls' name -> same_place code code' name.
Proof.
  assert (X : forall code code' ls ls' name, ~ In NUL code -> ~ In NUL code' -> generate_labels code = Ok ls -> generate_labels code' = Ok ls' ->
    find_label ls name = find_label ls' name -> forall n, (exists p, first_defines code p name /\ semis p = n) -> exists p, first_defines code' p name /\ semis p = n).
  { intros code code' ls ls' name N N' G G' E n (p & D & <-).
    assert (F : find_label ls name = Some (addr (semis p))) by (apply (first_definition code ls N G); eauto).
    rewrite E in F. apply (first_definition code' ls' N' G') in F as (p' & D' & EA). exists p'. split; [exact D'|]. apply addr_inj in EA. auto. }
  intros code code' ls ls' name N N' G G' E n. split; eapply X; eassumption || (symmetry; eassumption).
Qed.
