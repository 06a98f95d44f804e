(** * Sheet: every program can be written without labels, one statement per line. *)
From Verif Require Import Base Float Lexer Operand Catalogue Table Parse Assemble Spec SpecOperand Operands SpecInsn Insn SpecLex SpecOpts SpecProgram SpecEdit SpecLink SpecSafe SpecAsserts
  LexFacts Lexemes Text Decode Layout Safe Language Link Edit SpecRename Rename Encode Asserts SpecTidy Tidy Tidied SpecSheet.
From Coq Require Import Lia.
Local Open Scope list_scope.
Local Open Scope char_scope.
Open Scope Z_scope.

Definition pairs := list (tkind * tkind).
Definition twice (ks : list tkind) : pairs := map (fun k => (k, k)) ks.
Lemma twice_fst : forall ks, map fst (twice ks) = ks.
Proof. intros ks. unfold twice. rewrite map_map. cbn [fst]. apply map_id. Qed.
Lemma twice_snd : forall ks, map snd (twice ks) = ks.
Proof. intros ks. unfold twice. rewrite map_map. cbn [snd]. apply map_id. Qed.
Lemma twice_in : forall ks x, In x (twice ks) -> fst x = snd x.
Proof. intros ks x I. apply in_map_iff in I as (k & <- & _). reflexivity. Qed.

Section Numbered.
  Variable lab : text -> option Z.

  (** A token and what is written for it. *)
  Definition swap (x : tkind * tkind) : Prop :=
    fst x = snd x \/ exists name z, x = (TIdent name, TImm z) /\ lab name = Some z.
  (** The tokens of a jump. *)
  Definition jump_word (k : tkind) : Prop :=
    k = TComma \/ k = id "CC" \/ (exists z, k = TImm z) \/ exists s, k = TIdent ("." :: s) /\ ~ In ("." :: s) (map lit known_options).
  Definition jump_pair (x : tkind * tkind) : Prop :=
    (fst x = snd x /\ jump_word (fst x)) \/ exists name z, x = (TIdent name, TImm z) /\ lab name = Some z.

  Definition unlisted (u : text) : bool := negb (existsb (text_eqb u) (map lit known_options)).
  Definition jump_listed (o : opnd) : bool :=
    match o with
    | OFlag s _ => unlisted (lit s)
    | ODotTable _ _ tbl | OCcTests tbl _ => forallb (fun s => unlisted (lit "." ++ lit s)) tbl
    | _ => true
    end.
  Lemma table_listed : forallb (fun i => if place_bound i then forallb jump_listed (i_operands i) else true) table = true.
  Proof. vm_compute. reflexivity. Qed.
  Lemma unlisted_out : forall u, unlisted u = true -> ~ In u (map lit known_options).
  Proof.
    intros u H I. unfold unlisted in H. apply negb_true_iff in H. assert (X : existsb (text_eqb u) (map lit known_options) = true) by (apply existsb_exists; exists u; split; [exact I|apply text_eqb_refl]).
    congruence.
  Qed.

  Lemma one_pair : forall x, jump_pair x -> Forall jump_pair [x].
  Proof. intros x H. constructor; [exact H|constructor]. Qed.
  Definition number_or (k k' : tkind) : Prop := k' = k \/ exists z, k' = TImm z.
  Lemma entry_in : forall tbl p k i, entry tbl p k i -> exists s, In s tbl /\ k = TIdent (lit p ++ lit s).
  Proof. intros tbl p k i (s & E & -> & _). exists s. split; [|reflexivity]. apply nth_error_In in E. exact E. Qed.
  Lemma spells_numbered : forall pc o w ks nx b r, jump_operand o = true -> dotted o = true -> jump_listed o = true -> spells lab pc o w ks nx b r ->
    exists l, map fst l = ks /\ Forall jump_pair l /\ forall lab' nx', number_or nx nx' -> spells lab' pc o w (map snd l) nx' b r.
  Proof.
    intros pc o w ks nx b r J D U S.
    assert (NX : forall nx' u, number_or nx nx' -> nx <> TIdent u -> nx' <> TIdent u) by (intros nx' u [->|(z & ->)] N; [exact N|discriminate]).
    destruct o; try discriminate J; cbn [spells] in S.
    - destruct S as (-> & S). exists [(TComma, TComma)]. split; [reflexivity|]. split; [apply one_pair; left; split; [reflexivity|left; reflexivity]|]. intros lab' nx' _. cbn. auto.
    - destruct s as [|c s]; [discriminate D|]. cbn [dotted] in D. apply Ascii.eqb_eq in D as ->. destruct S as (R & [(-> & B)|(-> & N & B)]).
      + exists (twice [id (String "." s)]). split; [reflexivity|]. split; [|intros; cbn; auto]. apply one_pair. left. split; [reflexivity|]. right. right. right. exists (lit s).
        split; [reflexivity|]. apply (unlisted_out _ U).
      + exists []. split; [reflexivity|]. split; [constructor|]. intros lab' nx' X. cbn. split; [exact R|]. right. split; [reflexivity|]. split; [exact (NX _ _ X N)|exact B].
    - destruct S as (R & [(k & i & -> & E & B)|(i & -> & N & DF & B)]).
      + exists (twice [k]). split; [reflexivity|]. split; [|intros; cbn; split; [exact R|left; eauto]]. destruct (entry_in _ _ _ _ E) as (s & I & ->). apply one_pair. left.
        split; [reflexivity|]. right. right. right. exists (lit s). split; [reflexivity|]. apply unlisted_out. cbn [jump_listed] in U. exact (forallb_in _ _ _ _ U I).
      + exists []. split; [reflexivity|]. split; [constructor|]. intros lab' nx' X. cbn. split; [exact R|]. right. exists i. split; [reflexivity|]. split; [|auto].
        intros s I. apply (NX _ _ X). apply N. exact I.
    - destruct S as (g & K & B). destruct K as [(name & -> & E)| ->].
      + exists [(TIdent name, TImm g)]. split; [reflexivity|]. split; [apply one_pair; right; eauto|]. intros lab' nx' _. cbn [twice map snd]. exists g. split; [right; reflexivity|exact B].
      + exists (twice [TImm g]). split; [reflexivity|]. split; [apply one_pair; left; split; [reflexivity|right; right; left; exists g; reflexivity]|]. intros lab' nx' _. cbn [twice map snd]. exists g. split; [right; reflexivity|exact B].
    - destruct S as (R & [(k & i & -> & E & B)|(-> & N & B)]).
      + exists (twice [id "CC"; k]). split; [reflexivity|]. split; [|intros; cbn; split; [exact R|left; eauto]]. destruct (entry_in _ _ _ _ E) as (s & I & ->). constructor; [|apply one_pair]; left.
        * split; [reflexivity|right; left; reflexivity].
        * split; [reflexivity|]. right. right. right. exists (lit s). split; [reflexivity|]. apply unlisted_out. cbn [jump_listed] in U. exact (forallb_in _ _ _ _ U I).
      + exists []. split; [reflexivity|]. split; [constructor|]. intros lab' nx' X. cbn. split; [exact R|]. right. split; [reflexivity|]. split; [exact (NX _ _ X N)|exact B].
  Qed.
  Lemma pair_number : forall x, jump_pair x -> number_or (fst x) (snd x).
  Proof. intros x [(E & _)|(name & z & -> & _)]; [left; symmetry; exact E|right; exists z; reflexivity]. Qed.
  Lemma list_numbered : forall pc nx ops w ks w' r, spell_list lab pc nx ops w ks w' r -> forallb jump_operand ops = true -> forallb dotted ops = true -> forallb jump_listed ops = true ->
    exists l, map fst l = ks /\ Forall jump_pair l /\ forall lab', spell_list lab' pc nx ops w (map snd l) w' r.
  Proof.
    intros pc nx ops w ks w' r S. induction S as [w|o ops w ks1 ks2 b r1 r2 w' S H IH]; intros J D U.
    - exists []. split; [reflexivity|]. split; [constructor|]. intros lab'. constructor.
    - cbn [forallb] in J, D, U. apply andb_true_iff in J as (J1 & J2). apply andb_true_iff in D as (D1 & D2). apply andb_true_iff in U as (U1 & U2).
      destruct (IH J2 D2 U2) as (l2 & E2 & F2 & S2). destruct (spells_numbered _ _ _ _ _ _ _ J1 D1 U1 S) as (l1 & E1 & F1 & S1).
      exists (l1 ++ l2). split; [rewrite map_app, E1, E2; reflexivity|]. split; [apply Forall_app; auto|]. intros lab'. rewrite map_app. econstructor; [|apply S2].
      apply S1. subst ks2. destruct l2 as [|x l2]; [left; reflexivity|]. cbn [map hd]. apply pair_number. inversion F2; assumption.
  Qed.

  (** Where a number stands for a label: behind the last ';' there is no [S2R] and no
      [IADD3], and the token in front is not an option. *)
  Definition calm_names : list string := ["S2R"; "IADD3"]%string.
  Definition fine (l : pairs) : Prop := forall A k z B, l = A ++ (k, TImm z) :: B ->
    k = TImm z \/ ((exists name, k = TIdent name /\ lab name = Some z) /\ exists A1 A2 x, A = A1 ++ A2 ++ [x] /\
      (A1 = [] \/ exists A0, A1 = A0 ++ [(TSemi, TSemi)]) /\ ~ In (snd x) (map (fun s => id s) known_options) /\
      forall m, In m calm_names -> ~ In (id m) (map snd (A2 ++ [x]))).
  Lemma twice_fine : forall ks, fine (twice ks).
  Proof. intros ks A k z B E. left. assert (I : In (k, TImm z) (twice ks)) by (rewrite E; apply in_elt). exact (twice_in _ _ I). Qed.
  Lemma twice_swap : forall ks, Forall swap (twice ks).
  Proof. intros ks. apply Forall_forall. intros x I. left. exact (twice_in _ _ I). Qed.
  (** A statement in front. *)
  Lemma fine_app : forall l1 l2, fine l1 -> fine l2 -> (exists l0, l1 = l0 ++ [(TSemi, TSemi)]) \/ (forall m, In m calm_names -> ~ In (id m) (map snd l1)) -> fine (l1 ++ l2).
  Proof.
    intros l1 l2 F1 F2 C A k z B E. apply app_eq_app in E as (l & [(-> & E)|(-> & E)]).
    - destruct l as [|y l].
      + cbn [app] in E. rewrite app_nil_r in C, F1. destruct (F2 [] k z B (eq_sym E)) as [X|(X & A1 & A2 & x & Y & _)]; [left; exact X|]. exfalso. destruct A1; [|discriminate]. destruct A2; discriminate.
      + injection E as <- _. exact (F1 A k z l eq_refl).
    - destruct (F2 l k z B E) as [X|(X & A1 & A2 & x & -> & Y & O & N)]; [left; exact X|right]. split; [exact X|].
      destruct Y as [->|(A0 & ->)].
      + destruct C as [(l0 & ->)|C].
        * exists (l0 ++ [(TSemi, TSemi)]), A2, x. split; [reflexivity|]. split; [right; eauto|]. auto.
        * exists [], (l1 ++ A2), x. split; [cbn [app]; rewrite <- app_assoc; reflexivity|]. split; [left; reflexivity|]. split; [exact O|]. intros m I J.
          rewrite <- app_assoc, map_app in J. apply in_app_or in J as [J|J]; [exact (C m I J)|exact (N m I J)].
      + exists (l1 ++ A0 ++ [(TSemi, TSemi)]), A2, x. split; [rewrite <- !app_assoc; reflexivity|]. split; [right; exists (l1 ++ A0); rewrite <- app_assoc; reflexivity|]. auto.
  Qed.

  Lemma jump_names_calm : forall m, In m jumps -> ~ In (id m) (map (fun s => id s) known_options) /\ forall c, In c calm_names -> id m <> id c.
  Proof.
    intros m M. assert (X : forall s, In s (known_options ++ calm_names) -> id m <> id s).
    { intros s I E. unfold id in E. assert (E' : lit m = lit s) by congruence. apply lit_inj in E'. subst s. cbn in M, I. fin_in; discriminate. }
    split.
    - intros I. apply in_map_iff in I as (s & E & I). apply (X s); [apply in_or_app; left; exact I|symmetry; exact E].
    - intros c C. apply X. apply in_or_app. right. exact C.
  Qed.
  Lemma jump_word_calm : forall k, jump_word k -> ~ In k (map (fun s => id s) known_options) /\ forall c, In c calm_names -> k <> id c.
  Proof.
    intros k [->|[->|[(z & ->)|(s & -> & N)]]].
    - split; [intros I; apply in_map_iff in I as (s & E & _); discriminate|intros c _; discriminate].
    - split; [intros I; vm_compute in I; fin_in; discriminate|intros c C; cbn in C; fin_in; subst; discriminate].
    - split; [intros I; apply in_map_iff in I as (s & E & _); discriminate|intros c _; discriminate].
    - split.
      + intros I. apply in_map_iff in I as (t & E & I). apply N. unfold id in E. assert (E' : lit t = "." :: s) by congruence. rewrite <- E'. apply in_map. exact I.
      + intros c C. cbn in C. fin_in; subst; discriminate.
  Qed.

  Lemma instruction_numbered : forall pc ks op, SpecEdit.instruction lab pc ks op ->
    exists l, map fst l = ks /\ (forall lab', SpecEdit.instruction lab' pc (map snd l) op) /\ Forall swap l /\ fine l /\ exists l0, l = l0 ++ [(TSemi, TSemi)] /\ ~ In TSemi (map snd l0).
  Proof.
    intros pc ks op (pre & i & post & gi & gn & kg & kf & T & G & F & P & E).
    assert (I : In i table) by (rewrite T; apply in_elt).
    assert (CL : forall l, (forall lab', SpecEdit.instruction lab' pc (map snd l) op) -> Forall swap l -> exists l0, l = l0 ++ [(TSemi, TSemi)] /\ ~ In TSemi (map snd l0)).
    { intros l H W. destruct (H lab) as (pre0 & i0 & post0 & gi0 & gn0 & kg0 & kf0 & T0 & G0 & F0 & _ & E0).
      assert (I0 : In i0 table) by (rewrite T0; apply in_elt). destruct (form_tokens _ _ _ _ _ _ _ I0 F0) as (k0 & -> & NS).
      replace (kg0 ++ id (i_mnemonic i0) :: k0 ++ [TSemi]) with ((kg0 ++ id (i_mnemonic i0) :: k0) ++ [TSemi]) in E0 by (rewrite <- app_assoc; reflexivity).
      apply map_eq_app in E0 as (l0 & x & -> & EL & EX). apply map_eq_cons in EX as ((a, b) & y & -> & EB & EY). apply map_eq_nil in EY as ->. cbn [snd] in EB. subst b.
      apply Forall_app in W as (_ & W). inversion W as [|? ? S0 _]; subst. destruct S0 as [S0|(n & z & S0 & _)]; [|discriminate]. cbn [fst snd] in S0. subst a.
      exists l0. split; [reflexivity|]. rewrite EL. intros J. apply in_app_or in J as [J|[J|J]]; [|discriminate|exact (NS J)].
      destruct G0 as [(-> & _)| ->]; [destruct J|]. destruct J as [J|[J|[]]]; discriminate. }
    destruct (place_bound i) eqn:B.
    - pose proof (forallb_in _ _ _ _ jump_forms I) as X. cbv beta in X. rewrite B in X. apply andb_true_iff in X as (JN & JO).
      pose proof (forallb_in _ _ _ _ jump_shapes I) as X. cbv beta in X. rewrite JN in X. apply andb_true_iff in X as (_ & DT).
      pose proof (forallb_in _ _ _ _ table_listed I) as UL. cbv beta in UL. rewrite B in UL.
      destruct F as (ko & kn & notes & w & r & -> & AL & S & NT & NO & ->).
      destruct (list_numbered _ _ _ _ _ _ _ S JO DT UL) as (lo & EO & FO & SO).
      pose proof (bound_named _ I B) as M.
      exists (twice (kg ++ [id (i_mnemonic i)]) ++ lo ++ twice (kn ++ [TSemi])).
      assert (H : forall lab', SpecEdit.instruction lab' pc (map snd (twice (kg ++ [id (i_mnemonic i)]) ++ lo ++ twice (kn ++ [TSemi]))) (Opcode w r (notes_record notes))).
      { intros lab'. assert (F' : form_spells lab' pc i gi gn (map snd lo ++ kn ++ [TSemi]) (Opcode w r (notes_record notes))).
        { exists (map snd lo), kn, notes, w, r. split; [reflexivity|]. split; [exact AL|]. split; [apply SO|auto]. }
        exists pre, i, post, gi, gn, kg, (map snd lo ++ kn ++ [TSemi]). do 3 (split; [assumption|]). split.
        - intros j op2 J MN F2. destruct (commas_bound _ _ table_commas _ _ _ T _ J MN B) as (C1 & C2). exact (form_comma _ _ _ _ _ _ _ _ _ _ _ _ _ C1 C2 F' F2).
        - rewrite !map_app, !twice_snd, <- app_assoc. reflexivity. }
      assert (W : Forall swap (twice (kg ++ [id (i_mnemonic i)]) ++ lo ++ twice (kn ++ [TSemi]))).
      { apply Forall_app. split; [apply twice_swap|]. apply Forall_app. split; [|apply twice_swap]. apply Forall_impl with (2 := FO). intros x [(Q & _)|Q]; [left; exact Q|right; exact Q]. }
      split; [rewrite !map_app, !twice_fst, EO, E, <- !app_assoc; reflexivity|]. split; [exact H|]. split; [exact W|]. split; [|exact (CL _ H W)].
      intros A k z R EQ. apply app_eq_app in EQ as (l & [(EA & EQ)|(-> & EQ)]).
      { destruct l as [|y l].
        - rewrite app_nil_r in EA. subst A. cbn [app] in EQ. destruct lo as [|y lo].
          + cbn [app] in EQ. left. assert (IN : In (k, TImm z) (twice (kn ++ [TSemi]))) by (rewrite <- EQ; left; reflexivity). exact (twice_in _ _ IN).
          + injection EQ as <- _. inversion FO as [|? ? [(Q & _)|(name & z' & Q & LZ)] _]; subst; [left; exact Q|]. injection Q as -> <-. right. split; [eauto|].
            exists [], (twice kg), (id (i_mnemonic i), id (i_mnemonic i)). unfold twice. rewrite map_app. cbn [map app snd]. split; [reflexivity|]. split; [left; reflexivity|].
            destruct (jump_names_calm _ M) as (C1 & C2). split; [exact C1|]. intros m MI J. rewrite map_app in J. apply in_app_or in J as [J|[J|[]]]; [|exact (C2 m MI J)].
            fold (twice kg) in J. rewrite twice_snd in J. destruct G as [(-> & _)| ->]; [destruct J|]. destruct J as [J|[J|[]]]; discriminate.
        - left. injection EQ as <- _. assert (IN : In (k, TImm z) (twice (kg ++ [id (i_mnemonic i)]))) by (rewrite EA; apply in_elt). exact (twice_in _ _ IN). }
      apply app_eq_app in EQ as (l' & [(EA & EQ)|(-> & EQ)]).
      { destruct l' as [|y l'].
        - cbn [app] in EQ. left. assert (IN : In (k, TImm z) (twice (kn ++ [TSemi]))) by (rewrite <- EQ; left; reflexivity). exact (twice_in _ _ IN).
        - injection EQ as <- _. subst lo. apply Forall_app in FO as (FL & FO). inversion FO as [|? ? [(Q & _)|(name & z' & Q & LZ)] _]; subst; [left; exact Q|]. injection Q as -> <-. right. split; [eauto|].
          assert (CJ : forall x, jump_pair x -> ~ In (snd x) (map (fun s => id s) known_options) /\ forall c, In c calm_names -> snd x <> id c).
          { intros x [(Q & JW)|(n1 & z1 & -> & _)]; [rewrite <- Q; apply jump_word_calm; exact JW|]. cbn [snd]. split; [intros J; apply in_map_iff in J as (s & E0 & _); discriminate|intros c _; discriminate]. }
          destruct (jump_names_calm _ M) as (C1 & C2).
          assert (CG : forall m, In m calm_names -> ~ In (id m) (map snd (twice (kg ++ [id (i_mnemonic i)])))).
          { intros m MI J. rewrite twice_snd in J. apply in_app_or in J as [J|[J|[]]]; [|exact (C2 m MI J)]. destruct G as [(-> & _)| ->]; [destruct J|]. destruct J as [J|[J|[]]]; discriminate. }
          assert (CLs : forall m, In m calm_names -> ~ In (id m) (map snd l)).
          { intros m MI J. apply in_map_iff in J as (x & E0 & J). rewrite Forall_forall in FL. exact (proj2 (CJ x (FL x J)) m MI E0). }
          destruct l as [|x l _] using rev_ind.
          + exists [], (twice kg), (id (i_mnemonic i), id (i_mnemonic i)). split; [unfold twice; rewrite map_app, app_nil_r; reflexivity|]. split; [left; reflexivity|]. split; [exact C1|].
            intros m MI J. apply (CG m MI). unfold twice in *. rewrite map_app. exact J.
          + exists [], (twice (kg ++ [id (i_mnemonic i)]) ++ l), x. split; [cbn [app]; rewrite <- app_assoc; reflexivity|]. split; [left; reflexivity|]. apply Forall_app in FL as (FL & FX).
            split; [apply CJ; inversion FX; assumption|]. intros m MI J. rewrite <- app_assoc, map_app in J. apply in_app_or in J as [J|J]; [exact (CG m MI J)|exact (CLs m MI J)]. }
      left. assert (IN : In (k, TImm z) (twice (kn ++ [TSemi]))) by (rewrite EQ; apply in_elt). exact (twice_in _ _ IN).
    - assert (H : forall lab', SpecEdit.instruction lab' pc (map snd (twice ks)) op).
      { intros lab'. rewrite twice_snd. unfold place_bound in B. apply negb_false_iff in B. exists pre, i, post, gi, gn, kg, kf. split; [exact T|]. split; [exact G|].
        split; [eapply form_place; eassumption|]. split; [|exact E]. intros j op' J M F2. destruct (place_bound j) eqn:BJ.
        - destruct (commas_split _ _ table_commas _ _ _ T _ J M BJ) as (C1 & C2). exact (form_comma _ _ _ _ _ _ _ _ _ _ _ _ _ C1 C2 F F2).
        - unfold place_bound in BJ. apply negb_false_iff in BJ. apply (P j op' J M). eapply form_place; eassumption. }
      exists (twice ks). split; [apply twice_fst|]. split; [exact H|]. split; [apply twice_swap|]. split; [apply twice_fine|]. exact (CL _ H (twice_swap _)).
  Qed.
End Numbered.

(** ** Tokens of the two texts *)

Lemma swap_same : forall lab x, swap lab x -> (forall z, snd x <> TImm z) -> fst x = snd x.
Proof. intros lab x [E|(name & z & -> & _)] N; [exact E|]. exfalso. exact (N z eq_refl). Qed.
Lemma swap_number : forall lab x z, swap lab x -> fst x = TImm z -> snd x = TImm z.
Proof. intros lab x z [E|(name & z0 & -> & _)] N; [congruence|discriminate]. Qed.
Lemma swap_semi : forall lab x, swap lab x -> fst x = TSemi -> snd x = TSemi.
Proof. intros lab x [E|(name & z0 & -> & _)] N; [congruence|discriminate]. Qed.
Lemma swap_list : forall lab m, Forall (swap lab) m -> (forall z, ~ In (TImm z) (map snd m)) -> map fst m = map snd m.
Proof.
  intros lab m F N. induction F as [|x m S0 F IH]; [reflexivity|]. cbn [map] in *. f_equal.
  - apply (swap_same _ _ S0). intros z E. apply (N z). left. exact E.
  - apply IH. intros z I. apply (N z). right. exact I.
Qed.
Lemma fine_front : forall lab l B, fine lab (l ++ B) -> fine lab l.
Proof. intros lab l B F A k z R ->. apply (F A k z (R ++ B)). rewrite <- app_assoc. reflexivity. Qed.
Lemma fine_pad : forall lab l n, fine lab l -> fine lab (l ++ twice (repeat TNone n)).
Proof.
  intros lab l n F A k z B E. apply app_eq_app in E as (m & [(-> & E)|(-> & E)]).
  - destruct m as [|y m]; [|injection E as <- _; exact (F A k z m eq_refl)]. cbn [app] in E.
    assert (I : In (k, TImm z) (twice (repeat TNone n))) by (rewrite <- E; left; reflexivity). left. exact (twice_in _ _ I).
  - assert (I : In (k, TImm z) (twice (repeat TNone n))) by (rewrite E; apply in_elt). left. exact (twice_in _ _ I).
Qed.
Lemma fine_nil : forall lab, fine lab [].
Proof. intros lab A k z B E. destruct A; discriminate. Qed.

Lemma pairs_scan : forall c ks c', scan c ks c' -> forall l ts us d, lexes (rest c) (line c) us -> lexes (rest d) (line d) ts ->
  map fst us = map snd l -> map fst ts = map fst l -> exists n m B d', l ++ twice (repeat TNone n) = m ++ B /\ map snd m = ks /\ scan d (map fst m) d'.
Proof.
  intros c ks c' H. induction H as [c|c t c1 ks c' T H IH]; intros l ts us d L D E1 E2.
  - exists O, [], l, d. cbn [repeat twice map app]. rewrite app_nil_r. split; [reflexivity|]. split; [reflexivity|constructor].
  - destruct (lexes_step _ _ L) as (t0 & c0 & T0 & C). rewrite T in T0. injection T0 as <- <-.
    destruct (lexes_step _ _ D) as (u & d1 & U & C'). assert (E : forall (q : text), q = [] -> forall n, lexes q n []) by (intros q -> n; constructor; constructor; constructor).
    destruct l as [|(k, k') l].
    + apply map_eq_nil in E1. apply map_eq_nil in E2. subst us ts. destruct C as [(_ & K & R)|(us & X & _)]; [|discriminate]. destruct C' as [(_ & K' & R')|(us & X & _)]; [|discriminate].
      destruct (IH [] [] [] d1 (E _ R _) (E _ R' _) eq_refl eq_refl) as (n & m & B & d' & EQ & EK & SC). exists (S n), ((TNone, TNone) :: m), B, d'.
      cbn [app] in EQ. cbn [repeat twice map app snd fst]. fold (twice (repeat TNone n)). rewrite EQ, EK, K. split; [reflexivity|]. split; [reflexivity|]. rewrite <- K'. econstructor; eassumption.
    + destruct us as [|v us]; [discriminate|]. destruct ts as [|x ts]; [discriminate|]. cbn [map fst snd] in E1, E2. injection E1 as V E1. injection E2 as X E2.
      destruct C as [(Y & _)|(us0 & Y & L1)]; [discriminate|]. destruct C' as [(Y' & _)|(us1 & Y' & L2)]; [discriminate|]. injection Y as -> <-. injection Y' as -> <-.
      destruct (IH l ts us d1 L1 L2 E1 E2) as (n & m & B & d' & EQ & EK & SC). exists n, ((k, k') :: m), B, d'. cbn [app map fst snd]. rewrite EQ, EK.
      split; [reflexivity|]. unfold lined in V, X. cbn [fst] in V, X. rewrite V. split; [reflexivity|]. rewrite <- X. econstructor; eassumption.
Qed.

Section Back.
  Variables (lab : text -> option Z) (code code' : text) (l : pairs) (ts us : list (tkind * Z)).
  Hypothesis old : lexes code 0 ts.
  Hypothesis new : lexes code' 0 us.
  Hypothesis old_pairs : map fst ts = map fst l.
  Hypothesis new_pairs : map fst us = map snd l.
  Hypothesis swaps : Forall (swap lab) l.
  Hypothesis fines : fine lab l.
  Lemma occurs_back : forall ks, occurs code' ks -> exists m1 m2, map snd m2 = ks /\ occurs code (map fst m2) /\ Forall (swap lab) m2 /\ fine lab (m1 ++ m2).
  Proof.
    intros ks (pre & c & SC). destruct (pairs_scan _ _ _ SC l ts us (Cursor code 0 0) new old new_pairs old_pairs) as (n & m & B & d & EQ & EK & SD).
    apply map_eq_app in EK as (m1 & m2 & -> & E1 & E2). exists m1, m2. split; [exact E2|]. split; [exists (map fst m1), d; rewrite <- map_app; exact SD|].
    split; [|apply (fine_front _ _ B); rewrite <- EQ; apply fine_pad; exact fines].
    assert (F : Forall (swap lab) (l ++ twice (repeat TNone n))) by (apply Forall_app; split; [exact swaps|apply twice_swap]).
    rewrite EQ in F. apply Forall_app in F as (F & _). apply Forall_app in F as (_ & F). exact F.
  Qed.
  Lemma behind : forall (A : Type) (m1 : list A) t A0 s r, m1 ++ t = (A0 ++ [s]) ++ r -> ~ In s t -> exists m, r = m ++ t.
  Proof.
    intros A m1 t A0 s r E N. apply app_eq_app in E as (m & [(_ & E)|(E1 & E2)]); [exists m; exact E|].
    destruct m as [|x m _] using rev_ind; [exists []; symmetry; exact E2|]. rewrite app_assoc in E1. apply app_inj_tail in E1 as (_ & ->). exfalso. apply N. rewrite E2. apply in_or_app. left. apply in_elt.
  Qed.
  Lemma inside_back : forall m ks k, inside code' m ks k -> exists m2 x, map snd m2 = ks /\ snd x = k /\ inside code m (map fst m2) (fst x) /\
    Forall (swap lab) m2 /\ swap lab x /\ (In m calm_names -> fst x = k).
  Proof.
    intros m ks k (O & NS). destruct (occurs_back _ O) as (m1 & mm & E & O' & F & FI).
    apply map_eq_cons in E as (x0 & m3 & -> & E0 & E). apply map_eq_app in E as (m2 & m4 & -> & E2 & E). apply map_eq_cons in E as (x & m5 & -> & E & E5). apply map_eq_nil in E5 as ->.
    inversion F as [|? ? S0 F']; subst. apply Forall_app in F' as (F2 & F'). inversion F' as [|? ? SX _]; subst.
    assert (X0 : fst x0 = id m) by (rewrite <- E0; apply (swap_same _ _ S0); rewrite E0; discriminate).
    exists m2, x. split; [reflexivity|]. split; [reflexivity|]. split.
    - cbn [map] in O'. rewrite map_app, X0 in O'. split; [exact O'|]. intros I. apply NS. apply in_map_iff in I as (y & Y & I). rewrite Forall_forall in F2. apply in_map_iff. exists y.
      split; [exact (swap_semi _ _ (F2 y I) Y)|exact I].
    - split; [exact F2|]. split; [exact SX|]. intros M. destruct SX as [SX|(name & z & -> & L)]; [exact SX|]. exfalso.
      replace (m1 ++ x0 :: m2 ++ [(TIdent name, TImm z)]) with ((m1 ++ x0 :: m2) ++ (TIdent name, TImm z) :: []) in FI by (rewrite <- app_assoc; reflexivity).
      destruct (FI _ _ _ _ eq_refl) as [Y|(_ & A1 & A2 & y & EA & B & _ & C)]; [discriminate|]. apply (C m M).
      assert (I : exists r, A2 ++ [y] = r ++ x0 :: m2).
      { destruct B as [->|(A0 & ->)]; [exists m1; symmetry; exact EA|]. apply (behind _ _ _ _ _ _ EA). intros [J|J]; [rewrite J in E0; discriminate|]. apply NS.
        apply in_map_iff. exists (TSemi, TSemi). split; [reflexivity|exact J]. }
      destruct I as (r & ->). rewrite <- E0. apply in_map. apply in_elt.
  Qed.
  Lemma option_back : forall m k, In m known_options -> occurs code' [id m; k] -> occurs code [id m; k].
  Proof.
    intros m k M O. destruct (occurs_back _ O) as (m1 & mm & E & O' & F & FI).
    apply map_eq_cons in E as (x0 & m3 & -> & E0 & E). apply map_eq_cons in E as (x & m5 & -> & E & E5). apply map_eq_nil in E5 as ->.
    inversion F as [|? ? S0 F']; subst. inversion F' as [|? ? SX _]; subst.
    assert (X0 : fst x0 = id m) by (rewrite <- E0; apply (swap_same _ _ S0); rewrite E0; discriminate).
    cbn [map] in O'. rewrite X0 in O'. destruct SX as [SX|(name & z & -> & L)]; [rewrite <- SX; exact O'|]. exfalso.
    replace (m1 ++ [x0; (TIdent name, TImm z)]) with ((m1 ++ [x0]) ++ (TIdent name, TImm z) :: []) in FI by (rewrite <- app_assoc; reflexivity).
    destruct (FI _ _ _ _ eq_refl) as [Y|(_ & A1 & A2 & y & EA & _ & C & _)]; [discriminate|]. rewrite app_assoc in EA. apply app_inj_tail in EA as (_ & <-).
    apply C. rewrite E0. apply (in_map (fun s => id s)). exact M.
  Qed.
  Lemma pair_in : forall m2 s, Forall (swap lab) m2 -> In (id s) (map snd m2) -> In (id s) (map fst m2).
  Proof.
    intros m2 s F I. apply in_map_iff in I as (x & E & I). rewrite Forall_forall in F. apply in_map_iff. exists x. split; [|exact I].
    rewrite <- E. apply (swap_same _ _ (F x I)). rewrite E. discriminate.
  Qed.
  Hypothesis places : forall name z, lab name = Some z -> 0 <= z.
  Lemma back_tame : closed code' -> tame code -> tame code'.
  Proof.
    intros C T r I. pose proof (T r I) as X. cbn [rules In] in I.
    destruct I as [<-|[<-|[<-|[<-|[<-|[<-|[<-|[<-|[]]]]]]]]].
    - exact C.
    - intros ks k H. destruct (inside_back _ _ _ H) as (m2 & x & E & <- & H0 & F & S0 & Q). apply map_eq_app in E as (m3 & m4 & -> & E3 & E4).
      apply map_eq_cons in E4 as (y & m5 & -> & E4 & E5). apply map_eq_nil in E5 as ->. apply Forall_app in F as (F3 & F4). inversion F4 as [|? ? SY _]; subst.
      assert (Y : fst y = TComma) by (rewrite <- E4; apply (swap_same _ _ SY); rewrite E4; discriminate).
      rewrite map_app in H0. cbn [map] in H0. rewrite Y, Q in H0 by (left; reflexivity). exact (X _ _ H0).
    - intros e c n H1 H2 H. destruct (inside_back _ _ _ H) as (m2 & x & E & EX & H0 & F & S0 & _).
      rewrite (swap_list _ _ F), E, (swap_same _ _ S0), EX in H0; [exact (X _ _ _ H1 H2 H0)|rewrite EX; discriminate|].
      rewrite E. intros z J. apply in_app_or in J as [J|J].
      + destruct H1 as [->| ->]; [destruct J|destruct J as [J|[]]; discriminate].
      + destruct H2 as [->|(m0 & _ & ->)]; [destruct J|destruct J as [J|[]]; discriminate].
    - intros m ks n H1 H. destruct (inside_back _ _ _ H) as (m2 & x & E & EX & H0 & F & S0 & Q). apply map_eq_app in E as (m3 & m4 & -> & E3 & E4).
      apply map_eq_cons in E4 as (y & m5 & -> & E4 & E5). apply map_eq_nil in E5 as ->. apply Forall_app in F as (F3 & F4). inversion F4 as [|? ? SY _]; subst.
      assert (Y : fst y = TComma) by (rewrite <- E4; apply (swap_same _ _ SY); rewrite E4; discriminate).
      rewrite map_app in H0. cbn [map] in H0. rewrite Y, (swap_same _ _ S0), EX in H0 by (rewrite EX; discriminate). exact (X _ _ _ H1 H0).
    - intros m ks z H1 H. destruct (inside_back _ _ _ H) as (m2 & x & E & EX & H0 & F & S0 & Q). destruct S0 as [S0|(name & z0 & -> & L)].
      + rewrite S0, EX in H0. exact (X _ _ _ H1 H0).
      + cbn [snd] in EX. injection EX as <-. pose proof (places _ _ L). lia.
    - intros m k H1 H. apply (X m k H1). apply option_back; [|exact H]. cbn in H1 |- *. tauto.
    - intros k H. apply (X k). apply option_back; [cbn; tauto|exact H].
    - intros z H. apply (X z). apply option_back; [cbn; tauto|exact H].
  Qed.
  Lemma back_free : ends_read code' -> ~ In NUL code' -> assert_free code -> assert_free code'.
  Proof.
    intros C N T r I. pose proof (T r I) as X. cbn [assert_rules In] in I.
    destruct I as [<-|[<-|[<-|[<-|[<-|[<-|[<-|[]]]]]]]].
    - intros m ln ks k H1 H H3 H4. destruct (inside_back _ _ _ H) as (m2 & x & E & EX & H0 & F & S0 & _).
      assert (NI : forall z, k <> TImm z) by (intros z ->; cbn in H1; fin_in; inversion H1; subst; cbn in H4; fin_in; discriminate).
      rewrite (swap_same _ _ S0), EX in H0 by (rewrite EX; exact NI). apply (X _ _ _ _ H1 H0); [|exact H4]. apply pair_in; [exact F|]. rewrite E. exact H3.
    - intros ks H. destruct (inside_back _ _ _ H) as (m2 & x & E & EX & H0 & F & S0 & Q). rewrite Q in H0 by (right; left; reflexivity). exact (X _ H0).
    - intros ks H1 H. destruct (inside_back _ _ _ H) as (m2 & x & E & EX & H0 & F & S0 & Q). rewrite (swap_same _ _ S0), EX in H0 by (rewrite EX; discriminate).
      apply (X (map fst m2)); [|exact H0]. apply pair_in; [exact F|]. rewrite E. exact H1.
    - intros m ks w0 H1 H2 H. destruct (inside_back _ _ _ H) as (m2 & x & E & EX & H0 & F & S0 & Q). rewrite (swap_same _ _ S0), EX in H0 by (rewrite EX; discriminate). exact (X _ _ _ H1 H2 H0).
    - intros ks H. destruct (inside_back _ _ _ H) as (m2 & x & E & EX & H0 & F & S0 & Q). rewrite (swap_same _ _ S0), EX in H0 by (rewrite EX; discriminate). exact (X _ H0).
    - exact C.
    - exact N.
  Qed.
End Back.

(** ** Statements *)

Inductive paged (lab : text -> option Z) : nat -> list (list tkind) -> list setting -> list opcode -> Prop :=
| paged_end : forall n, paged lab n [] [] []
| paged_option : forall n s ks sts ss ops, written s ks -> sts <> [] -> paged lab n sts ss ops -> paged lab n (ks :: sts) (s :: ss) ops
| paged_instruction : forall n ks op sts ss ops, SpecEdit.instruction lab (addr n) ks op -> paged lab (S n) sts ss ops -> paged lab n (ks :: sts) ss (op :: ops).

Lemma written_some : forall s ks, written s ks -> ks <> [].
Proof. intros s ks W. destruct W; discriminate. Qed.
Lemma written_semi : forall s ks, written s ks -> ~ In TSemi ks.
Proof. intros s ks W. destruct W; cbn; intros I; repeat destruct I as [I|I]; try discriminate; exact I. Qed.
Lemma written_calm : forall s ks, written s ks -> forall m, In m calm_names -> ~ In (id m) ks.
Proof.
  intros s ks W m M. assert (D : forall x y, x <> y -> id x <> id y) by (intros x y N E; apply N, lit_inj; unfold id in E; congruence).
  assert (T : forall n ty, In (n, ty) type_names -> id n <> id m).
  { intros n ty I. apply D. intros ->. cbn in I, M. fin_in; repeat match goal with H : (_, _) = _ |- _ => inversion H; clear H; subst end; discriminate. }
  destruct W as [n ty I|n ty I|x y z|z|z|nm NK]; cbn [In]; intros J; repeat destruct J as [J|J]; try discriminate J; try exact J; try (exact (T _ _ I J));
    try (revert J; apply D; cbn in M; fin_in; discriminate).
  injection J as E. cbn in M. fin_in; discriminate E.
Qed.
Lemma instruction_nonempty : forall lab pc ks op, SpecEdit.instruction lab pc ks op -> ks <> [].
Proof. intros lab pc ks op (pre & i & post & gi & gn & kg & kf & _ & _ & _ & _ & ->) E. destruct kg; discriminate. Qed.

Lemma sentence_paged : forall lab n ts ss ops, sentence lab n ts ss ops -> exists sts : list pairs,
  map fst ts = map fst (List.concat sts) /\ Forall (swap lab) (List.concat sts) /\ fine lab (List.concat sts) /\
  forall lab', paged lab' n (map (map snd) sts) ss ops.
Proof.
  intros lab n ts ss ops H. induction H as [n|n s t us v ts ss ops W OL NL H IH|n pre i post gi gn kg kf us ts ss op ops T G F P E H IH].
  - exists []. split; [reflexivity|]. split; [constructor|]. split; [apply fine_nil|]. intros lab'. constructor.
  - destruct IH as (sts & E1 & S1 & F1 & P1). exists (twice (map fst (t :: us)) :: sts). cbn [List.concat]. rewrite !map_app, twice_fst, <- E1.
    split; [change (t :: us ++ v :: ts) with ((t :: us) ++ v :: ts); apply map_app|]. split; [apply Forall_app; split; [apply twice_swap|exact S1]|]. split.
    + apply fine_app; [apply twice_fine|exact F1|right]. rewrite twice_snd. exact (written_calm _ _ W).
    + intros lab'. cbn [map]. rewrite twice_snd. constructor; [exact W| |apply P1]. intros X. apply map_eq_nil in X. subst sts. discriminate E1.
  - destruct IH as (sts & E1 & S1 & F1 & P1).
    destruct (instruction_numbered lab (addr n) (map fst us) op) as (l & L1 & L2 & L3 & L4 & l0 & L5 & _); [exists pre, i, post, gi, gn, kg, kf; auto 10|].
    exists (l :: sts). cbn [List.concat]. rewrite !map_app, L1, E1. split; [reflexivity|]. split; [apply Forall_app; auto|]. split; [apply fine_app; eauto|].
    intros lab'. cbn [map]. constructor; [apply L2|apply P1].
Qed.

Fixpoint tokens_on (n : Z) (s : sheet) : list (tkind * Z) :=
  match s with [] => [] | x :: s => map (fun k => (k, n)) (snd x) ++ tokens_on (n + 1) s end.
Lemma tokens_on_fst : forall s n, map fst (tokens_on n s) = List.concat (map snd s).
Proof. induction s as [|x s IH]; intros n; [reflexivity|]. cbn [tokens_on map List.concat]. rewrite map_app, IH, map_map. cbn [fst]. rewrite map_id. reflexivity. Qed.
Lemma tokens_on_later : forall s n t, In t (tokens_on n s) -> n <= snd t.
Proof.
  induction s as [|x s IH]; intros n t I; [destruct I|]. cbn [tokens_on] in I. apply in_app_or in I as [I|I].
  - apply in_map_iff in I as (k & <- & _). cbn [snd]. lia.
  - specialize (IH _ _ I). lia.
Qed.
Definition filled (ks : list tkind) : bool := match ks with [] => false | _ => true end.
Lemma filled_concat : forall l, List.concat (filter filled l) = List.concat l.
Proof. induction l as [|[|k ks] l IH]; [reflexivity|exact IH|]. cbn [filter filled List.concat]. rewrite IH. reflexivity. Qed.
Lemma paged_sentence : forall lab s n sts ss ops, paged lab n sts ss ops -> filter filled (map snd s) = sts -> forall l, sentence lab n (tokens_on l s) ss ops.
Proof.
  intros lab. induction s as [|(b, [|k ks]) s IH]; intros n sts ss ops P E l.
  - subst sts. inversion P; subst. constructor.
  - cbn [map snd filter filled] in E. cbn [tokens_on map snd app]. exact (IH _ _ _ _ P E _).
  - cbn [map snd filter filled] in E. cbn [tokens_on snd]. subst sts. inversion P as [|? s0 ? ? ? ? W NE P1|? ? op ? ? ? IN P1]; subst.
    + assert (Y : exists v ts, tokens_on (l + 1) s = v :: ts).
      { destruct (tokens_on (l + 1) s) as [|v ts] eqn:Y; [exfalso|eauto]. assert (X : List.concat (map snd s) = []) by (rewrite <- (tokens_on_fst s (l + 1)), Y; reflexivity).
        rewrite <- filled_concat in X. destruct (filter filled (map snd s)) as [|x f] eqn:FE; [apply NE; reflexivity|]. assert (I : In x (filter filled (map snd s))) by (rewrite FE; left; reflexivity).
        apply filter_In in I as (_ & I). destruct x; [discriminate|discriminate X]. }
      destruct Y as (v & ts & Y). pose proof (IH _ _ _ _ P1 eq_refl (l + 1)) as SE. rewrite Y in SE |- *. cbn [map app].
      constructor; [cbn [map fst]; rewrite map_map; cbn [fst]; rewrite map_id; exact W| | |exact SE].
      * intros _. apply Forall_forall. intros u U. apply in_map_iff in U as (k' & <- & _). reflexivity.
      * assert (I : In v (tokens_on (l + 1) s)) by (rewrite Y; left; reflexivity). apply tokens_on_later in I. cbn [snd]. lia.
    + apply sentence_of_instruction; [|exact (IH _ _ _ _ P1 eq_refl (l + 1))]. rewrite map_map. cbn [fst]. rewrite map_id. exact IN.
Qed.
Lemma paged_filled : forall lab n sts ss ops, paged lab n sts ss ops -> filter filled sts = sts.
Proof.
  intros lab n sts ss ops P. induction P as [n|n s ks sts ss ops W NE P IH|n ks op sts ss ops IN P IH]; [reflexivity| |]; cbn [filter]; rewrite IH.
  - pose proof (written_some _ _ W). destruct ks; [contradiction|reflexivity].
  - pose proof (instruction_nonempty _ _ _ _ IN). destruct ks; [contradiction|reflexivity].
Qed.
Definition semi_count (ks : list tkind) : nat := list_sum (map one_semi ks).
Lemma semi_count_app : forall a b, semi_count (a ++ b) = (semi_count a + semi_count b)%nat.
Proof. intros a b. unfold semi_count. rewrite map_app, list_sum_app. reflexivity. Qed.
Lemma semi_count_none : forall ks, ~ In TSemi ks -> semi_count ks = O.
Proof.
  induction ks as [|k ks IH]; intros N; [reflexivity|]. change (semi_count (k :: ks)) with (one_semi k + semi_count ks)%nat. rewrite IH by (intros I; apply N; right; exact I).
  destruct k; try reflexivity. exfalso. apply N. left. reflexivity.
Qed.
Lemma instruction_semis : forall lab pc ks op, SpecEdit.instruction lab pc ks op -> semi_count ks = 1%nat.
Proof.
  intros lab pc ks op H. destruct (instruction_numbered _ _ _ _ H) as (l & <- & _ & SW & _ & l0 & -> & N). rewrite map_app, semi_count_app. apply Forall_app in SW as (SW & _).
  rewrite semi_count_none; [reflexivity|]. intros I. apply N. apply in_map_iff in I as (x & E & I). rewrite Forall_forall in SW. apply in_map_iff. exists x. split; [exact (swap_semi _ _ (SW x I) E)|exact I].
Qed.
Lemma paged_semis : forall lab n sts ss ops, paged lab n sts ss ops -> semi_count (List.concat sts) = List.length ops.
Proof.
  intros lab n sts ss ops P. induction P as [n|n s ks sts ss ops W NE P IH|n ks op sts ss ops IN P IH]; [reflexivity| |]; cbn [List.concat]; rewrite semi_count_app, IH.
  - rewrite (semi_count_none _ (written_semi _ _ W)). reflexivity.
  - rewrite (instruction_semis _ _ _ _ IN). reflexivity.
Qed.
Lemma paged_split : forall lab n sts ss ops, paged lab n sts ss ops -> forall k, (k <= List.length ops)%nat -> exists s1 s2, sts = s1 ++ s2 /\ semi_count (List.concat s1) = k.
Proof.
  intros lab n sts ss ops P. induction P as [n|n s ks sts ss ops W NE P IH|n ks op sts ss ops IN P IH]; intros k K.
  - exists [], []. cbn in K. assert (k = O) as -> by lia. split; reflexivity.
  - destruct (IH k K) as (s1 & s2 & -> & E). exists (ks :: s1), s2. split; [reflexivity|]. cbn [List.concat]. rewrite semi_count_app, (semi_count_none _ (written_semi _ _ W)), E. reflexivity.
  - destruct k as [|k]; [exists [], (ks :: sts); split; reflexivity|]. cbn [List.length] in K. destruct (IH k) as (s1 & s2 & -> & E); [lia|]. exists (ks :: s1), s2. split; [reflexivity|].
    cbn [List.concat]. rewrite semi_count_app, (instruction_semis _ _ _ _ IN), E. reflexivity.
Qed.
Lemma paged_statements : forall lab n sts ss ops, paged lab n sts ss ops -> forall ks, In ks sts -> (exists s, written s ks) \/ exists pc op, SpecEdit.instruction lab pc ks op.
Proof.
  intros lab n sts ss ops P. induction P as [n|n s ks sts ss ops W NE P IH|n ks op sts ss ops IN P IH]; intros x I; [destruct I| |]; destruct I as [<-|I]; eauto.
Qed.

(** ** Texts *)

Lemma lexes_semis : forall q n ts, lexes q n ts -> ends_read q -> semis q = semi_count (map fst ts).
Proof.
  intros q n ts L. induction L as [g n G|g s k q n ts G LX L IH]; intros E; [apply (gap_semis _ _ G E)|].
  destruct (ends_read_token _ _ _ _ G LX E) as (E1 & E2 & E3). rewrite !semis_app, (gap_semis _ _ G E1), (lexeme_semis _ _ _ LX E2), (IH E3). reflexivity.
Qed.
Lemma lexes_gap : forall g q n ts, gap g q -> lexes q (n + newlines g) ts -> lexes (g ++ q) n ts.
Proof.
  intros g q n ts G L. remember (n + newlines g) as m eqn:M. destruct L as [g' m G'|g' s k q m ts G' LX L].
  - constructor. apply gap_app; [rewrite app_nil_r; exact G|exact G'].
  - rewrite app_assoc. replace (m + newlines g') with (n + newlines (g ++ g')) by (rewrite newlines_app; lia). constructor; [apply gap_app; assumption|exact LX|].
    replace (n + newlines ((g ++ g') ++ s)) with (m + newlines (g' ++ s)) by (rewrite !newlines_app; lia). exact L.
Qed.

Definition body (ks : list tkind) : text := flat_map (fun k => " " :: spell k) ks.
Definition clean (k : tkind) : Prop := possible k /\ tidy_kind k.
Definition clean_sheet (s : sheet) : Prop := Forall (fun x => Forall clean (snd x)) s.
Definition spaced (q : text) : Prop := begins [" "; "010"] q.
Lemma spaced_apart : forall q, spaced q -> apart_from q.
Proof. intros q (ch & q' & -> & I). right. exists ch, q'. split; [reflexivity|]. cbn in I |- *. tauto. Qed.
Lemma body_spaced : forall ks q, spaced q -> spaced (body ks ++ q).
Proof. intros [|k ks] q H; [exact H|]. eexists _, _. split; [reflexivity|left; reflexivity]. Qed.
Lemma lf_spaced : forall q, spaced (["010"] ++ q).
Proof. intros q. exists "010", q. split; [reflexivity|cbn; tauto]. Qed.
Lemma body_lexes : forall ks q n ts, Forall clean ks -> spaced q -> lexes q n ts -> lexes (body ks ++ q) n (map (fun k => (k, n)) ks ++ ts).
Proof.
  induction ks as [|k ks IH]; intros q n ts F A L; [exact L|]. inversion F as [|? ? (P & T) F']; subst.
  change (body (k :: ks) ++ q) with ([" "] ++ (spell k ++ body ks) ++ q). rewrite <- (app_assoc (spell k)). cbn [map]. cbn [app].
  pose proof (proj1 (spell_clean k P T)) as NL. assert (N0 : newlines [" "] = 0) by reflexivity.
  replace n with (n + newlines [" "]) at 2 by lia. change (" " :: spell k ++ body ks ++ q) with ([" "] ++ spell k ++ (body ks ++ q)). constructor.
  - constructor. constructor; [cbn; tauto|constructor].
  - apply spelled; [exact P|]. apply spaced_apart, body_spaced, A.
  - rewrite newlines_app, (newlines_none _ NL). replace (n + (newlines [" "] + 0)) with n by lia. apply IH; assumption.
Qed.
Definition main_word : text := lit "main:".
Lemma main_name : label_name (lit "main").
Proof. exists "m", (lit "ain"). split; [reflexivity|]. split; [apply letter_iff; reflexivity|]. apply Forall_forall. intros c I. left. apply letter_iff. cbn in I. fin_in; reflexivity. Qed.
Lemma main_gap : forall q, spaced q -> gap main_word q.
Proof.
  intros q (ch & q' & -> & I). change main_word with ([] ++ main_word ++ []). constructor; [constructor| |constructor; constructor].
  split; [apply (label_word (lit "main")); [exact main_name|intros (x & E); discriminate]|]. split; [exists (lit "main"); reflexivity|]. right. exists ch, q'. split; [reflexivity|].
  unfold separators. apply in_or_app. left. cbn in I |- *. tauto.
Qed.
Lemma line_split : forall x s, sheet_text (x :: s) = (if fst x then main_word else []) ++ body (snd x) ++ ["010"] ++ sheet_text s.
Proof. intros x s. change (sheet_text (x :: s)) with (line_text x ++ sheet_text s). unfold line_text. rewrite <- !app_assoc. reflexivity. Qed.
Lemma sheet_lexes : forall s n, clean_sheet s -> lexes (sheet_text s) n (tokens_on n s).
Proof.
  induction s as [|x s IH]; intros n F; [constructor; constructor; constructor|]. inversion F as [|? ? C F']; subst. rewrite line_split. cbn [tokens_on].
  assert (B : lexes (body (snd x) ++ ["010"] ++ sheet_text s) n (map (fun k => (k, n)) (snd x) ++ tokens_on (n + 1) s)).
  { apply body_lexes; [exact C|apply lf_spaced|]. apply lexes_gap; [constructor; constructor; [cbn; tauto|constructor]|]. apply IH. exact F'. }
  destruct (fst x); [|exact B]. apply lexes_gap; [apply main_gap, body_spaced, lf_spaced|]. replace (n + newlines main_word) with n by (cbn; lia). exact B.
Qed.

Lemma body_clean : forall ks, Forall clean ks -> ~ In "010" (body ks) /\ ~ In NUL (body ks) /\ semis (body ks) = semi_count ks.
Proof.
  induction ks as [|k ks IH]; intros F; [cbn; tauto|]. inversion F as [|? ? (P & T) F']; subst. destruct (IH F') as (A & B & C). destruct (spell_clean k P T) as (A' & B' & C' & _).
  change (body (k :: ks)) with ([" "] ++ spell k ++ body ks). split; [|split].
  - intros I. apply in_app_or in I as [[I|[]]|I]; [discriminate|]. apply in_app_or in I as [I|I]; tauto.
  - intros I. apply in_app_or in I as [[I|[]]|I]; [discriminate|]. apply in_app_or in I as [I|I]; tauto.
  - rewrite !semis_app, C, C'. reflexivity.
Qed.
Lemma sheet_nul : forall s, clean_sheet s -> ~ In NUL (sheet_text s).
Proof.
  induction s as [|x s IH]; intros F; [cbn; tauto|]. inversion F as [|? ? C F']; subst. rewrite line_split. intros I. apply in_app_or in I as [I|I].
  - destruct (fst x); [|destruct I]. cbn in I. fin_in; discriminate.
  - apply in_app_or in I as [I|I]; [exact (proj1 (proj2 (body_clean _ C)) I)|]. apply in_app_or in I as [[I|[]]|I]; [discriminate|exact (IH F' I)].
Qed.
Lemma sheet_semis : forall s, clean_sheet s -> semis (sheet_text s) = semi_count (List.concat (map snd s)).
Proof.
  induction s as [|x s IH]; intros F; [reflexivity|]. inversion F as [|? ? C F']; subst. rewrite line_split, !semis_app, (IH F'), (proj2 (proj2 (body_clean _ C))). cbn [map List.concat].
  rewrite semi_count_app. destruct (fst x); reflexivity.
Qed.
Lemma sheet_closed : forall s, closed (sheet_text s).
Proof.
  induction s as [|x s IH]; [intros p ch E; destruct p; discriminate|]. rewrite line_split, !app_assoc. apply closed_join; [|exact IH]. intros _ p ch E. apply app_inj_tail in E as (_ & <-).
  intros [L|[D|D]]; [apply letter_iff in L; discriminate|apply digit_b_iff in D; discriminate|discriminate].
Qed.
Lemma ends_read_space : forall ch s, ch <> "P" -> ch <> "p" -> ends_read s -> ends_read (ch :: s).
Proof.
  intros ch s N1 N2 E a p b P X. destruct a as [|y a]; cbn [app] in X.
  - injection X as -> _. exfalso. cbn in P. fin_in; congruence.
  - injection X as <- X. destruct (E a p b P X) as (a' & c & -> & N). exists (ch :: a'), c. auto.
Qed.
Lemma spaced_semi : forall q, spaced q -> ~ begins [";"] q.
Proof. intros q (ch & q' & -> & I) (ch' & q2 & E & J). injection E as -> _. cbn in I, J. fin_in; discriminate. Qed.
Lemma body_read : forall ks q, Forall clean ks -> spaced q -> ends_read q -> ends_read (body ks ++ q).
Proof.
  induction ks as [|k ks IH]; intros q F A E; [exact E|]. inversion F as [|? ? (P & T) F']; subst.
  change (body (k :: ks) ++ q) with ((" " :: spell k ++ body ks) ++ q). rewrite app_comm_cons, <- app_assoc. apply ends_read_join.
  - apply ends_read_space; [discriminate|discriminate|]. apply (spell_clean k P T).
  - apply IH; assumption.
  - apply spaced_semi, body_spaced, A.
Qed.
Lemma sheet_read : forall s, clean_sheet s -> ends_read (sheet_text s).
Proof.
  induction s as [|x s IH]; intros F; [intros a p b _ E; destruct a; discriminate|]. inversion F as [|? ? C F']; subst. rewrite line_split.
  assert (B : ends_read (body (snd x) ++ ["010"] ++ sheet_text s)).
  { apply body_read; [exact C|apply lf_spaced|]. apply ends_read_space; [discriminate|discriminate|]. apply IH. exact F'. }
  destruct (fst x); [|exact B]. apply ends_read_join; [apply ends_read_none; cbn; intros I; fin_in; discriminate|exact B|apply spaced_semi, body_spaced, lf_spaced].
Qed.

(** Where labels are defined. *)
Lemma spaced_unlabelled : forall q n, spaced q -> unlabelled_start q n.
Proof. intros q n (ch & q' & -> & I). apply unlabelled_first. cbn in I. fin_in; reflexivity. Qed.
Lemma marked_body : forall b ks q n m, Forall clean ks -> (marked b (body ks ++ ["010"] ++ q) n m <-> exists m', marked true q n m' /\ m = (semi_count ks + m')%nat).
Proof.
  intros b ks q n m F. destruct (body_clean _ F) as (A & _ & C). destruct (body ks) as [|ch t] eqn:E.
  - cbn [app] in *. rewrite marked_lf. rewrite <- C. split; [intros H; exists m; split; [exact H|reflexivity]|intros (m' & H & ->); exact H].
  - rewrite <- E in *. rewrite marked_line; [|exact A|rewrite E; discriminate|intros _; apply spaced_unlabelled, body_spaced, lf_spaced].
    rewrite C. split; intros (m' & H & ->); exists m'; (split; [|reflexivity]); [apply marked_lf in H; exact H|apply marked_lf; exact H].
Qed.
Lemma marked_main : forall q n m, marked true (main_word ++ q) n m <-> (n = lit "main" /\ m = O) \/ marked false q n m.
Proof.
  intros q n m. change (main_word ++ q) with ("m" :: lit "ain:" ++ q). rewrite marked_cons.
  assert (X : forall m', marked (Ascii.eqb "m" "010") (lit "ain:" ++ q) n m' <-> marked false q n m').
  { intros m'. change (Ascii.eqb "m" "010") with false. rewrite marked_line; [|cbn; intros I; fin_in; discriminate|discriminate|discriminate].
    split; [intros (m2 & H & ->); exact H|intros H; exists m'; split; [exact H|reflexivity]]. }
  split.
  - intros [(_ & LN & -> & x & E)|(m' & H & ->)]; [left|right; apply X; exact H]. split; [|reflexivity].
    change ("m" :: lit "ain:" ++ q) with (lit "main" ++ ":" :: q) in E. symmetry.
    assert (U : forall (a b : text) (x y : text), ~ In ":" a -> ~ In ":" b -> a ++ ":" :: x = b ++ ":" :: y -> a = b).
    { induction a as [|c a IH]; intros [|d b] x0 y0 NA NB E0; [reflexivity|injection E0 as E0 _; destruct NB; left; congruence|injection E0 as E0 _; destruct NA; left; congruence|].
      injection E0 as -> E0. f_equal. apply (IH b x0 y0); [intros I; apply NA; right; exact I|intros I; apply NB; right; exact I|exact E0]. }
    assert (NC : forall l, label_name l -> ~ In ":" l).
    { intros l (c & t & -> & L & F) I. assert (Y : forall ch, name_char ch -> ch <> ":") by (intros ch NC; apply (name_char_inner ch NC)).
      destruct I as [I|I]; [exact (Y c (or_introl L) I)|]. rewrite Forall_forall in F. exact (Y _ (F _ I) eq_refl). }
    apply (U _ _ q x); [apply NC, main_name|apply NC, LN|exact E].
  - intros [(-> & ->)|H]; [left|right].
    + split; [reflexivity|]. split; [exact main_name|]. split; [reflexivity|]. exists q. reflexivity.
    + exists m. split; [apply X; exact H|reflexivity].
Qed.
Lemma sheet_marked : forall s n m, clean_sheet s -> (marked true (sheet_text s) n m <-> exists s1 ks s2, s = s1 ++ (true, ks) :: s2 /\ n = lit "main" /\ m = semi_count (List.concat (map snd s1))).
Proof.
  induction s as [|(b, ks) s IH]; intros n m F.
  - split; [intros H; destruct (marked_nil _ _ _ H)|intros (s1 & ks & s2 & E & _); destruct s1; discriminate].
  - inversion F as [|? ? C F']; subst. cbn [snd] in C. rewrite line_split. cbn [fst snd].
    assert (X : forall b0, marked b0 (body ks ++ ["010"] ++ sheet_text s) n m <-> exists s1 ks' s2, s = s1 ++ (true, ks') :: s2 /\ n = lit "main" /\ m = (semi_count ks + semi_count (List.concat (map snd s1)))%nat).
    { intros b0. rewrite (marked_body b0 _ _ _ _ C). split.
      - intros (m' & H & ->). apply (IH n m' F') in H as (s1 & ks' & s2 & -> & -> & ->). eauto 10.
      - intros (s1 & ks' & s2 & -> & -> & ->). eexists. split; [|reflexivity]. apply (IH _ _ F'). eauto 10. }
    split.
    + intros H. assert (D : (b = true /\ n = lit "main" /\ m = O) \/ marked b (body ks ++ ["010"] ++ sheet_text s) n m \/ marked false (body ks ++ ["010"] ++ sheet_text s) n m).
      { destruct b; [|right; right; apply X; apply X in H; exact H]. apply marked_main in H as [(-> & ->)|H]; auto. }
      destruct D as [(-> & -> & ->)|D]; [exists [], ks, s; auto|]. assert (D' : marked b (body ks ++ ["010"] ++ sheet_text s) n m) by (destruct D as [D|D]; [exact D|apply X; apply X in D; exact D]).
      apply X in D' as (s1 & ks' & s2 & -> & -> & ->). exists ((b, ks) :: s1), ks', s2. split; [reflexivity|]. split; [reflexivity|]. cbn [map snd List.concat]. rewrite semi_count_app. reflexivity.
    + intros (s1 & ks' & s2 & E & -> & ->). destruct s1 as [|y s1].
      * injection E as -> -> ->. apply marked_main. left. split; reflexivity.
      * injection E as <- ->.
        assert (H : forall b0, marked b0 (body ks ++ ["010"] ++ sheet_text (s1 ++ (true, ks') :: s2)) (lit "main") (semi_count (List.concat (map snd ((b, ks) :: s1))))).
        { intros b0. apply X. exists s1, ks', s2. split; [reflexivity|]. split; [reflexivity|]. cbn [map snd List.concat]. apply semi_count_app. }
        destruct b; [apply marked_main; right; apply H|apply H].
Qed.

(** ** Lengths *)

Lemma figures_length : forall w v, List.length (figures w v) = w.
Proof. induction w as [|w IH]; intros v; [reflexivity|]. cbn [figures]. rewrite app_length, IH. cbn. lia. Qed.
Lemma trimmed_length : forall s, (List.length (trimmed s) <= List.length s)%nat.
Proof. induction s as [|ch s IH]; [reflexivity|]. cbn [trimmed]. destruct (Ascii.eqb ch "0"); cbn [List.length]; lia. Qed.
Lemma whole_length : forall w v, (1 <= w)%nat -> (List.length (whole w v) <= w)%nat.
Proof.
  intros w v H. unfold whole. pose proof (trimmed_length (figures w v)) as T. rewrite figures_length in T. destruct (trimmed (figures w v)); cbn [List.length] in *; lia.
Qed.
Lemma sign_length : forall b, (List.length (sign_text b) <= 1)%nat.
Proof. intros []; cbn; lia. Qed.
Lemma float_length : forall b u v, (List.length (sign_text b ++ whole 39 u ++ "." :: figures 149 v) <= 190)%nat.
Proof. intros b u v. rewrite !app_length. cbn [List.length]. rewrite figures_length. pose proof (whole_length 39 u ltac:(lia)). pose proof (sign_length b). lia. Qed.
Lemma spell_length : forall k, (forall u, k <> TIdent u) -> (List.length (spell k) <= 190)%nat.
Proof.
  intros k N. destruct k as [|u|r|i neg|z|f| | | | | | | | |].
  7-15: cbn; lia.
  - cbn. lia.
  - destruct (N u eq_refl).
  - cbn [spell]. destruct (r =? 255)%N; [cbn; lia|]. pose proof (whole_length 3 (Z.of_N r) ltac:(lia)). cbn [List.length]. lia.
  - cbn [spell]. rewrite app_length. destruct neg; cbn; lia.
  - cbn [spell]. rewrite app_length. pose proof (sign_length (z <? 0)). pose proof (whole_length 19 (Z.abs z) ltac:(lia)). lia.
  - apply float_length.
Qed.
(** What a token adds to the text, with its share of the end of the line. *)
Lemma pair_length : forall lab s q x, swap lab x -> lexeme s (fst x) q -> (2 + List.length (spell (snd x)) <= 192 * List.length s)%nat.
Proof.
  intros lab s q x S0 L. destruct (lexeme_first _ _ _ L) as (ch & t & ES & _).
  assert (P : (1 <= List.length s)%nat) by (rewrite ES; cbn; lia).
  destruct S0 as [E|(name & z & -> & _)].
  - destruct (kind_cases (fst x)) as [(u & K)|K].
    + rewrite <- E, K. rewrite K in L. apply lexeme_ident in L as <-. cbn [spell]. lia.
    + assert (N : forall u, snd x <> TIdent u) by (intros u Y; rewrite <- E in Y; destruct K as [K|(K & _)]; [congruence|exact (K u Y)]).
      pose proof (spell_length _ N). lia.
  - cbn [snd]. pose proof (spell_length (TImm z) ltac:(discriminate)). lia.
Qed.
Fixpoint weight (ks : list tkind) : nat := match ks with [] => 0 | k :: ks => 2 + List.length (spell k) + weight ks end%nat.
Lemma weight_app : forall a b, weight (a ++ b) = (weight a + weight b)%nat.
Proof. induction a as [|k a IH]; intros b; [reflexivity|]. cbn [app weight]. rewrite IH. lia. Qed.
Lemma lexes_weight : forall lab q n ts, lexes q n ts -> forall l, map fst ts = map fst l -> Forall (swap lab) l -> (weight (map snd l) <= 192 * List.length q)%nat.
Proof.
  intros lab q n ts L. induction L as [g n G|g s k q n ts G LX L IH]; intros l E F.
  - symmetry in E. apply map_eq_nil in E as ->. cbn. lia.
  - destruct l as [|x l]; [discriminate|]. cbn [map fst] in E. injection E as EK E. inversion F as [|? ? SX F']; subst. specialize (IH l E F').
    cbn [map weight]. rewrite !app_length. pose proof (pair_length lab s q x SX LX). lia.
Qed.
Lemma body_length : forall ks, (List.length (body ks) + List.length ks <= weight ks)%nat.
Proof. induction ks as [|k ks IH]; [reflexivity|]. change (body (k :: ks)) with ((" " :: spell k) ++ body ks). rewrite app_length. cbn [List.length weight]. lia. Qed.
(** Lines with nothing on them. *)
Definition bare_lines (s : sheet) : nat := List.length (filter (fun x => negb (filled (snd x))) s).
Lemma sheet_length : forall s, (List.length (sheet_text s) <= weight (List.concat (map snd s)) + bare_lines s + 5 * List.length (filter fst s))%nat.
Proof.
  induction s as [|(b, ks) s IH]; [cbn; lia|]. rewrite line_split, !app_length. cbn [fst snd map List.concat]. rewrite weight_app. pose proof (body_length ks) as B. unfold bare_lines in *. cbn [filter fst snd].
  assert (M : List.length main_word = 5%nat) by reflexivity. destruct ks as [|k ks]; cbn [filled negb]; destruct b; cbn [List.length] in *; rewrite ?M; lia.
Qed.

Lemma lexes_prefix : forall ts c, lexes (rest c) (line c) ts -> forall ks B, map fst ts = ks ++ B -> exists c', scan c ks c'.
Proof.
  induction ts as [|t ts IH]; intros c L ks B E.
  - destruct ks; [|discriminate]. exists c. constructor.
  - destruct ks as [|k ks]; [exists c; constructor|]. cbn [map app] in E. injection E as EK E. destruct (lexes_step _ _ L) as (t0 & c0 & T0 & [(X & _)|(us & X & L')]); [discriminate|].
    injection X as -> <-. destruct (IH c0 L' ks B E) as (c' & SC). exists c'. rewrite <- EK. cbn [lined fst]. econstructor; eassumption.
Qed.
Lemma lexes_prefix_scan : forall code ts, lexes code 0 ts -> forall ks, (exists B, map fst ts = ks ++ B) -> exists c, scan (Cursor code 0 0) ks c.
Proof. intros code ts L ks (B & E). exact (lexes_prefix ts (Cursor code 0 0) L ks B E). Qed.
Lemma classic_container : forall ss, container ss \/ ~ container ss.
Proof.
  induction ss as [|s ss [(ty & IH)|IH]]; [right; intros (ty & [])|left; exists ty; right; exact IH|].
  destruct s as [[] ty| | | |]; try (right; intros (ty' & [X|X]); [discriminate|apply IH; exists ty'; exact X]). left. exists ty. left. reflexivity.
Qed.
Lemma pairs_semis : forall lab l, Forall (swap lab) l -> semi_count (map snd l) = semi_count (map fst l).
Proof.
  intros lab l F. induction F as [|x l S0 F IH]; [reflexivity|]. cbn [map]. change (one_semi (snd x) + semi_count (map snd l) = one_semi (fst x) + semi_count (map fst l))%nat.
  rewrite IH. f_equal. destruct S0 as [E|(n & z & -> & _)]; [rewrite E; reflexivity|reflexivity].
Qed.

(** ** Programs *)

Lemma instruction_no_label : forall n sts ss ops, (forall lab, paged lab n sts ss ops) -> Forall one_statement sts.
Proof.
  intros n sts ss ops P. apply Forall_forall. intros ks I. destruct (paged_statements _ _ _ _ _ (P no_label) ks I) as [W|W]; [right; left; exact W|right; right; exact W].
Qed.
Lemma unmarked_sheet : forall (sts : list (list tkind)) (b : bool), map snd (map (fun ks => (b, ks)) sts) = sts.
Proof. intros sts b. rewrite map_map. cbn [snd]. apply map_id. Qed.
Lemma unmarked_true : forall (sts : list (list tkind)), filter fst (map (fun ks => (false, ks)) sts) = [].
Proof. induction sts as [|ks sts IH]; [reflexivity|exact IH]. Qed.
Lemma unmarked_in : forall (sts : list (list tkind)), ~ In true (map fst (map (fun ks => (false, ks)) sts)).
Proof. intros sts I. rewrite map_map in I. cbn [fst] in I. apply in_map_iff in I as (x & E & _). discriminate. Qed.

Lemma filled_shorter : forall x, (List.length (filter filled x) <= List.length x)%nat.
Proof. induction x as [|y x IH]; [reflexivity|]. cbn [filter]. destruct (filled y); cbn [List.length]; lia. Qed.
Lemma bare_none : forall x, filter filled x = x -> List.length (filter (fun y : bool * list tkind => negb (filled (snd y))) (map (fun ks => (false, ks)) x)) = O.
Proof.
  induction x as [|ks x IH]; intros F; [reflexivity|]. cbn [filter] in F. destruct ks as [|k ks]; cbn [filled] in F.
  - exfalso. pose proof (filled_shorter x) as X. rewrite F in X. cbn [List.length] in X. lia.
  - injection F as F. cbn [map filter snd filled negb]. apply IH. exact F.
Qed.
Lemma filled_parts : forall x y, filter filled (x ++ y) = x ++ y -> filter filled x = x /\ filter filled y = y.
Proof.
  induction x as [|ks x IH]; intros y F; [split; [reflexivity|exact F]|]. cbn [app filter] in F |- *. destruct ks as [|k ks]; cbn [filled] in F |- *.
  - exfalso. pose proof (filled_shorter (x ++ y)) as X. rewrite F in X. cbn [List.length] in X. lia.
  - injection F as F. destruct (IH _ F) as (F1 & F2). split; [f_equal; exact F1|exact F2].
Qed.

Lemma one_mark : forall s1 k1 s2 t1 k2 t2, s1 ++ (true, k1 : list tkind) :: s2 = t1 ++ (true, k2) :: t2 -> (List.length (filter fst (s1 ++ (true, k1) :: s2)) <= 1)%nat -> t1 = s1.
Proof.
  induction s1 as [|y s1 IH]; intros k1 s2 t1 k2 t2 EQ ONE.
  - destruct t1 as [|z t1]; [reflexivity|]. injection EQ as <- ->. exfalso. cbn [app filter fst List.length] in ONE. rewrite filter_app, app_length in ONE. cbn [filter fst List.length] in ONE. lia.
  - destruct t1 as [|z t1].
    + injection EQ as -> _. exfalso. cbn [app filter fst List.length] in ONE. rewrite filter_app, app_length in ONE. cbn [filter fst List.length] in ONE. lia.
    + injection EQ as <- EQ. f_equal. apply (IH k1 s2 t1 k2 t2 EQ). cbn [app filter] in ONE. destruct (fst y); cbn [List.length] in ONE; lia.
Qed.
Lemma paged_container : forall lab n sts ss ops ty, paged lab n sts ss ops -> In (SType true ty) ss -> In (id ".dksh") (List.concat sts).
Proof.
  intros lab n sts ss ops ty P. induction P as [n|n s ks sts ss ops W NE P IH|n ks op sts ss ops IN P IH]; intros J; [destruct J| |]; cbn [List.concat]; apply in_or_app.
  - destruct J as [->|J]; [left; inversion W; left; reflexivity|right; apply IH; exact J].
  - right. apply IH. exact J.
Qed.

Definition sheet_of (code : text) (w : list N) (s : sheet) : Prop :=
  Forall (fun x => one_statement (snd x)) s /\ (List.length (filter fst s) <= 1)%nat /\
  (forall name, defined (sheet_text s) name -> name = lit "main" /\ occurs code [id ".dksh"]) /\
  assemble false (sheet_text s) = Ok w /\ (assert_free code -> assemble true (sheet_text s) = Ok w).

Section Sheet.
  Variables (a : bool) (code : text) (w : list N).
  Hypothesis no_nul : ~ In NUL code.
  Hypothesis tame_code : tame code.
  Hypothesis short : Z.of_nat (List.length code) <= 2 ^ 49.
  Hypothesis accepted : assemble a code = Ok w.
  (** Labels matter for containers only. *)
  Hypothesis read_code : occurs code [id ".dksh"] -> ends_read code.

  Theorem sheet_exists : exists s, sheet_of code w s.
  Proof.
    destruct (accepted_means _ _ _ no_nul accepted) as (ts & lab & ss & ops & LX & LB & SE & FI).
    destruct (sentence_paged _ _ _ _ _ SE) as (sts & E & SW & FN & PG).
    destruct (labels_here code no_nul tame_code ltac:(lia)) as (ls & GL & RG).
    assert (PL : forall name z, lab name = Some z -> 0 <= z <= 2 ^ 61 + 64).
    { intros name z L. apply LB in L. apply (RG name). apply (first_definition code ls no_nul GL). exact L. }
    assert (CL : Forall clean (map snd (List.concat sts))).
    { apply Forall_forall. intros k I. apply in_map_iff in I as ((k0, k1) & <- & I). cbn [snd]. rewrite Forall_forall in SW.
      destruct (SW _ I) as [Q|(name & z & Q & L)].
      - cbn [fst snd] in Q. subst k1. assert (J : In k0 (map fst ts)) by (rewrite E; apply (in_map fst) in I; exact I).
        pose proof (lexes_possible _ _ _ LX) as P. rewrite Forall_forall in P. split; [exact (P _ J)|]. intros u ->.
        apply (known_tidy code u (proj1 (P _ J))). eapply words_known; [exact no_nul|exact accepted|exact LX|exact J].
      - injection Q as -> ->. split; [|intros u U; discriminate]. cbn [possible]. specialize (PL _ _ L). lia. }
    assert (WT : (weight (map snd (List.concat sts)) <= 192 * List.length code)%nat) by (apply (lexes_weight lab _ _ _ LX); assumption).
    (* any sheet with these statements and [main] in the right place *)
    assert (GO : forall s, filter filled (map snd s) = map (map snd) sts -> (List.length (filter fst s) <= 1)%nat -> (bare_lines s <= 1)%nat ->
      (In true (map fst s) -> occurs code [id ".dksh"]) ->
      (container ss -> forall p, first_defines code p (lit "main") -> exists s1 ks s2, s = s1 ++ (true, ks) :: s2 /\ semi_count (List.concat (map snd s1)) = semis p) -> sheet_of code w s).
    { intros s FS ONE BL TR MP.
      assert (CC : List.concat (map snd s) = map snd (List.concat sts)) by (rewrite <- filled_concat, FS; symmetry; apply concat_map).
      assert (CS : clean_sheet s).
      { apply Forall_forall. intros x I. apply Forall_forall. intros k K. rewrite Forall_forall in CL. apply CL. rewrite <- CC. apply in_concat. exists (snd x). split; [apply in_map; exact I|exact K]. }
      pose proof (sheet_lexes s 0 CS) as LX'. pose proof (sheet_nul s CS) as N'. pose proof (sheet_closed s) as C'. pose proof (sheet_read s CS) as R'.
      assert (E' : map fst (tokens_on 0 s) = map snd (List.concat sts)) by (rewrite tokens_on_fst; exact CC).
      assert (T' : tame (sheet_text s)) by (apply (back_tame lab code _ (List.concat sts) ts (tokens_on 0 s)); try assumption; intros name z L; apply (PL name z L)).
      assert (SH : Z.of_nat (List.length (sheet_text s)) <= 2 ^ 57).
      { pose proof (sheet_length s) as SL. rewrite CC in SL. assert (X : (List.length (sheet_text s) <= 192 * List.length code + 6)%nat) by lia. lia. }
      destruct (labels_here _ N' T' SH) as (ls' & GL' & _).
      assert (LB' : labelled (sheet_text s) (find_label ls')) by (intros name z; apply (first_definition _ ls' N' GL')).
      assert (AC : assemble false (sheet_text s) = Ok w).
      { apply means_accepted; try assumption. exists (tokens_on 0 s), (find_label ls'), ss, ops. split; [exact LX'|]. split; [exact LB'|].
        split; [eapply paged_sentence; [apply PG|exact FS]|].
        destruct FI as [TY|p head TY CN FD M3 SF PK]; [constructor; exact TY|].
        destruct (MP CN p FD) as (s1 & ks & s2 & ES & SM).
        destruct (proj2 (least_place _ _ (lit "main") (semis p) LB')) as (p' & FD' & EP).
        { split; [apply (sheet_marked s _ _ CS); exists s1, ks, s2; auto|]. intros m H. apply (sheet_marked s _ _ CS) in H as (t1 & ks' & t2 & ET & _ & ->).
          assert (X : t1 = s1).
          { rewrite ES in ET, ONE. exact (one_mark _ _ _ _ _ _ ET ONE). }
          subst t1. lia. }
        rewrite <- EP in M3, PK. exact (file_container _ _ _ p' head TY CN FD' M3 SF PK). }
      split; [|split; [exact ONE|split; [|split; [exact AC|]]]].
      - apply Forall_forall. intros x I. destruct (snd x) as [|k ks] eqn:X; [left; reflexivity|]. pose proof (instruction_no_label _ _ _ _ PG) as ST. rewrite Forall_forall in ST. apply ST.
        rewrite <- FS. apply filter_In. split; [|reflexivity]. rewrite <- X. apply in_map. exact I.
      - intros name (p & D). assert (MK : marked true (sheet_text s) name (semis p)) by (apply marked_true; exists p; split; [exact D|reflexivity]).
        apply (sheet_marked s _ _ CS) in MK as (s1 & ks & s2 & ES & -> & _). split; [reflexivity|]. apply TR. rewrite ES, map_app. apply in_elt.
      - intros AF. assert (AF' : assert_free (sheet_text s)) by (apply (back_free lab code _ (List.concat sts) ts (tokens_on 0 s)); assumption).
        rewrite (free_builds_agree _ AF'). exact AC. }
    assert (DK : container ss -> occurs code [id ".dksh"]).
    { intros (ty & I). assert (X : In (id ".dksh") (map snd (List.concat sts))).
      { pose proof (paged_container _ _ _ _ _ _ (PG no_label) I) as G. rewrite <- concat_map in G. exact G. }
      apply in_map_iff in X as (x & EX & J). rewrite Forall_forall in SW. pose proof (swap_same _ _ (SW x J)) as Y. rewrite EX in Y. specialize (Y ltac:(discriminate)).
      apply (in_map fst) in J. rewrite Y, <- E in J. apply in_split in J as (A & B & EQ). apply map_eq_app in EQ as (A1 & B1 & -> & <- & EB).
      destruct (lexes_prefix_scan code (A1 ++ B1) LX (map fst A1 ++ [id ".dksh"])) as (c & SC).
      - exists B. rewrite map_app, EB, <- app_assoc. reflexivity.
      - exists (map fst A1), c. exact SC. }
    destruct (classic_container ss) as [CN|CN].
    - pose proof (read_code (DK CN)) as RC.
      destruct FI as [TY|p head TY _ FD M3 SF PK].
      + exfalso. destruct TY as [TY|(_ & TY)]; [|exact (TY CN)]. destruct CN as (ty & I). assert (X : In ty (types ss)) by (unfold types; apply in_flat_map; exists (SType true ty); split; [exact I|left; reflexivity]). rewrite TY in X. destruct X.
      + assert (K : (semis p <= List.length ops)%nat).
        { rewrite <- (paged_semis _ _ _ _ _ (PG no_label)), <- concat_map. destruct FD as ((_ & _ & q & EQ) & _). 
          assert (X : semis code = semi_count (map fst ts)) by (exact (lexes_semis _ _ _ LX RC)).
          assert (Y : semi_count (map snd (List.concat sts)) = semi_count (map fst ts)) by (rewrite E; apply (pairs_semis lab); exact SW).
          rewrite Y, <- X, EQ, semis_app. lia. }
        destruct (paged_split _ _ _ _ _ (PG no_label) _ K) as (s1 & s2 & ES & SM).
        exists (map (fun ks => (false, ks)) s1 ++ (true, []) :: map (fun ks => (false, ks)) s2). pose proof (paged_filled _ _ _ _ _ (PG no_label)) as PF. rewrite ES in PF.
        apply GO.
        * rewrite map_app. cbn [map snd]. rewrite !unmarked_sheet, filter_app. cbn [filter filled]. rewrite <- filter_app, PF. symmetry. exact ES.
        * rewrite filter_app. cbn [filter fst]. rewrite !unmarked_true. cbn. lia.
        * unfold bare_lines. rewrite filter_app, app_length. cbn [filter filled snd negb List.length].
          destruct (filled_parts _ _ PF) as (P1 & P2). rewrite (bare_none _ P1), (bare_none _ P2). lia.
        * intros _. exact (DK CN).
        * intros _ p' FD'. assert (semis p' = semis p) as -> by (destruct FD as (D1 & L1); destruct FD' as (D2 & L2); specialize (L1 _ D2); specialize (L2 _ D1);
            pose proof (defines_ordered _ _ _ _ D1 D2 L1); pose proof (defines_ordered _ _ _ _ D2 D1 L2); lia).
          exists (map (fun ks => (false, ks)) s1), [], (map (fun ks => (false, ks)) s2). split; [reflexivity|]. rewrite unmarked_sheet. exact SM.
    - exists (map (fun ks => (false, ks)) (map (map snd) sts)). apply GO.
      + rewrite unmarked_sheet. exact (paged_filled _ _ _ _ _ (PG no_label)).
      + rewrite unmarked_true. cbn. lia.
      + unfold bare_lines. rewrite (bare_none _ (paged_filled _ _ _ _ _ (PG no_label))). lia.
      + intros I. destruct (unmarked_in _ I).
      + intros X. contradiction.
  Qed.
End Sheet.
