(** * Kin: forms with the same word (C50). *)
From Verif Require Import Base Float Lexer Operand Catalogue Table Parse Assemble Spec SpecOperand SpecInsn SpecSame Bits LexFacts
  SchedFuel Param Reach ParseFacts Outcomes Decode Program Footprint Encode Operands Operands3 Quiet Notes Insn Words Clash Recover
  Fields Same Unique.
From Coq Require Import Lia.
Local Open Scope string_scope.
Local Open Scope list_scope.
Open Scope Z_scope.

(** ** Opcode bits *)

(** Bits an operand always sets. *)
Definition sure (o : opnd) : N :=
  match o with
  | ODefaultRz a => place 255 a
  | OReqText _ b _ => b
  | OReqTextAfter _ b1 b2 _ => N.lor b1 b2
  | OImmAttr => place 255 8
  | _ => 0%N
  end.
Definition ones (i : insn) : N := fold_left (fun w o => N.lor (N.ldiff w (clears o)) (sure o)) (i_operands i) (i_opcode i).
Definition maybe (i : insn) : N := N.lor (start_mask i) (writes (i_operands i)).

Lemma sub_lor_mono : forall a b c d, sub a c -> sub b d -> sub (N.lor a b) (N.lor c d).
Proof. intros a b c d H1 H2. apply sub_lor; [apply sub_lor_l|apply sub_lor_r]; assumption. Qed.
Lemma sure_sub : forall lab pc o w ks nx b r, spells lab pc o w ks nx b r -> sub (sure o) b.
Proof.
  intros lab pc o w ks nx b r H. destruct o; try apply sub_0; cbn [spells sure] in *.
  all: try (destruct H as (_ & -> & _); apply sub_refl).
  all: destruct H as (z & _ & _ & -> & _); apply sub_lor_r, sub_refl.
Qed.
Lemma list_sure : forall lab pc nx ops w ks e r w0, spell_list lab pc nx ops w ks e r -> sub w0 w ->
  sub (fold_left (fun w o => N.lor (N.ldiff w (clears o)) (sure o)) ops w0) e.
Proof.
  intros lab pc nx ops w ks e r w0 H. revert w0. induction H as [w|o ops w k1 k2 b r1 r2 e S H IH]; intros w0 SW; [exact SW|].
  cbn [fold_left]. apply IH. apply sub_lor_mono; [|eapply sure_sub; exact S].
  rewrite sub_spec in *. intros k. specialize (SW k). rewrite !N.ldiff_spec, !andb_true_iff. intros (A & B). auto.
Qed.
Lemma form_bits : forall lab pc i gi gn kf op, In i table -> (gi <= 7)%N -> Forall kind_ok kf -> form_spells lab pc i gi gn kf op ->
  sub (ones i) (value op) /\ sub (value op) (maybe i).
Proof.
  intros lab pc i gi gn kf op I G K (ko & kn & notes & w & r & -> & _ & S & _ & _ & ->). cbn [value].
  apply Forall_app in K as (K & _). pose proof (forallb_in _ _ _ _ table_spec I) as TS. cbn beta in TS. split.
  - eapply list_sure; [exact S|]. apply sub_lor_r, sub_refl.
  - destruct (list_keeps _ _ _ _ _ _ _ _ TS K S) as (_ & A & _). eapply sub_trans; [exact A|].
    apply sub_lor_mono; [apply bare_sub; exact G|apply sub_refl].
Qed.

Definition told (p q : nat * (string * N * N)) : bool :=
  match p, q with (_, (_, o, m)), (_, (_, o', m')) => negb (N.eqb (N.ldiff o m') 0) || negb (N.eqb (N.ldiff o' m) 0) end.
Definition kin (n n' : nat) : bool :=
  Nat.eqb n n' || existsb (fun f => existsb (Nat.eqb n) (fst f) && existsb (Nat.eqb n') (fst f)) families ||
  Nat.eqb n 147 && Nat.eqb n' 148 || Nat.eqb n 148 && Nat.eqb n' 147.
Definition profile : list (nat * (string * N * N)) := number 0 (map (fun i => (i_mnemonic i, ones i, maybe i)) table).
Lemma table_told : forallb (fun p => forallb (fun q => told p q || kin (fst p) (fst q) && String.eqb (fst (fst (snd p))) (fst (fst (snd q)))) profile) profile = true.
Proof. vm_compute. reflexivity. Qed.

Lemma in_form : forall i, In i table -> exists n, (n < List.length table)%nat /\ i = form n.
Proof. intros i I. destruct (In_nth _ _ (Insn 0 0 "" []) I) as (n & L & E). exists n. split; [exact L|symmetry; exact E]. Qed.
Lemma in_profile : forall n, (n < List.length table)%nat -> In (n, (i_mnemonic (form n), ones (form n), maybe (form n))) profile.
Proof.
  intros n L. change n with (0 + n)%nat at 1. apply number_nth. rewrite nth_error_map.
  rewrite (nth_error_nth' table (Insn 0 0 "" []) L). reflexivity.
Qed.
Lemma table_kin : forall n n', (n < List.length table)%nat -> (n' < List.length table)%nat ->
  (exists w, sub (ones (form n)) w /\ sub w (maybe (form n)) /\ sub (ones (form n')) w /\ sub w (maybe (form n'))) ->
  i_mnemonic (form n) = i_mnemonic (form n') /\ kin n n' = true.
Proof.
  intros n n' L L' (w & A & B & A' & B').
  pose proof (forallb_in _ _ _ _ table_told (in_profile n L)) as T. cbn beta in T. pose proof (forallb_in _ _ _ _ T (in_profile n' L')) as T'. cbn beta in T'.
  clear T. cbn [told fst snd] in T'. generalize dependent (form n). intros i A B. generalize dependent (form n'). intros i' A' B' T'.
  assert (X : N.ldiff (ones i) (maybe i') = 0%N) by (apply (sub_trans _ w); assumption).
  assert (Y : N.ldiff (ones i') (maybe i) = 0%N) by (apply (sub_trans _ w); assumption).
  rewrite X, Y, !N.eqb_refl in T'. cbn [negb orb] in T'. apply andb_true_iff in T' as (T1 & T2). apply String.eqb_eq in T2. auto.
Qed.

(** ** Families *)

Definition kind_dec : forall k k' : tkind, {k = k'} + {k <> k'}.
Proof. repeat decide equality. Defined.
Definition mem (k : list tkind) (l : list (list tkind)) : bool := existsb (fun k' => if list_eq_dec kind_dec k k' then true else false) l.
Lemma mem_in : forall k l, mem k l = true -> In k l.
Proof.
  intros k l H. apply existsb_exists in H as (k' & I & E). destruct (list_eq_dec kind_dec k k') as [->|]; [exact I|discriminate].
Qed.

(** What an operand with the bits [b] is written as. *)
Definition const_ok (o : opnd) (b : N) (l : list (list tkind)) : bool :=
  match o with
  | OComma => mem [TComma] l
  | OReqText s _ _ => mem [id s] l
  | ODefaultRz _ => true
  | OPred a false => mem [TPred (b / 2 ^ a) false] l
  | OGpr a => mem [TReg (b / 2 ^ a)] l && mem [TReg (b / 2 ^ a); id ".reuse"] l
  | OUint _ a => mem [TImm (Z.of_N (b / 2 ^ a))] l
  | OInt n a => N.eqb b 0 && N.ltb 0 n && mem [TImm 0] l
  | OCcTests tests a => mem [id "CC"; TIdent (lit "." ++ lit (nth (N.to_nat (b / 2 ^ a)) tests ""))] l
  | ODotTable _ a tbl => mem [TIdent (lit "." ++ lit (nth (N.to_nat (b / 2 ^ a)) tbl ""))] l
  | _ => false
  end.
Lemma place_div : forall x a, (place x a / 2 ^ a)%N = x.
Proof. intros x a. unfold place. apply N.div_mul. apply N.pow_nonzero. discriminate. Qed.
Lemma const_spelled : forall lab pc o w ks nx b r l, const_ok o b l = true -> spells lab pc o w ks nx b r -> In ks ([] :: l).
Proof.
  intros lab pc o w ks nx b r l C H. destruct o; try discriminate C; cbn [const_ok spells] in *.
  - destruct H as (-> & _). right. apply mem_in, C.
  - destruct H as (z & -> & B & -> & _). rewrite place_div, Z2N.id in C by lia. right. apply mem_in, C.
  - destruct H as (z & -> & B & -> & _). apply andb_true_iff in C as (C & M). apply andb_true_iff in C as (C & L). apply N.ltb_lt in L.
    apply N.eqb_eq in C. unfold place in C. apply N.eq_mul_0 in C as [C|C]; [|apply N.pow_nonzero in C; [destruct C|discriminate]].
    assert (P : (2 ^ Z.of_N bits = 2 * 2 ^ (Z.of_N bits - 1))%Z) by (rewrite <- Z.pow_succ_r by lia; f_equal; lia).
    assert (Q : (0 < 2 ^ (Z.of_N bits - 1))%Z) by (apply Z.pow_pos_nonneg; lia).
    assert (E : z mod 2 ^ Z.of_N bits = 0%Z).
    { pose proof (Z.mod_pos_bound z (2 ^ Z.of_N bits) ltac:(lia)) as [U _]. apply Z2N.inj; [exact U|lia|exact C]. }
    assert (z = 0) as ->.
    { apply Z.mod_divide in E; [|lia]. destruct E as (m & E). destruct (Z.eq_dec m 0) as [->|]; [lia|]. exfalso. nia. }
    right. apply mem_in, M.
  - destruct H as (_ & [(k & i & -> & (t & E & -> & _) & ->)|(i & -> & _)]); [|left; reflexivity].
    rewrite place_div in C. rewrite (nth_error_nth _ _ "" E) in C. right. apply mem_in, C.
  - destruct H as (-> & _). right. apply mem_in, C.
  - destruct H as (n & R & ->). rewrite place_div in C. apply andb_true_iff in C as (C1 & C2).
    destruct R as [(-> & _)|(-> & _)]; right; apply mem_in; assumption.
  - destruct negable; [discriminate|]. destruct H as (i & neg & -> & _ & -> & ->). rewrite place_div in C. right. apply mem_in, C.
  - destruct H as (-> & _). left. reflexivity.
  - destruct H as (_ & [(k & i & -> & (t & E & -> & _) & ->)|(-> & _)]); [|left; reflexivity].
    rewrite place_div in C. rewrite (nth_error_nth _ _ "" E) in C. right. apply mem_in, C.
Qed.

(** Two kinds of operand with the same bits. *)
Definition pair_ok (o o' : opnd) (l : list (list tkind)) : bool :=
  match o, o' with
  | ODefaultRz a, OGpr a' | OGpr a', ODefaultRz a => N.eqb a a' && mem [TReg 255] l && mem [TReg 255; id ".reuse"] l
  | OImmAttr, OPhysAttr | OPhysAttr, OImmAttr =>
      mem [id "a"; TLbrack; TImm 0; TRbrack] l && mem [id "a"; TLbrack; TReg 255; TRbrack] l &&
      mem [id "a"; TLbrack; TReg 255; id ".reuse"; TRbrack] l
  | _, _ => false
  end.
Lemma attr_zero : forall z n, 0 <= z < 2 ^ 10 -> (n < 2 ^ 8)%N -> N.lor (place (Z.to_N z) 20) (place 255 8) = place n 8 -> z = 0 /\ n = 255%N.
Proof.
  intros z n B L E. assert (E' : N.lor (place (Z.to_N z) 20) (place 255 8) = N.lor (place 0 20) (place n 8)) by (rewrite E; reflexivity).
  apply (lor_inj 10 8) in E' as (E1 & E2); [lia|right; discriminate| |reflexivity|reflexivity|exact L].
  apply to_N_lt. exact B.
Qed.
Lemma reg_lt : forall a ks nx n r, register a ks nx n r -> Forall kind_ok ks -> (n < 2 ^ 8)%N.
Proof. intros a ks nx n r R F. change (2 ^ 8)%N with 256%N. destruct R as [(-> & _)|(-> & _)]; inversion F as [|? ? K _]; subst; cbn in K; lia. Qed.
Lemma pair_spelled : forall lab pc lab' pc' o o' w w' ks ks' nx nx' b r r' l, pair_ok o o' l = true ->
  Forall kind_ok ks -> Forall kind_ok ks' ->
  spells lab pc o w ks nx b r -> spells lab' pc' o' w' ks' nx' b r' -> In ks ([] :: l) /\ In ks' ([] :: l).
Proof.
  assert (A : forall lab pc lab' pc' w w' ks ks' nx nx' b r r' l, pair_ok OImmAttr OPhysAttr l = true -> Forall kind_ok ks' ->
    spells lab pc OImmAttr w ks nx b r -> spells lab' pc' OPhysAttr w' ks' nx' b r' -> In ks ([] :: l) /\ In ks' ([] :: l)).
  { intros lab pc lab' pc' w w' ks ks' nx nx' b r r' l C F' H H'. cbn [pair_ok spells] in *.
    apply andb_true_iff in C as (C & C3). apply andb_true_iff in C as (C1 & C2).
    destruct H as (z & -> & B & -> & _), H' as (kr & n & -> & R & E).
    inversion F' as [|? ? _ F1]; subst. inversion F1 as [|? ? _ F2]; subst. apply Forall_app in F2 as (F2 & _).
    destruct (attr_zero _ _ B (reg_lt _ _ _ _ _ R F2) E) as (-> & ->).
    split; right; [apply mem_in; exact C1|]. destruct R as [(-> & _)|(-> & _)]; apply mem_in; assumption. }
  assert (B : forall lab pc lab' pc' a a' w w' ks ks' nx nx' b r r' l, pair_ok (ODefaultRz a) (OGpr a') l = true ->
    spells lab pc (ODefaultRz a) w ks nx b r -> spells lab' pc' (OGpr a') w' ks' nx' b r' -> In ks ([] :: l) /\ In ks' ([] :: l)).
  { intros lab pc lab' pc' a a' w w' ks ks' nx nx' b r r' l C H H'. cbn [pair_ok spells] in *.
    apply andb_true_iff in C as (C & C3). apply andb_true_iff in C as (C1 & C2). apply N.eqb_eq in C1 as <-.
    destruct H as (-> & -> & _), H' as (n & R & E). apply place_inj in E as <-. split; [left; reflexivity|].
    right. destruct R as [(-> & _)|(-> & _)]; apply mem_in; assumption. }
  intros lab pc lab' pc' o o' w w' ks ks' nx nx' b r r' l C F F' H H'.
  destruct o; try discriminate C; destruct o'; try discriminate C.
  - apply and_comm. eapply B; [exact C|exact H'|exact H].
  - eapply B; eassumption.
  - eapply A; eassumption.
  - apply and_comm. eapply A; [exact C|exact F|exact H'|exact H].
Qed.

(** Which slots a form fills: 0 none, otherwise the kind of operand. *)
Definition chosen (s : slot) (n : nat) : option opnd := match n with O => None | S n => nth_error (kinds_of s) n end.
Fixpoint pick (l : list slot) (c : list nat) : list opnd :=
  match l, c with
  | s :: l, n :: c => match chosen s n with Some o => o :: pick l c | None => pick l c end
  | _, _ => []
  end.
Definition bits_of (x : option opnd) : N := match x with Some o => mask o | None => 0%N end.
Definition open_slot (s : slot) : bool := match stands s with [] => false | _ => true end.
Definition good (x : option opnd) : bool :=
  match x with Some o => keeps o && spec_ok o && sharp o && N.eqb (looks o) 0 | None => true end.
Fixpoint fits (c c' d d' : N) (l : list slot) (f f' : list nat) : bool :=
  match l, f, f' with
  | [], [], [] => true
  | s :: l, n :: f, n' :: f' =>
      let x := chosen s n in let y := chosen s n' in let m := N.lor (bits_of x) (bits_of y) in
      good x && good y && forallb spec_ok (pick l f) && forallb spec_ok (pick l f') &&
      apart d m && apart d' m && apart (writes (pick l f)) m && apart (writes (pick l f')) m &&
      match x, y with
      | None, None => open_slot s
      | Some o, None => open_slot s && apart c m && const_ok o (N.land c' m) (stands s)
      | None, Some o => open_slot s && apart c' m && const_ok o (N.land c m) (stands s)
      | Some o, Some o' => apart c m && apart c' m && (Nat.eqb n n' || open_slot s && pair_ok o o' (stands s))
      end && fits c c' (N.lor d (bits_of x)) (N.lor d' (bits_of y)) l f f'
  | _, _, _ => false
  end.

Lemma one_slot : forall lab pc nx s n l f w ks e r c d m, good (chosen s n) = true -> forallb spec_ok (pick l f) = true -> Forall kind_ok ks ->
  spell_list lab pc nx (pick (s :: l) (n :: f)) w ks e r -> (forall m, N.land d m = 0%N -> N.land w m = N.land c m) ->
  N.land d m = 0%N -> N.land (writes (pick l f)) m = 0%N -> sub (bits_of (chosen s n)) m ->
  exists k1 k2 b r1 r2 n1, ks = k1 ++ k2 /\ Forall kind_ok k1 /\ Forall kind_ok k2 /\
    match chosen s n with Some o => spells lab pc o w k1 n1 b r1 | None => k1 = [] /\ b = 0%N end /\
    spell_list lab pc nx (pick l f) (N.lor w b) k2 e r2 /\ N.land e m = N.lor (N.land c m) b /\
    (forall m, N.land (N.lor d (bits_of (chosen s n))) m = 0%N -> N.land (N.lor w b) m = N.land c m).
Proof.
  intros lab pc nx s n l f w ks e r c d m G SO F H I D W SM. cbn [pick] in H. destruct (chosen s n) as [o|].
  - inversion H as [|? ? ? k1 k2 b r1 r2 ? S T]; subst. apply Forall_app in F as (F1 & F2). cbn [good] in G. rewrite !andb_true_iff in G.
    destruct G as (((KE & SP) & _) & _). apply N.eqb_eq in KE. rewrite KE, N.ldiff_0_r in T.
    pose proof (spells_sub _ _ _ _ _ _ _ _ SP F1 S) as SB.
    exists k1, k2, b, r1, r2, (hd nx k2). split; [reflexivity|]. split; [exact F1|]. split; [exact F2|]. split; [exact S|].
    split; [exact T|]. destruct (list_keeps _ _ _ _ _ _ _ _ SO F2 T) as (A & _). split.
    + rewrite (A _ W), N.land_lor_distr_l, (I _ D). f_equal. apply Recover.sub_land. eapply sub_trans; [exact SB|exact SM].
    + intros m' E. rewrite N.land_lor_distr_l in E. apply N.lor_eq_0_iff in E as (E1 & E2). rewrite N.land_lor_distr_l, (I _ E1).
      rewrite (sub_apart _ _ _ SB E2). apply N.lor_0_r.
  - exists [], ks, 0%N, 0%N, r, TNone. rewrite !N.lor_0_r. split; [reflexivity|]. split; [constructor|]. split; [exact F|]. split; [auto|].
    split; [exact H|]. destruct (list_keeps _ _ _ _ _ _ _ _ SO F H) as (A & _). split; [rewrite (A _ W); apply I, D|].
    intros m' E. apply I, E.
Qed.

Theorem slots_agree : forall lab pc nx lab' pc' nx' c c' l f f' d d' w w' ks ks' e r r', fits c c' d d' l f f' = true ->
  (forall m, N.land d m = 0%N -> N.land w m = N.land c m) -> (forall m, N.land d' m = 0%N -> N.land w' m = N.land c' m) ->
  Forall kind_ok ks -> Forall kind_ok ks' ->
  spell_list lab pc nx (pick l f) w ks e r -> spell_list lab' pc' nx' (pick l f') w' ks' e r' ->
  agree_all lab lab' pc pc' l ks ks'.
Proof.
  intros lab pc nx lab' pc' nx' c c' l. induction l as [|s l IH]; intros f f' d d' w w' ks ks' e r r' FI W W' F F' H H'.
  - destruct f as [|? ?], f' as [|? ?]; try discriminate. inversion H; subst. inversion H'; subst. constructor.
  - destruct f as [|n f], f' as [|n' f']; try discriminate. cbn [fits] in FI. cbv zeta in FI. rewrite !andb_true_iff in FI.
    destruct FI as (((((((((G & G') & SO) & SO') & D) & D') & P) & P') & X) & FI). apply apart_eq in D, D', P, P'.
    destruct (one_slot _ _ _ _ _ _ _ _ _ _ _ _ _ _ G SO F H W D P (sub_lor_l _ _ _ (sub_refl _)))
      as (k1 & k2 & b & r1 & r2 & n1 & -> & F1 & F2 & S & T & E & W1).
    destruct (one_slot _ _ _ _ _ _ _ _ _ _ _ _ _ _ G' SO' F' H' W' D' P' (sub_lor_r _ _ _ (sub_refl _)))
      as (k1' & k2' & b' & r1' & r2' & n1' & -> & F1' & F2' & S' & T' & E' & W1').
    rewrite E in E'. clear E. constructor; [|eapply IH; eassumption].
    assert (ON : open_slot s = true -> stands s <> []) by (unfold open_slot; destruct (stands s); [discriminate|intros _ ?; discriminate]).
    destruct (chosen s n) as [o|] eqn:CH, (chosen s n') as [o'|] eqn:CH'; rewrite ?andb_true_iff in X.
    + destruct X as ((X1 & X2) & X). apply apart_eq in X1, X2. rewrite X1, X2, !N.lor_0_l in E'. subst b'.
      apply orb_true_iff in X as [X|X].
      * apply Nat.eqb_eq in X. subst n'. rewrite CH in CH'. injection CH' as <-. left. exists o. split.
        -- destruct n; [discriminate|]. apply nth_error_In in CH. exact CH.
        -- cbn [good] in G. rewrite !andb_true_iff in G. destruct G as (((_ & SP) & SH) & LK). apply N.eqb_eq in LK.
           eapply spells_same; [exact SP|exact SH|exact F1|exact F1'| |exact S|exact S'|discriminate]. rewrite LK, !N.land_0_r. reflexivity.
      * apply andb_true_iff in X as (O & X). right. split; [apply ON, O|]. eapply pair_spelled; [exact X|exact F1|exact F1'|exact S|exact S'].
    + destruct X as ((O & X1) & X). destruct S' as (-> & ->). apply apart_eq in X1. rewrite X1, (N.lor_0_l b) in E'.
      rewrite (N.lor_0_r (N.land c' _)) in E'. subst b.
      right. split; [apply ON, O|]. split; [eapply const_spelled; eassumption|left; reflexivity].
    + destruct X as ((O & X1) & X). destruct S as (-> & ->). apply apart_eq in X1. rewrite X1, (N.lor_0_l b') in E'.
      rewrite (N.lor_0_r (N.land c _)) in E'. subst b'.
      right. split; [apply ON, O|]. split; [left; reflexivity|eapply const_spelled; eassumption].
    + destruct S as (-> & _), S' as (-> & _). right. split; [apply ON, X|]. split; left; reflexivity.
Qed.

(** The slots the forms of each family fill. *)
Definition filled : list (list (nat * list nat)) :=
  [[(0, [1; 1; 1; 1; 1; 1; 1; 1; 1]); (1, [1; 1; 0; 0; 1; 1; 1; 1; 1]); (2, [1; 1; 1; 1; 1; 1; 0; 0; 1]); (3, [1; 1; 0; 0; 1; 1; 0; 0; 1]); (4, [1; 1; 1; 1; 1; 1; 1; 0; 0]); (5, [1; 1; 0; 0; 1; 1; 1; 0; 0]); (6, [1; 1; 1; 1; 1; 0; 0; 0; 0]); (7, [1; 1; 0; 0; 1; 0; 0; 0; 0])];
   [(8, [1; 0; 1; 1; 1; 1; 0; 1]); (9, [1; 0; 1; 1; 1; 1; 1; 2]); (12, [1; 1; 1; 1; 1; 2; 0; 1]); (13, [1; 1; 1; 1; 1; 2; 1; 2])];
   [(10, [1; 1; 1; 1; 1; 1; 0; 1]); (11, [1; 1; 1; 1; 1; 1; 1; 2])];
   [(14, [0; 1; 1; 1; 1; 0; 1]); (15, [0; 1; 1; 1; 1; 1; 2]); (17, [1; 1; 2; 1; 1; 0; 1]); (18, [1; 1; 2; 1; 1; 1; 2])];
   [(31, [1; 1]); (32, [1; 0])];
   [(54, [1; 0; 0; 0; 0]); (55, [1; 1; 1; 0; 0]); (56, [1; 0; 0; 0; 1]); (57, [1; 1; 1; 1; 1])];
   [(58, [1; 1; 1; 0; 0]); (59, [1; 1; 1; 1; 1])];
   [(60, [1; 1; 1; 0; 0]); (61, [1; 1; 1; 1; 1])];
   [(62, [1; 1; 1; 0; 0]); (63, [1; 1; 1; 1; 1])];
   [(64, [1; 1; 1; 0; 0]); (65, [1; 1; 1; 1; 1])];
   [(169, [1; 1; 0; 0; 1; 1; 1; 1; 1; 1; 1; 1; 1; 0; 0]); (170, [1; 1; 0; 0; 1; 1; 1; 1; 1; 1; 1; 1; 1; 1; 1]); (171, [1; 1; 1; 1; 1; 1; 1; 1; 1; 1; 1; 1; 1; 0; 0]); (172, [1; 1; 1; 1; 1; 1; 1; 1; 1; 1; 1; 1; 1; 1; 1])];
   [(173, [1; 1; 0; 0; 1; 1; 1; 1; 1; 1; 1; 1; 1; 0; 0]); (174, [1; 1; 0; 0; 1; 1; 1; 1; 1; 1; 1; 1; 1; 1; 1]); (175, [1; 1; 1; 1; 1; 1; 1; 1; 1; 1; 1; 1; 1; 0; 0]); (176, [1; 1; 1; 1; 1; 1; 1; 1; 1; 1; 1; 1; 1; 1; 1])];
   [(177, [1; 1; 0; 0; 1; 1; 1; 1; 1; 1; 1; 0; 0]); (178, [1; 1; 0; 0; 1; 1; 1; 1; 1; 1; 1; 1; 1]); (179, [1; 1; 1; 1; 1; 1; 1; 1; 1; 1; 1; 0; 0]); (180, [1; 1; 1; 1; 1; 1; 1; 1; 1; 1; 1; 1; 1])];
   [(181, [1; 1; 0; 0; 1; 1; 1; 1; 1; 1; 1; 0; 0]); (182, [1; 1; 0; 0; 1; 1; 1; 1; 1; 1; 1; 1; 1]); (183, [1; 1; 1; 1; 1; 1; 1; 1; 1; 1; 1; 0; 0]); (184, [1; 1; 1; 1; 1; 1; 1; 1; 1; 1; 1; 1; 1])];
   [(185, [1; 1; 0; 0; 1; 1; 1; 1; 1; 1; 1; 0; 0]); (186, [1; 1; 0; 0; 1; 1; 1; 1; 1; 1; 1; 1; 1]); (187, [1; 1; 1; 1; 1; 1; 1; 1; 1; 1; 1; 0; 0]); (188, [1; 1; 1; 1; 1; 1; 1; 1; 1; 1; 1; 1; 1])];
   [(193, [1; 1; 1; 1; 1; 1; 1; 1; 1; 1; 1; 1; 1; 1; 1]); (194, [1; 1; 1; 0; 0; 1; 1; 1; 1; 1; 1; 1; 1; 1; 1])];
   [(259, [1; 1; 1; 1; 1]); (260, [1; 1; 0; 0; 1])]]%nat.

Definition family_ok (f : list nat * list slot) (g : list (nat * list nat)) : Prop :=
  map fst g = fst f /\ Forall (fun p => i_operands (form (fst p)) = pick (snd f) (snd p)) g.
Lemma filled_ok : Forall2 family_ok families filled.
Proof. repeat (apply Forall2_cons; [split; [reflexivity|repeat (apply Forall_cons; [vm_compute; reflexivity|]); apply Forall_nil]|]). apply Forall2_nil. Qed.
Definition all_fit (l : list slot) (g : list (nat * list nat)) : bool :=
  forallb (fun p => forallb (fun q => fits (i_opcode (form (fst p))) (i_opcode (form (fst q))) (range 16 4) (range 16 4) l (snd p) (snd q)) g) g.
Lemma filled_fit : forallb (fun p => all_fit (snd (fst p)) (snd p)) (combine families filled) = true.
Proof. vm_compute. reflexivity. Qed.
Lemma combine_filled : forall A B (P : A -> B -> Prop) l l' x, Forall2 P l l' -> In x l -> exists y, In (x, y) (combine l l') /\ P x y.
Proof.
  intros A B P l l' x H. induction H as [|a b l l' AB H IH]; [intros []|]. intros [->|I].
  - exists b. split; [left; reflexivity|exact AB].
  - destruct (IH I) as (y & J & Y). exists y. split; [right; exact J|exact Y].
Qed.

Lemma bare_keeps : forall i gi gn m, (gi <= 7)%N -> N.land (range 16 4) m = 0%N -> N.land (bare_word i gi gn) m = N.land (i_opcode i) m.
Proof.
  intros i gi gn m G D. unfold bare_word. rewrite N.land_lor_distr_l. rewrite (sub_apart _ (range 16 4)); [apply N.lor_0_l| |exact D].
  apply place_sub. unfold guard_field. change (2 ^ 4)%N with 16%N. destruct gn; lia.
Qed.

Theorem forms_related : forall lab lab' pc pc' n n' gi gn gi' gn' kf kf' op op',
  (n < List.length table)%nat -> (n' < List.length table)%nat -> (gi <= 7)%N -> (gi' <= 7)%N ->
  Forall kind_ok kf -> Forall kind_ok kf' -> form_spells lab pc (form n) gi gn kf op -> form_spells lab' pc' (form n') gi' gn' kf' op' ->
  value op = value op' ->
  i_mnemonic (form n) = i_mnemonic (form n') /\ gi = gi' /\ gn = gn' /\
  (n = n' \/ related lab lab' pc pc' (form n) (form n') kf kf' \/ swapped (form n) (form n')).
Proof.
  intros lab lab' pc pc' n n' gi gn gi' gn' kf kf' op op' L L' G G' K K' F F' V.
  assert (I : In (form n) table) by (apply nth_In; exact L). assert (I' : In (form n') table) by (apply nth_In; exact L').
  destruct (table_kin n n' L L') as (M & KN).
  { destruct (form_bits _ _ _ _ _ _ _ I G K F) as (A & B). destruct (form_bits _ _ _ _ _ _ _ I' G' K' F') as (A' & B').
    exists (value op). split; [exact A|]. split; [exact B|]. rewrite V. auto. }
  split; [exact M|].
  assert (GE : gi = gi' /\ gn = gn').
  { assert (X : forall lab pc i gi gn kf op, In i table -> (gi <= 7)%N -> Forall kind_ok kf -> form_spells lab pc i gi gn kf op ->
      field (value op) 16 4 = guard_field gi gn).
    { clear. intros lab pc i gi gn kf op I G K (ko & kn & notes & w & r & -> & _ & S & _ & _ & ->). cbn [value].
      apply Forall_app in K as (K & _). pose proof (forallb_in _ _ _ _ table_spec I) as TS. cbn beta in TS.
      pose proof (forallb_in _ _ _ _ table_guard I) as TG. cbn beta in TG. apply andb_true_iff in TG as (TG1 & TG2). apply N.eqb_eq in TG1, TG2.
      destruct (list_keeps _ _ _ _ _ _ _ _ TS K S) as (A & _). specialize (A _ TG2). unfold bare_word in A.
      rewrite (N.land_lor_distr_l _ _ (range 16 4)), TG1, N.lor_0_r in A.
      apply (f_equal (fun x => field x 16 4)) in A. rewrite !field_land in A by apply sub_refl. rewrite A.
      apply field_place. unfold guard_field. change (2 ^ 4)%N with 16%N. destruct gn; lia. }
    apply guard_inj; [exact G|exact G'|]. rewrite <- (X _ _ _ _ _ _ _ I G K F), <- (X _ _ _ _ _ _ _ I' G' K' F'), V. reflexivity. }
  destruct GE as (<- & <-). split; [reflexivity|]. split; [reflexivity|].
  unfold kin in KN. apply orb_true_iff in KN as [KN|KN]; [apply orb_true_iff in KN as [KN|KN]; [apply orb_true_iff in KN as [KN|KN]|]|].
  - left. apply Nat.eqb_eq, KN.
  - right. left. apply existsb_exists in KN as ((forms & slots) & FI & KN). cbn [fst] in KN. apply andb_true_iff in KN as (N1 & N2).
    apply existsb_exists in N1 as (n1 & N1 & E1). apply Nat.eqb_eq in E1. subst n1.
    apply existsb_exists in N2 as (n1 & N2 & E1). apply Nat.eqb_eq in E1. subst n1.
    destruct (combine_filled _ _ _ _ _ _ filled_ok FI) as (g & J & EM & OK). cbn [fst snd] in EM, OK.
    pose proof (forallb_in _ _ _ _ filled_fit J) as FT. cbn beta in FT. cbn [fst snd] in FT. unfold all_fit in FT.
    rewrite <- EM in N1, N2. apply in_map_iff in N1 as ((n1 & c) & E1 & N1). apply in_map_iff in N2 as ((n2 & c') & E2 & N2).
    cbn [fst] in E1, E2. subst n1 n2.
    pose proof (forallb_in _ _ _ _ FT N1) as FT1. cbn beta in FT1. pose proof (forallb_in _ _ _ _ FT1 N2) as FT2. cbn beta in FT2. cbn [fst snd] in FT2.
    rewrite Forall_forall in OK. pose proof (OK _ N1) as O1. pose proof (OK _ N2) as O2. cbn [fst snd] in O1, O2.
    destruct F as (ko & kn & notes & w & r & -> & _ & S & NT & _ & ->). destruct F' as (ko' & kn' & notes' & w' & r' & -> & _ & S' & NT' & _ & ->).
    cbn [value] in V. subst w'. rewrite O1 in S. rewrite O2 in S'. apply Forall_app in K as (K & _). apply Forall_app in K' as (K' & _).
    exists forms, slots, n, n', ko, kn, ko', kn', notes, notes'. split; [exact FI|].
    split; [rewrite <- EM; apply (in_map fst) in N1; exact N1|]. split; [rewrite <- EM; apply (in_map fst) in N2; exact N2|].
    do 4 (split; [reflexivity|]). split; [exact NT|]. split; [exact NT'|].
    eapply slots_agree; [exact FT2| | |exact K|exact K'|exact S|exact S']; intros m D; apply bare_keeps; assumption.
  - right. right. apply andb_true_iff in KN as (N1 & N2). apply Nat.eqb_eq in N1, N2. subst. left. auto.
  - right. right. apply andb_true_iff in KN as (N1 & N2). apply Nat.eqb_eq in N1, N2. subst. right. auto.
Qed.

Theorem assembled_related : forall a code ls k i gi gn kf op a' code' ls' k' i' gi' gn' kf' op',
  assembled a code ls k i gi gn kf op -> assembled a' code' ls' k' i' gi' gn' kf' op' -> value op = value op' ->
  i_mnemonic i = i_mnemonic i' /\ gi = gi' /\ gn = gn' /\
  (i = i' \/ related (find_label ls) (find_label ls') (addr k) (addr k') i i' kf kf' \/ swapped i i').
Proof.
  intros a code ls k i gi gn kf op a' code' ls' k' i' gi' gn' kf' op' H H' V.
  destruct (assembled_ok _ _ _ _ _ _ _ _ _ H) as (I & K & G & F). destruct (assembled_ok _ _ _ _ _ _ _ _ _ H') as (I' & K' & G' & F').
  destruct (in_form i I) as (n & L & ->). destruct (in_form i' I') as (n' & L' & ->).
  destruct (forms_related _ _ _ _ _ _ _ _ _ _ _ _ _ _ L L' G G' K K' F F' V) as (A & B & C & [->|D]); auto 6.
Qed.
