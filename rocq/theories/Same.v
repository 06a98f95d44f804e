(** * Same: the word determines what was written (C49). *)
From Verif Require Import Base Float Lexer Operand Catalogue Table Parse Assemble Spec SpecOperand SpecInsn SpecSame Bits LexFacts
  SchedFuel Param Reach ParseFacts Outcomes Decode Program Footprint Encode Operands Operands3 Quiet Notes Insn Words Clash Recover.
From Coq Require Import Lia.
Local Open Scope string_scope.
Local Open Scope list_scope.
Open Scope Z_scope.

(** ** Fields *)

Lemma place_inj : forall x y a, place x a = place y a -> x = y.
Proof. intros x y a H. unfold place in H. apply N.mul_cancel_r in H; [exact H|apply N.pow_nonzero; discriminate]. Qed.
Lemma flag_place : forall f a, flag_bit f a = place (if f : bool then 1 else 0) a.
Proof. intros [] a; unfold flag_bit, place; lia. Qed.
Lemma pow_place : forall a, (2 ^ a)%N = place 1 a.
Proof. intros a. unfold place. lia. Qed.
(** Two fields apart. *)
Lemma lor_inj : forall n m x y a b x' y', N.lor (place x a) (place y b) = N.lor (place x' a) (place y' b) ->
  (a + n <= b \/ b + m <= a)%N -> (x < 2 ^ n)%N -> (x' < 2 ^ n)%N -> (y < 2 ^ m)%N -> (y' < 2 ^ m)%N -> x = x' /\ y = y'.
Proof.
  intros n m x y a b x' y' E D X X' Y Y'. split.
  - apply (f_equal (fun w => field w a n)) in E. rewrite !field_lor, !(field_place _ a n) in E by assumption.
    rewrite !(field_place_out _ b m) in E by (try assumption; lia). rewrite !N.lor_0_r in E. exact E.
  - apply (f_equal (fun w => field w b m)) in E. rewrite !field_lor, !(field_place _ b m) in E by assumption.
    rewrite !(field_place_out _ a n) in E by (try assumption; lia). rewrite !N.lor_0_l in E. exact E.
Qed.
Lemma nth_same : forall A (l : list (A * N)) s s' v, NoDup (map snd l) -> In (s, v) l -> In (s', v) l -> s = s'.
Proof.
  intros A l s s' v. induction l as [|(t, u) l IH]; cbn; [easy|]. intros D [E|E] [E'|E']; inversion D as [|? ? D1 D2]; subst.
  - congruence.
  - injection E as -> ->. destruct D1. apply (in_map snd) in E'. exact E'.
  - injection E' as -> ->. destruct D1. apply (in_map snd) in E. exact E.
  - auto.
Qed.
Lemma entry_same : forall tbl p k k' i, entry tbl p k i -> entry tbl p k' i -> k = k'.
Proof. intros tbl p k k' i (s & H & -> & _) (s' & H' & -> & _). congruence. Qed.

(** ** What an operand looks at *)

Fixpoint looks (o : opnd) : N :=
  match o with
  | OMirrorGpr a => range a 8
  | OSelector a _ _ _ | OTldsType a | OTexsType a => range a 3
  | OF2fRounding => range 8 4
  | OTexsSwizzle => range 28 8
  | OAbs _ o => looks o
  | _ => 0%N
  end.
(** Conditions on the places of an operand. *)
Fixpoint sharp (o : opnd) : bool :=
  match o with
  | OOptType ty _ => match ty with ty_minus | ty_tilde => true | _ => false end
  | OIntFormat u sg a sa _ =>
      let n := N.max (index_bits None u) (index_bits None sg) in N.leb (a + n) sa || N.leb (sa + 1) a
  | OSrcFormat a sa => N.leb (a + 2) sa || N.leb (sa + 1) a
  | OHalf n a (Some s) => N.leb (a + n) s || N.leb (s + 1) a
  | OMemAddress _ a size _ => N.leb 16 a
  | OAbs a o => N.eqb (N.land (range a 1) (mask o)) 0 && sharp o
  | OPo a b => true
  | OReqText _ _ _ | OReqTextAfter _ _ _ _ => true
  | OCcTests l _ => String.eqb (nth 15 l "") "T"
  | OSelector _ _ l _ => String.eqb (nth 0 l "") "H0"
  | OS2r l => forallb (fun n => String.eqb (nth n l "") "") [32; 33; 34; 35; 37; 38; 39]%nat
  | _ => true
  end.
Lemma table_sharp : forallb (fun i => forallb sharp (i_operands i)) table = true.
Proof. vm_compute. reflexivity. Qed.

Lemma field_looks : forall w w' m a n, N.land w m = N.land w' m -> sub (range a n) m -> field w a n = field w' a n.
Proof. intros w w' m a n E S. rewrite <- (field_land w m a n S), E. apply field_land. exact S. Qed.
Lemma bit_looks : forall w w' m k, N.land w m = N.land w' m -> N.testbit m k = true -> N.testbit w k = N.testbit w' k.
Proof.
  intros w w' m k E T. apply (f_equal (fun x => N.testbit x k)) in E. rewrite !N.land_spec, T, !andb_true_r in E. exact E.
Qed.

(** ** Values in fields *)

Lemma to_N_inj : forall x y, 0 <= x -> 0 <= y -> Z.to_N x = Z.to_N y -> x = y.
Proof. intros x y X Y E. apply Z2N.inj in E; assumption. Qed.
Lemma mod_close : forall m l x y, l <= x < l + m -> l <= y < l + m -> x mod m = y mod m -> x = y.
Proof.
  intros m l x y X Y E. assert (Q : (x - l) mod m = (y - l) mod m) by (rewrite Zminus_mod, E, <- Zminus_mod; reflexivity).
  rewrite !Z.mod_small in Q by lia. lia.
Qed.
Lemma mod_inj : forall n x y, - 2 ^ (Z.of_N n - 1) <= x < 2 ^ (Z.of_N n - 1) -> - 2 ^ (Z.of_N n - 1) <= y < 2 ^ (Z.of_N n - 1) ->
  Z.to_N (x mod 2 ^ Z.of_N n) = Z.to_N (y mod 2 ^ Z.of_N n) -> x = y.
Proof.
  intros n x y X Y E. assert (P : 0 < 2 ^ Z.of_N n) by (apply Z.pow_pos_nonneg; lia).
  apply to_N_inj in E; [|apply Z.mod_pos_bound; exact P..].
  destruct (N.eq_dec n 0) as [->|N0]; [change (2 ^ (Z.of_N 0 - 1)) with 0 in *; lia|].
  assert (D : 2 ^ Z.of_N n = 2 * 2 ^ (Z.of_N n - 1)) by (rewrite <- Z.pow_succ_r by lia; f_equal; lia).
  apply (mod_close (2 ^ Z.of_N n) (- 2 ^ (Z.of_N n - 1))); [lia|lia|exact E].
Qed.

Lemma register_same : forall q a ks ks' nx nx' n r r', register a ks nx n r -> register a ks' nx' n r' -> (q = true -> r = r') ->
  same_register q ks ks'.
Proof.
  intros q a ks ks' nx nx' n r r' H H' Q. exists n. unfold spelled.
  destruct H as [(-> & _ & ->)|(-> & R)], H' as [(-> & _ & ->)|(-> & R')]; repeat split; auto; intros T; specialize (Q T);
    subst; exfalso; unfold reuse_bit in *;
    repeat match goal with H : (if ?c then _ else _) = _ |- _ => destruct c end; congruence.
Qed.
Lemma memory_same : forall q imm addr size shr ks ks' b r r', (16 <= addr)%N -> (1 <= size)%N -> Forall kind_ok ks -> Forall kind_ok ks' ->
  memory imm addr size shr ks b r -> memory imm addr size shr ks' b r' -> (q = true -> r = r') -> same_memory q shr ks ks'.
Proof.
  intros q imm addr size shr ks ks' b r r' A S F F' (kr & ki & n & o & -> & R & O & ->) (kr' & ki' & n' & o' & -> & R' & O' & E) Q.
  assert (G : forall kr ki n, Forall kind_ok (TLbrack :: kr ++ ki ++ [TRbrack]) -> forall r,
    (kr = [] /\ n = 255%N /\ r = 0%N \/ kr = [TReg n] /\ r = 0%N \/ kr = [TReg n; id ".reuse"] /\ r = 1%N) -> (n < 2 ^ 8)%N).
  { clear. intros kr ki n F r R. inversion F as [|? ? _ F1]; subst. apply Forall_app in F1 as (F1 & _).
    destruct R as [(-> & -> & _)|[(-> & _)|(-> & _)]]; [reflexivity| |]; inversion F1 as [|? ? K]; subst;
      change (n <= 255)%N in K; change (2 ^ 8)%N with 256%N; lia. }
  apply (lor_inj 8 size) in E as (<- & E); [|left; lia|exact (G _ _ _ F _ R)|exact (G _ _ _ F' _ R')|apply to_N_mod..].
  exists kr, ki, o, kr', ki', o'. split; [reflexivity|]. split; [reflexivity|].
  split.
  { exists n. unfold base, spelled. split; [tauto|]. split; [tauto|]. intros T. specialize (Q T).
    destruct R as [(-> & _ & ->)|[(-> & ->)|(-> & ->)]], R' as [(-> & _ & ->)|[(-> & ->)|(-> & ->)]];
      try discriminate Q; cbn; (tauto || (split; intros; intuition discriminate)). }
  split; [unfold offset; tauto|]. split; [unfold offset; tauto|].
  assert (P : 0 < 2 ^ Z.of_N size) by (apply Z.pow_pos_nonneg; lia).
  assert (P1 : 0 < 2 ^ (Z.of_N size - 1)) by (apply Z.pow_pos_nonneg; lia).
  assert (PS : 0 < 2 ^ Z.of_N shr) by (apply Z.pow_pos_nonneg; lia).
  assert (D : 2 ^ Z.of_N size = 2 * 2 ^ (Z.of_N size - 1)) by (rewrite <- Z.pow_succ_r by lia; f_equal; lia).
  set (L := if N.eqb n 255 then 0 else - 2 ^ (Z.of_N size - 1)).
  assert (B : forall z k, (k = [] /\ z = 0 \/ imm = true /\ k = [TImm z] /\
     (if (n =? 255)%N then 0 <= z < 2 ^ Z.of_N size else - 2 ^ (Z.of_N size - 1) <= z < 2 ^ (Z.of_N size - 1))) ->
     L <= z / 2 ^ Z.of_N shr < L + 2 ^ Z.of_N size).
  { intros z k [(_ & ->)|(_ & _ & Z)]; [rewrite Z.div_0_l by lia; unfold L; destruct (n =? 255)%N; lia|].
    unfold L. destruct (n =? 255)%N.
    - split; [apply Z.div_pos; lia|]. apply Z.div_lt_upper_bound; [lia|]. nia.
    - split; [apply Z.div_le_lower_bound; [lia|]; nia|]. apply Z.div_lt_upper_bound; [lia|]. nia. }
  pose proof (B _ _ O) as B1. pose proof (B _ _ O') as B2.
  apply to_N_inj in E; [|apply Z.mod_pos_bound; exact P..].
  exact (mod_close _ _ _ _ B1 B2 E).
Qed.

(** ** One operand *)

Lemma ident_nonempty : forall ks s, Forall kind_ok ks -> In (TIdent s) ks -> s <> [].
Proof. intros ks s F I. rewrite Forall_forall in F. exact (F _ I). Qed.
Lemma half_lt : forall ks h neg sp, half ks h neg sp -> (h < 2 ^ 16)%N /\ (sp = true -> (h + 0x8000 < 2 ^ 16)%N).
Proof.
  intros ks h neg sp [(f & _ & -> & -> & _)|[(z & _ & -> & -> & _)|[(_ & -> & ->)|(_ & -> & ->)]]];
    split; try apply fp16_lt; try discriminate; reflexivity.
Qed.

Ltac nd := repeat constructor; cbn; intuition discriminate.
Ltac half_eq := match goal with H : place _ ?a = place _ ?a |- _ => apply place_inj in H; subst end.

Section One.
  Variable q : bool.
  Variables lab lab' : text -> option Z.
  Variables pc pc' : Z.

  Theorem spells_same : forall o, spec_ok o = true -> sharp o = true ->
    forall w w' ks ks' nx nx' b r r', Forall kind_ok ks -> Forall kind_ok ks' ->
    N.land w (looks o) = N.land w' (looks o) ->
    spells lab pc o w ks nx b r -> spells lab' pc' o w' ks' nx' b r' -> (q = true -> r = r') ->
    same q lab lab' pc pc' o ks ks'.
  Proof.
    induction o; intros SO SH w w' ks ks' nx nx' b r r' F F' LK H H' Q; cbn [spells same looks sharp spec_ok defaults] in *.
    - (* OComma *) left. destruct H as (-> & _), H' as (-> & _). reflexivity.
    - (* OFlag *) left. destruct H as (_ & [(-> & ->)|(-> & _ & ->)]), H' as (_ & [(-> & E)|(-> & _ & E)]); try reflexivity;
        exfalso; revert E; [|intros E; symmetry in E; revert E]; apply N.pow_nonzero; discriminate.
    - (* OUint *) left. destruct H as (z & -> & B & -> & _), H' as (z' & -> & B' & E & _).
      apply place_inj, to_N_inj in E; [|lia..]. congruence.
    - (* OInt *) left. destruct H as (z & -> & B & -> & _), H' as (z' & -> & B' & E & _).
      apply place_inj, mod_inj in E; [|assumption..]. congruence.
    - (* ODotTable *)
      destruct H as (_ & [(k & i & -> & N & ->)|(i & -> & N & -> & ->)]), H' as (_ & [(k' & i' & -> & N' & E)|(i' & -> & N' & E' & E)]).
      + left. apply place_inj in E as <-. f_equal. exact (entry_same _ _ _ _ _ N N').
      + subst default. apply place_inj in E as <-. right. cbn. destruct N as (s & N & -> & _).
        rewrite (nth_error_nth _ _ "" N). auto.
      + apply place_inj in E as <-. right. cbn. destruct N' as (s & N' & -> & _).
        rewrite (nth_error_nth _ _ "" N'). auto.
      + left. reflexivity.
    - (* OReqTable *) left. destruct H as (k & i & -> & N & -> & _), H' as (k' & i' & -> & N' & E & _).
      apply place_inj in E as <-. f_equal. exact (entry_same _ _ _ _ _ N N').
    - left. destruct H as (-> & _), H' as (-> & _). reflexivity.
    - left. destruct H as (-> & _), H' as (-> & _). reflexivity.
    - (* OOptText *) destruct H as (_ & _ & [->|(-> & _)]), H' as (_ & _ & [->|(-> & _)]); cbn; auto.
    - (* OUimmExtended *) left. destruct H as (z & -> & B & -> & _), H' as (z' & -> & B' & E & _).
      rewrite !flag_place in E. apply (lor_inj 1 20) in E; [|right; lia|..].
      + destruct E as (E1 & E2). apply to_N_inj in E2.
        * do 2 f_equal. destruct (Z.leb_spec (2 ^ 19) z), (Z.leb_spec (2 ^ 19) z'); try discriminate E1; lia.
        * destruct (Z.leb_spec (2 ^ 19) z); lia.
        * destruct (Z.leb_spec (2 ^ 19) z'); lia.
      + destruct (2 ^ 19 <=? z); reflexivity.
      + destruct (2 ^ 19 <=? z'); reflexivity.
      + apply to_N_lt. change (2 ^ Z.of_N 20) with (2 * 2 ^ 19). destruct (Z.leb_spec (2 ^ 19) z); lia.
      + apply to_N_lt. change (2 ^ Z.of_N 20) with (2 * 2 ^ 19). destruct (Z.leb_spec (2 ^ 19) z'); lia.
    - (* OLabel *) destruct H as (t & T & (B & ->) & _), H' as (t' & T' & (B' & E) & _). exists t, t'.
      split; [exact T|]. split; [exact T'|]. apply place_inj in E. apply (mod_inj 24) in E; [lia|exact B|exact B'].
    - (* OGpr *) destruct H as (n & R & ->), H' as (n' & R' & E). apply place_inj in E as <-. exact (register_same _ _ _ _ _ _ _ _ _ R R' Q).
    - (* OMirrorGpr *) destruct H as (n & R & -> & _), H' as (n' & R' & -> & _).
      rewrite <- (field_looks _ _ _ _ _ LK (sub_refl _)) in R'. exact (register_same _ _ _ _ _ _ _ _ _ R R' Q).
    - (* OCbuf *) left. destruct H as (z & o & -> & B & O & M & -> & _), H' as (z' & o' & -> & B' & O' & M' & E & _).
      apply (lor_inj 5 14) in E; [|right; lia|..].
      + destruct E as (E1 & E2). apply to_N_inj in E1; [|lia..]. subst z'.
        apply to_N_inj in E2; [|apply Z.div_pos; [apply Z.mod_pos_bound; reflexivity|reflexivity]..].
        assert (D : forall x, x mod 4 = 0 -> (x mod 2 ^ 16) mod 4 = 0).
        { intros x X. rewrite <- Znumtheory.Zmod_div_mod; [exact X|reflexivity|reflexivity|]. exists (2 ^ 14). reflexivity. }
        assert (X : o mod 2 ^ 16 = o' mod 2 ^ 16).
        { rewrite (Z.div_mod (o mod 2 ^ 16) 4), (Z.div_mod (o' mod 2 ^ 16) 4), E2, (D o), (D o') by (easy || assumption). reflexivity. }
        apply (mod_close (2 ^ 16) (- 2 ^ 15)) in X; [congruence|change (2 ^ 16) with (2 * 2 ^ 15); lia..].
      + apply to_N_lt. change (2 ^ Z.of_N 5) with 32. lia.
      + apply to_N_lt. change (2 ^ Z.of_N 5) with 32. lia.
      + apply to_N_lt. split; [apply Z.div_pos; [apply Z.mod_pos_bound; reflexivity|reflexivity]|].
        apply Z.div_lt_upper_bound; [reflexivity|]. apply (Z.mod_pos_bound o (2 ^ 16)). reflexivity.
      + apply to_N_lt. split; [apply Z.div_pos; [apply Z.mod_pos_bound; reflexivity|reflexivity]|].
        apply Z.div_lt_upper_bound; [reflexivity|]. apply (Z.mod_pos_bound o' (2 ^ 16)). reflexivity.
    - (* OImm20 *) left. destruct H as (z & -> & B & -> & _), H' as (z' & -> & B' & E & _).
      rewrite !flag_place in E. apply (lor_inj 19 1) in E; [|left; lia|apply (to_N_mod _ 19)|apply (to_N_mod _ 19)|..].
      + destruct E as (E1 & E2). apply to_N_inj in E1; [|apply Z.mod_pos_bound; reflexivity..].
        destruct (Z.ltb_spec z 0), (Z.ltb_spec z' 0); try discriminate E2.
        * apply (mod_close (2 ^ 19) (- 2 ^ 19)) in E1; [congruence|lia..].
        * apply (mod_close (2 ^ 19) 0) in E1; [congruence|lia..].
      + destruct (z <? 0); reflexivity.
      + destruct (z' <? 0); reflexivity.
    - (* OFimm *) destruct H as (f & S & _ & H), H' as (f' & S' & _ & H'). exists f, f'. split; [exact S|]. split; [exact S'|].
      pose proof (single_lt _ _ S F) as L. pose proof (single_lt _ _ S' F') as L'.
      destruct (N.eqb bits 20); [|apply (place_inj _ _ 20); congruence].
      rewrite H in H'. apply (lor_inj 19 1) in H'; [|left; lia|..].
      + destruct H' as (E1 & E2).
        assert (D : forall x, (x / 2 ^ 12 = x / 2 ^ 31 * 2 ^ 19 + x mod 2 ^ 31 / 2 ^ 12)%N).
        { intros x. rewrite (N.div_mod x (2 ^ 31)) at 1 by discriminate.
          replace (2 ^ 31 * (x / 2 ^ 31))%N with (x / 2 ^ 31 * 2 ^ 19 * 2 ^ 12)%N by (change (2 ^ 31)%N with (2 ^ 19 * 2 ^ 12)%N; lia).
          apply N.div_add_l. discriminate. }
        rewrite (D f), (D f'), E1, E2. reflexivity.
      + apply N.div_lt_upper_bound; [discriminate|]. apply (N.mod_lt f (2 ^ 31)). discriminate.
      + apply N.div_lt_upper_bound; [discriminate|]. apply (N.mod_lt f' (2 ^ 31)). discriminate.
      + apply N.div_lt_upper_bound; [discriminate|]. exact L.
      + apply N.div_lt_upper_bound; [discriminate|]. exact L'.
    - (* ODimm *) destruct H as (m & neg & D & -> & _), H' as (m' & neg' & D' & E & _).
      assert (G : forall ks m neg, double ks m neg -> (m < 2 ^ 63)%N).
      { clear. intros ks m neg [(f & _ & -> & _)|[(z & _ & -> & _)|[(_ & ->)|(_ & ->)]]];
          [apply N.mod_lt; discriminate|apply N.mod_lt; discriminate|reflexivity|reflexivity]. }
      rewrite !flag_place in E. apply (lor_inj 19 1) in E; [|left; lia|..].
      + destruct E as (E1 & E2). exists m, m', neg. split; [exact D|]. split; [|exact E1].
        destruct neg, neg'; try discriminate E2; exact D'.
      + apply N.div_lt_upper_bound; [discriminate|]. exact (G _ _ _ D).
      + apply N.div_lt_upper_bound; [discriminate|]. exact (G _ _ _ D').
      + destruct neg; reflexivity.
      + destruct neg'; reflexivity.
    - (* OHalf *) destruct H as (h & neg & sp & HF & _ & H), H' as (h' & neg' & sp' & HF' & _ & H').
      apply half_lt in HF as L. apply half_lt in HF' as L'. destruct L as (L & LS), L' as (L' & LS').
      set (v := fun x => if N.eqb bits 9 then (x mod 2 ^ 15 / 2 ^ 6)%N else x).
      assert (V : forall x, (x < 2 ^ 16)%N -> (v x < 2 ^ bits)%N /\
        (if N.eqb bits 9 then place (x mod 2 ^ 15 / 2 ^ 6) offset else place x offset) = place (v x) offset).
      { intros x X. unfold v. apply andb_true_iff in SO as (SO & _). apply andb_true_iff in SO as (SO & _).
        apply orb_true_iff in SO as [SO|SO]; apply N.eqb_eq in SO; subst bits; cbn [N.eqb Pos.eqb]; (split; [|reflexivity]).
        - apply N.div_lt_upper_bound; [discriminate|]. apply (N.mod_lt x (2 ^ 15)). discriminate.
        - exact X. }
      destruct neg_bit as [s|].
      + destruct (V h L) as (V1 & V2), (V h' L') as (V1' & V2'). rewrite V2 in H. rewrite V2' in H'. rewrite H in H'.
        rewrite !flag_place in H'. apply (lor_inj 1 bits) in H' as (E1 & E2); [|apply orb_true_iff in SH; rewrite !N.leb_le in SH; lia| | |assumption..].
        * exists (v h), neg. split; [exists h, neg, sp; auto|]. exists h', neg', sp'. split; [exact HF'|].
          split; [destruct neg, neg'; try discriminate E1; reflexivity|exact E2].
        * destruct neg; reflexivity.
        * destruct neg'; reflexivity.
      + cbv zeta in H, H'.
        assert (X : forall h neg sp, (h < 2 ^ 16)%N -> (sp = true -> (h + 0x8000 < 2 ^ 16)%N) ->
          ((if sp && neg then h + 0x8000 else h) < 2 ^ 16)%N).
        { clear. intros h [] []; cbn; auto. }
        destruct (V _ (X _ neg _ L LS)) as (V1 & V2), (V _ (X _ neg' _ L' LS')) as (V1' & V2').
        rewrite V2 in H. rewrite V2' in H'. rewrite H in H'. apply place_inj in H'.
        exists (v (if sp && neg then h + 0x8000 else h)%N), false. split; [exists h, neg, sp; auto|].
        exists h', neg', sp'. auto.
    - (* OPred *) left. destruct H as (i & neg & -> & _ & H), H' as (i' & neg' & -> & _ & H').
      assert (L : (i < 2 ^ 3)%N) by (inversion F as [|? ? K]; subst; change (i <= 7)%N in K; change (2 ^ 3)%N with 8%N; lia).
      assert (L' : (i' < 2 ^ 3)%N) by (inversion F' as [|? ? K]; subst; change (i' <= 7)%N in K; change (2 ^ 3)%N with 8%N; lia).
      destruct negable.
      + rewrite H, !flag_place in H'. apply (lor_inj 3 1) in H' as (-> & E); [|left; lia|assumption|assumption|..].
        * destruct neg, neg'; try discriminate E; reflexivity.
        * destruct neg; reflexivity.
        * destruct neg'; reflexivity.
      + destruct H as (-> & ->), H' as (-> & E). apply place_inj in E. congruence.
    - (* OInvPred *) left. destruct H as (i & -> & -> & _), H' as (i' & -> & E & _). apply place_inj in E.
      assert (L : (i <= 7)%N) by (inversion F as [|? ? K]; exact K).
      assert (L' : (i' <= 7)%N) by (inversion F' as [|? ? K]; exact K).
      assert (i = i') by lia. congruence.
    - (* OOptType *) left.
      assert (U : forall k k', type_of k = ty -> type_of k' = ty -> k = k').
      { intros k k' K K'. subst ty. destruct k; try discriminate SH; destruct k'; try discriminate K'; reflexivity. }
      destruct H as (_ & [(k & -> & K & ->)|(-> & _ & ->)]), H' as (_ & [(k' & -> & K' & E)|(-> & _ & E)]);
        [f_equal; auto| | |reflexivity]; exfalso; revert E; [|intros E; symmetry in E; revert E]; apply N.pow_nonzero; discriminate.
    - (* OAbs *) apply andb_true_iff in SH as (SD & SH). apply N.eqb_eq in SD.
      apply andb_true_iff in SO as (SO & SP). 
      assert (X : forall b, sub b (mask o) -> N.testbit b address = false).
      { intros y Y. destruct (N.testbit y address) eqn:T; [|reflexivity]. rewrite sub_spec in Y. apply Y in T.
        assert (N.testbit (N.land (range address 1) (mask o)) address = false) by (rewrite SD; apply N.bits_0).
        rewrite N.land_spec, T, range_spec, N.leb_refl in H0. cbn [andb] in H0. rewrite andb_true_r in H0.
        apply N.ltb_ge in H0. lia. }
      assert (X1 : forall b, N.testbit (N.lor (2 ^ address) b) address = true).
      { intros y. rewrite N.lor_spec, N.pow2_bits_true. reflexivity. }
      assert (XC : forall y y', sub y (mask o) -> sub y' (mask o) -> N.lor (2 ^ address) y = N.lor (2 ^ address) y' -> y = y').
      { intros y y' Y Y' E. apply N.bits_inj. intros k. apply (f_equal (fun x => N.testbit x k)) in E. rewrite !N.lor_spec in E.
        destruct (N.eq_dec k address) as [->|NE]; [rewrite X, X by assumption; reflexivity|].
        rewrite N.pow2_bits_false in E by congruence. exact E. }
      assert (FB : forall k, Forall kind_ok (TVbar :: k ++ [TVbar]) -> Forall kind_ok k).
      { intros k K. inversion K as [|? ? _ K1]; subst. apply Forall_app in K1. apply K1. }
      destruct H as [(k & y & -> & H & ->)|(NB & H)], H' as [(k' & y' & -> & H' & E)|(NB' & H')].
      + left. exists k, k'. split; [reflexivity|]. split; [reflexivity|].
        pose proof (spells_sub _ _ _ _ _ _ _ _ SP (FB _ F) H) as S1. pose proof (spells_sub _ _ _ _ _ _ _ _ SP (FB _ F') H') as S2.
        apply XC in E; [|assumption..]. subst y'. refine (IHo SP SH _ _ _ _ _ _ _ _ _ (FB _ F) (FB _ F') _ H H' Q).
        rewrite !N.land_lor_distr_l, LK. reflexivity.
      + exfalso. pose proof (X _ (spells_sub _ _ _ _ _ _ _ _ SP F' H')) as Y. rewrite X1 in Y. discriminate Y.
      + exfalso. pose proof (X _ (spells_sub _ _ _ _ _ _ _ _ SP F H)) as Y. rewrite E, X1 in Y. discriminate Y.
      + right. split; [destruct ks; [discriminate|exact NB]|]. split; [destruct ks'; [discriminate|exact NB']|].
        exact (IHo SP SH _ _ _ _ _ _ _ _ _ F F' LK H H' Q).
    - (* OPo *) left. assert (X : N.lor (2 ^ address1) (2 ^ address2) <> 0%N).
      { intros E. apply N.lor_eq_0_iff in E as (E & _). revert E. apply N.pow_nonzero. discriminate. }
      destruct H as (_ & [(-> & ->)|(-> & _ & ->)]), H' as (_ & [(-> & E)|(-> & _ & E)]); congruence.
    - left. destruct H as (-> & _), H' as (-> & _). reflexivity.
    - (* OMemAddress *) apply N.leb_le in SH. apply andb_true_iff in SO as (_ & SO). apply N.leb_le in SO.
      exact (memory_same _ _ _ _ _ _ _ _ _ _ SH SO F F' H H' Q).
    - (* OCcTests *) apply String.eqb_eq in SH.
      destruct H as (_ & [(k & i & -> & N & ->)|(-> & _ & ->)]), H' as (_ & [(k' & i' & -> & N' & E)|(-> & _ & E)]);
        [| | |left; reflexivity]; apply place_inj in E.
      + subst i'. left. do 2 f_equal. exact (entry_same _ _ _ _ _ N N').
      + subst i. right. destruct N as (s & N & -> & _). apply (nth_error_nth _ _ "") in N. change (N.to_nat 15) with 15%nat in N.
        rewrite SH in N. subst s. cbn. auto.
      + subst i'. right. destruct N' as (s & N' & -> & _). apply (nth_error_nth _ _ "") in N'. change (N.to_nat 15) with 15%nat in N'.
        rewrite SH in N'. subst s. cbn. auto.
    - (* OImmAttr *) left. destruct H as (z & -> & B & -> & _), H' as (z' & -> & B' & E & _).
      apply (lor_inj 10 8) in E; [|right; lia|apply to_N_lt; exact B|apply to_N_lt; exact B'|reflexivity|reflexivity].
      destruct E as (E & _). apply to_N_inj in E; [congruence|lia..].
    - (* OPatchAttr *) destruct H as (kr & kp & z & n & -> & R & P & B & ->), H' as (kr' & kp' & z' & n' & -> & R' & P' & B' & E).
      inversion F as [|? ? _ F1]; subst. inversion F1 as [|? ? _ F2]; subst. apply Forall_app in F2 as (F2 & _).
      inversion F' as [|? ? _ F1']; subst. inversion F1' as [|? ? _ F2']; subst. apply Forall_app in F2' as (F2' & _).
      apply (lor_inj 8 11) in E; [|left; lia|exact (reg_kind _ _ _ _ _ R F2)|exact (reg_kind _ _ _ _ _ R' F2')|apply (to_N_mod _ 11)|apply (to_N_mod _ 11)].
      destruct E as (<- & E). apply (mod_inj 11) in E as <-; [|assumption..].
      exists kr, kr', kp, kp', z. split; [reflexivity|]. split; [reflexivity|]. split; [exact P|]. split; [exact P'|].
      exact (register_same _ _ _ _ _ _ _ _ _ R R' Q).
    - (* OPhysAttr *) destruct H as (kr & n & -> & R & ->), H' as (kr' & n' & -> & R' & E). apply place_inj in E as <-.
      exists kr, kr'. split; [reflexivity|]. split; [reflexivity|]. exact (register_same _ _ _ _ _ _ _ _ _ R R' Q).
    - (* OXmadSigns *)
      destruct H as (_ & [(s1 & s2 & -> & ->)|(-> & _ & _ & ->)]), H' as (_ & [(s1' & s2' & -> & E)|(-> & _ & _ & E)]).
      + left. destruct s1, s2, s1', s2'; try discriminate E; reflexivity.
      + right. destruct s1, s2; try discriminate E. cbn. auto.
      + right. destruct s1', s2'; try discriminate E. cbn. auto.
      + left. reflexivity.
    - (* OF2fRounding *)
      rewrite <- (field_looks _ _ _ 8 2 LK) in H' by (apply sub_range; lia).
      rewrite <- (field_looks _ _ _ 10 2 LK) in H' by (apply sub_range; lia). cbv zeta in H, H'.
      set (l := if N.eqb (field w 8 2) (field w 10 2) then rounding_same else rounding_convert) in *.
      assert (D : NoDup (map snd l)) by (unfold l; destruct (N.eqb (field w 8 2) (field w 10 2)); nd).
      assert (Z0 : forall s, In (s, 0%N) l -> s = ".RN").
      { unfold l. destruct (N.eqb (field w 8 2) (field w 10 2)); intros s I; cbn in I;
          repeat (destruct I as [I|I]; [first [discriminate I | injection I as <-; reflexivity]|]); destruct I. }
      destruct H as (_ & [(s & v & I & -> & ->)|(-> & _ & ->)]), H' as (_ & [(s' & v' & I' & -> & E)|(-> & _ & E)]).
      + left. apply place_inj in E as <-. rewrite (nth_same _ _ _ _ _ D I I'). reflexivity.
      + right. apply (place_inj _ 0 39) in E. subst v. apply Z0 in I as ->. cbn. auto.
      + right. symmetry in E. apply (place_inj _ 0 39) in E. subst v'. apply Z0 in I' as ->. cbn. auto.
      + left. reflexivity.
    - (* OIntFormat *) left. destruct H as (k & i & -> & _ & H), H' as (k' & i' & -> & _ & H').
      set (n := N.max (index_bits None unsigned) (index_bits None signed)) in *. apply orb_true_iff in SH. rewrite !N.leb_le in SH.
      assert (X : forall k i, (entry unsigned "." k i \/ entry signed "." k i) -> (i < 2 ^ n)%N).
      { intros k0 i0 [E|E]; apply entry_lt in E; [apply (index_lt _ None) in E|apply (index_lt _ None) in E];
          (eapply N.lt_le_trans; [exact E|]; apply N.pow_le_mono_r; [discriminate|unfold n; lia]). }
      rewrite !pow_place in H, H'.
      destruct H as [(N & H)|(M & N & H)], H' as [(N' & H')|(M' & N' & H')]; rewrite H in H'.
      + apply place_inj in H' as <-. f_equal. exact (entry_same _ _ _ _ _ N N').
      + exfalso. rewrite <- (N.lor_0_l (place i _)) in H'. change 0%N with (place 0 sign_address) in H' at 1.
        apply (lor_inj 1 n) in H'; [destruct H'; discriminate|lia|reflexivity|reflexivity|eauto..].
      + exfalso. rewrite <- (N.lor_0_l (place i' _)) in H'. change 0%N with (place 0 sign_address) in H' at 1.
        apply (lor_inj 1 n) in H'; [destruct H'; discriminate|lia|reflexivity|reflexivity|eauto..].
      + apply (lor_inj 1 n) in H'; [destruct H' as (_ & <-)|lia|reflexivity|reflexivity|eauto..].
        f_equal. exact (entry_same _ _ _ _ _ N N').
    - (* OLdcAddress *) destruct H as (z & km & y & -> & B & M & ->), H' as (z' & km' & y' & -> & B' & M' & E).
      assert (FM : forall z km, Forall kind_ok (id "c" :: TLbrack :: TImm z :: TRbrack :: km) -> Forall kind_ok km).
      { clear. intros z km H. do 4 (inversion H as [|? ? _ H']; subst; clear H; rename H' into H). exact H. }
      apply FM in F, F'. pose proof (memory_sub _ _ _ _ _ _ _ F M) as S1. pose proof (memory_sub _ _ _ _ _ _ _ F' M') as S2. cbv iota in S1, S2.
      assert (P : forall y, sub y (N.lor (range 8 8) (range 20 16)) -> field y 36 5 = 0%N).
      { intros x X. eapply field_apart; [exact X|]. reflexivity. }
      assert (E1 : z = z').
      { apply (f_equal (fun x => field x 36 5)) in E. rewrite !field_lor, (P y), (P y'), !N.lor_0_r in E by assumption.
        rewrite !field_place in E by (apply to_N_lt; change (2 ^ Z.of_N 5) with 32; lia). apply to_N_inj in E; lia. }
      subst z'.
      assert (E2 : y = y').
      { apply (f_equal (fun x => N.land x (N.lor (range 8 8) (range 20 16)))) in E. rewrite !N.land_lor_distr_l in E.
        rewrite !(sub_land y), !(sub_land y') in E by assumption.
        assert (O : N.land (place (Z.to_N z) 36) (N.lor (range 8 8) (range 20 16)) = 0%N).
        { apply N.bits_inj. intros k. rewrite N.land_spec, N.bits_0.
          assert (X : sub (place (Z.to_N z) 36) (range 36 5)) by (apply place_sub, to_N_lt; change (2 ^ Z.of_N 5) with 32; lia).
          rewrite sub_spec in X. specialize (X k). destruct (N.testbit (place (Z.to_N z) 36) k); [|reflexivity].
          specialize (X eq_refl). rewrite N.lor_spec. rewrite !range_spec in *.
          apply andb_true_iff in X as (X1 & X2). apply N.leb_le in X1. apply N.ltb_lt in X2.
          replace (N.ltb k (8 + 8)) with false by (symmetry; apply N.ltb_ge; lia).
          replace (N.ltb k (20 + 16)) with false by (symmetry; apply N.ltb_ge; lia). rewrite !andb_false_r. reflexivity. }
        rewrite O, !N.lor_0_l in E. exact E. }
      subst y'. exists z, km, km'. split; [reflexivity|]. split; [reflexivity|].
      refine (memory_same _ _ _ _ _ _ _ _ _ _ _ _ F F' M M' Q); lia.
    - (* OS2r *) left. cbn [forallb] in SH. rewrite !andb_true_iff, !String.eqb_eq in SH.
      assert (NT : forall k, kind_ok k -> forall i, entry tbl "" k i -> ~ In i [32; 33; 34; 35; 37; 38; 39]%N).
      { intros k K i (s & N & -> & _) I. apply (nth_error_nth _ _ "") in N.
        cbn in I. destruct SH as (A1 & A2 & A3 & A4 & A5 & A6 & A7 & _).
        assert (SE : s = "") by (repeat (destruct I as [<-|I]; [match type of N with context [N.to_nat ?c] => let v := eval vm_compute in (N.to_nat c) in change (N.to_nat c) with v in N end; congruence|]); destruct I). rewrite SE in K. apply K. reflexivity. }
      destruct H as (_ & H), H' as (_ & H').
      destruct H as [(s & v & I & -> & ->)|[(-> & _ & ->)|[(s & v & I & -> & ->)|(k & i & -> & _ & _ & N & ->)]]],
        H' as [(s' & v' & I' & -> & E)|[(-> & _ & E)|[(s' & v' & I' & -> & E)|(k' & i' & -> & _ & _ & N' & E)]]];
        apply place_inj in E; subst;
        try (exfalso; inversion F as [|? ? K]; subst; apply (NT _ K _ N); cbn;
             try (cbn in I'; repeat (destruct I' as [I'|I']; [injection I' as _ <-|]); try destruct I'); tauto);
        try (exfalso; inversion F' as [|? ? K]; subst; apply (NT _ K _ N'); cbn;
             try (cbn in I; repeat (destruct I as [I|I]; [injection I as _ <-|]); try destruct I); tauto);
        try (cbn in I; repeat (destruct I as [I|I]; [try discriminate I; injection I as <- <-|]); try destruct I);
        try (cbn in I'; repeat (destruct I' as [I'|I']; [try discriminate I'; injection I' as <-|]); try destruct I');
        try discriminate; try reflexivity.
      f_equal. exact (entry_same _ _ _ _ _ N N').
    - (* OLdgSize *)
      assert (D : NoDup (map snd global_sizes)) by nd.
      destruct H as (_ & H), H' as (_ & H').
      destruct H as [(s & v & I & -> & ->)|[(-> & ->)|(-> & _ & ->)]], H' as [(s' & v' & I' & -> & E)|[(-> & E)|(-> & _ & E)]];
        apply place_inj in E; try discriminate E; subst; try (left; reflexivity).
      + left. rewrite (nth_same _ _ _ _ _ D I I'). reflexivity.
      + exfalso. cbn in I. repeat (destruct I as [I|I]; [discriminate I|]). exact I.
      + right. cbn in I. repeat (destruct I as [I|I]; [first [discriminate I | injection I as <-; cbn; auto]|]); destruct I.
      + exfalso. cbn in I'. repeat (destruct I' as [I'|I']; [discriminate I'|]). exact I'.
      + right. cbn in I'. repeat (destruct I' as [I'|I']; [first [discriminate I' | injection I' as <-; cbn; auto]|]); destruct I'.
    - (* OSelector *) apply String.eqb_eq in SH. rewrite <- (field_looks _ _ _ type_address 3 LK (sub_refl _)) in H'. cbv zeta in H, H'.
      set (l := if N.eqb (field w type_address 3) short_type then shorts else ["B0"; "B1"; "B2"; "B3"]) in *.
      assert (Z0 : nth 0 l "" = "B0" \/ nth 0 l "" = "H0") by (unfold l; destruct (N.eqb _ _); auto).
      assert (G : forall k, entry l "." k 0 -> k = id ".B0" \/ k = id ".H0").
      { intros k (s & N & -> & _). apply (nth_error_nth _ _ "") in N. change (N.to_nat 0) with 0%nat in N. rewrite N in Z0.
        destruct Z0 as [->| ->]; auto. }
      destruct H as (_ & [(k & i & -> & N & ->)|(-> & _ & ->)]), H' as (_ & [(k' & i' & -> & N' & E)|(-> & _ & E)]).
      + left. apply place_inj in E as <-. f_equal. exact (entry_same _ _ _ _ _ N N').
      + right. apply (place_inj _ 0) in E. subst i. destruct (G _ N) as [->| ->]; cbn; auto.
      + right. symmetry in E. apply (place_inj _ 0) in E. subst i'. destruct (G _ N') as [->| ->]; cbn; auto.
      + left. reflexivity.
    - (* OAtomicSize *)
      destruct H as (_ & H), H' as (_ & H').
      destruct H as [(s & v & I & -> & ->)|[(-> & ->)|[(-> & ->)|(-> & _ & ->)]]],
        H' as [(s' & v' & I' & -> & E)|[(-> & E)|[(-> & E)|(-> & _ & E)]]];
        try (change 0%N with (place 0 address) in E); apply place_inj in E; subst; try discriminate E;
        try (left; reflexivity);
        try (cbn in I; repeat (destruct I as [I|I]; [try discriminate I; first [injection I as <- <-|injection I as <-]|]); try destruct I);
        try (cbn in I'; repeat (destruct I' as [I'|I']; [try discriminate I'; injection I' as <-|]); try destruct I');
        try (left; reflexivity); try discriminate; right; cbn; auto.
    - (* OSrcFormat *) apply orb_true_iff in SH. rewrite !N.leb_le in SH. cbv zeta in H, H'. rewrite !pow_place in H, H'.
      assert (T : forall k i, entry ["S8"; ""; "S16"; "S32"] "." k i \/ entry ["U8"; ""; "U16"; "U32"] "." k i -> (i < 2 ^ 2)%N).
      { intros k i [E|E]; apply entry_lt in E; exact E. }
      assert (X : forall i, i = N.lor i 0) by (intros; now rewrite N.lor_0_r).
      destruct H as (_ & H), H' as (_ & H').
      destruct H as [(k & i & -> & N & ->)|[(k & i & -> & M & N & ->)|(-> & M & N & ->)]],
        H' as [(k' & i' & -> & N' & E)|[(k' & i' & -> & M' & N' & E)|(-> & M' & N' & E)]].
      + left. apply (lor_inj 2 1) in E; [|lia|eauto|eauto|reflexivity|reflexivity]. destruct E as (<- & _).
        f_equal. exact (entry_same _ _ _ _ _ N N').
      + exfalso. rewrite (X (place i' _)) in E. change 0%N with (place 0 sign_address) in E.
        apply (lor_inj 2 1) in E; [destruct E; discriminate|lia|eauto|eauto|reflexivity|reflexivity].
      + right. apply (lor_inj 2 1) in E; [|lia|eauto|reflexivity|reflexivity|reflexivity]. destruct E as (-> & _).
        destruct N as (s & N & -> & _). injection N as <-. cbn. auto.
      + exfalso. rewrite (X (place i _)) in E. change 0%N with (place 0 sign_address) in E.
        apply (lor_inj 2 1) in E; [destruct E; discriminate|lia|eauto|eauto|reflexivity|reflexivity].
      + left. apply place_inj in E as <-. f_equal. exact (entry_same _ _ _ _ _ N N').
      + exfalso. rewrite (X (place i _)) in E. change 0%N with (place 0 sign_address) in E.
        apply (lor_inj 2 1) in E; [destruct E; discriminate|lia|eauto|reflexivity|reflexivity|reflexivity].
      + right. apply (lor_inj 2 1) in E; [|lia|reflexivity|eauto|reflexivity|reflexivity]. destruct E as (<- & _).
        destruct N' as (s & N' & -> & _). injection N' as <-. cbn. auto.
      + exfalso. rewrite (X (place i' _)) in E. change 0%N with (place 0 sign_address) in E.
        apply (lor_inj 2 1) in E; [destruct E; discriminate|lia|reflexivity|eauto|reflexivity|reflexivity].
      + left. reflexivity.
    - (* OTexType *) left. destruct H as (s & v & I & -> & -> & _), H' as (s' & v' & I' & -> & E & _). apply place_inj in E as <-.
      assert (D : NoDup (map snd texture_types)) by (unfold texture_types; nd). rewrite (nth_same _ _ _ _ _ D I I'). reflexivity.
    - left. destruct H as (-> & _), H' as (-> & _). reflexivity.
    - (* OTexsMode *) left. destruct H as (kl & kd & lod & dc & -> & -> & _ & L & D), H' as (kl' & kd' & lod' & dc' & -> & E & _ & L' & D').
      apply place_inj in E.
      destruct L as [(-> & ->)|[(-> & ->)|(-> & -> & _)]], D as [(-> & ->)|(-> & -> & _)],
        L' as [(-> & ->)|[(-> & ->)|(-> & -> & _)]], D' as [(-> & ->)|(-> & -> & _)]; try discriminate E; reflexivity.
    - (* OTldsType *) left. destruct H as (s & c & I & -> & -> & _), H' as (s' & c' & I' & -> & E & _). apply place_inj in E as <-.
      rewrite <- !(bit_looks _ _ _ _ LK) in I'
        by (rewrite range_spec; apply andb_true_iff; split; [apply N.leb_le; lia|apply N.ltb_lt; lia]).
      destruct (N.testbit w address), (N.testbit w (address + 1)), (N.testbit w (address + 2)); cbn in I, I';
        repeat (destruct I as [I|I]; [try discriminate I; injection I as <- <-|]); try destruct I;
        repeat (destruct I' as [I'|I']; [try discriminate I'; injection I' as <-|]); try destruct I'; reflexivity.
    - (* OTexsType *) left. destruct H as (s & c & I & -> & -> & _), H' as (s' & c' & I' & -> & E & _). apply place_inj in E as <-.
      rewrite <- (bit_looks _ _ _ (address + 2) LK) in I'
        by (rewrite range_spec; apply andb_true_iff; split; [apply N.leb_le; lia|apply N.ltb_lt; lia]).
      rewrite <- (field_looks _ _ _ address 2 LK) in I' by (apply sub_range; lia).
      destruct (N.testbit w (address + 2)); generalize dependent (field w address 2); intros l I I'; cbn in I, I';
        repeat (destruct I as [I|I]; [try discriminate I; injection I as <- <- <-|]); try destruct I;
        repeat (destruct I' as [I'|I']; [try discriminate I'; injection I' as <-|]); try destruct I'; reflexivity.
    - (* OTexsSwizzle *) left. destruct H as (s & v & I & -> & -> & _), H' as (s' & v' & I' & -> & E & _). apply place_inj in E as <-.
      rewrite <- (field_looks _ _ _ 28 8 LK (sub_refl _)) in I'.
      assert (D : NoDup (map snd (if N.eqb (field w 28 8) 255 then swizzles_one else swizzles_two)))
        by (destruct (N.eqb (field w 28 8) 255); nd).
      rewrite (nth_same _ _ _ _ _ D I I'). reflexivity.
  Qed.
End One.

(** ** Operand lists *)

Definition tok_eqb (k k' : tkind) : bool :=
  match k, k' with
  | TIdent s, TIdent s' => text_eqb s s'
  | TImm z, TImm z' => Z.eqb z z'
  | _, _ => false
  end.
Definition has_tok (k : tkind) (l : list tkind) : bool := existsb (tok_eqb k) l.
Lemma has_tok_in : forall k l, has_tok k l = true -> In k l.
Proof.
  intros k l H. apply existsb_exists in H as (k' & I & E). replace k with k'; [exact I|].
  destruct k, k'; try discriminate E; cbn in E; [apply text_eqb_eq in E|apply Z.eqb_eq in E]; congruence.
Qed.

(** The bits of an operand when the tokens [bad] do not occur. *)
Fixpoint index_mask (bad : list tkind) (a : N) (n : N) (tbl : list string) : N :=
  match tbl with
  | [] => 0%N
  | s :: tbl => N.lor (if has_tok (TIdent (lit "." ++ lit s)) bad then 0%N else place n a) (index_mask bad a (n + 1) tbl)
  end.
Definition fine (bad : list tkind) (o : opnd) : N :=
  match o with
  | OPo _ _ => if has_tok (id ".PO") bad then 0%N else mask o
  | OFlag s _ => if has_tok (id s) bad then 0%N else mask o
  | OUimmExtended => if has_tok (TImm (2 ^ 20)) bad then N.lor (range 20 19) (range 56 1) else mask o
  | OSelector _ _ shorts a =>
      if has_tok (id ".B2") bad && has_tok (id ".B3") bad && Nat.leb (List.length shorts) 2 then range a 1 else mask o
  | ODotTable None a tbl => if has_tok (id ".") bad then index_mask bad a 0 tbl else mask o
  | _ => mask o
  end.
Lemma index_mask_sub : forall bad a tbl n k s, nth_error tbl k = Some s -> ~ In (TIdent (lit "." ++ lit s)) bad ->
  sub (place (n + N.of_nat k) a) (index_mask bad a n tbl).
Proof.
  intros bad a tbl. induction tbl as [|t tbl IH]; intros n [|k] s E NB; try discriminate E; cbn [index_mask nth_error] in *.
  - injection E as ->. apply sub_lor_l. destruct (has_tok _ _) eqn:T; [apply has_tok_in in T; contradiction|].
    rewrite N.add_0_r. apply sub_refl.
  - apply sub_lor_r. replace (n + N.of_nat (Datatypes.S k))%N with (n + 1 + N.of_nat k)%N by lia. eapply IH; eassumption.
Qed.

Lemma spells_fine : forall lab pc o w ks nx b r bad, spec_ok o = true -> Forall kind_ok ks -> (forall k, In k bad -> ~ In k ks) ->
  spells lab pc o w ks nx b r -> sub b (fine bad o).
Proof.
  intros lab pc o w ks nx b r bad SO K NB H. pose proof (spells_sub _ _ _ _ _ _ _ _ SO K H) as S.
  destruct o; try exact S; cbn [fine spells] in *.
  - destruct (has_tok _ _) eqn:T; [|exact S]. apply has_tok_in in T. apply NB in T.
    destruct H as (_ & [(-> & _)|(-> & _ & ->)]); [destruct T; left; reflexivity|apply sub_0].
  - destruct default; [exact S|]. destruct (has_tok _ _) eqn:T; [|exact S].
    destruct H as (_ & [(k & i & -> & (s & N & -> & _) & ->)|(i & _ & _ & [=] & _)]).
    rewrite <- (N2Nat.id i). change (N.of_nat (N.to_nat i)) with (0 + N.of_nat (N.to_nat i))%N.
    apply (index_mask_sub _ _ _ _ _ _ N). intros I. apply (NB _ I). left. reflexivity.
  - destruct (has_tok _ _) eqn:T; [|exact S]. apply has_tok_in in T. apply NB in T.
    destruct H as (z & -> & B & -> & _). assert (z <> 2 ^ 20) by (intros ->; apply T; left; reflexivity).
    apply sub_lor; [apply sub_lor_r, flag_sub|apply sub_lor_l, place_sub, to_N_lt].
    change (2 ^ Z.of_N 19) with (2 ^ 19). destruct (Z.leb_spec (2 ^ 19) z); lia.
  - destruct (has_tok _ _) eqn:T; [|exact S]. apply has_tok_in in T. apply NB in T.
    destruct H as (_ & [(-> & _)|(-> & _ & ->)]); [destruct T; left; reflexivity|apply sub_0].
  - destruct (has_tok (id ".B2") bad) eqn:T2; [|exact S]. destruct (has_tok (id ".B3") bad) eqn:T3; [|exact S].
    destruct (Nat.leb_spec (List.length shorts) 2) as [L|L]; [|exact S]. cbn [andb].
    apply has_tok_in in T2, T3. apply NB in T2, T3. cbv zeta in H.
    destruct H as (_ & [(k & i & -> & E & ->)|(_ & _ & ->)]); [|apply sub_0].
    apply place_sub. change (2 ^ 1)%N with 2%N. pose proof (entry_lt _ _ _ _ E) as B.
    destruct (N.eqb _ _); [lia|]. cbn [List.length] in B. destruct E as (s & N & -> & _).
    destruct (N.ltb_spec i 2) as [|G]; [assumption|exfalso].
    assert (i = 2%N \/ i = 3%N) as [->| ->] by lia; injection N as <-; [apply T2|apply T3]; left; reflexivity.
Qed.

Fixpoint fines (bad : list tkind) (l : list opnd) : N :=
  match l with [] => 0%N | o :: l' => N.lor (fine bad o) (fines bad l') end.
Fixpoint clean (bad : list tkind) (m0 : N) (ops : list opnd) : bool :=
  match ops with
  | [] => true
  | o :: ops => keeps o && apart m0 (fine bad o) && apart (fines bad ops) (fine bad o) &&
      apart (reuse_masks ops) (reuse_mask o) && clean bad (N.lor m0 (fine bad o)) ops
  end.

Lemma land_0_bit : forall y m k, N.land y m = 0%N -> N.testbit m k = true -> N.testbit y k = false.
Proof.
  intros y m k Y M. assert (Q : N.testbit (N.land y m) k = false) by (rewrite Y; apply N.bits_0).
  rewrite N.land_spec, M, andb_true_r in Q. exact Q.
Qed.
Lemma lor_keeps : forall w b m, N.land b m = 0%N -> N.land (N.lor w b) m = N.land w m.
Proof. intros w b m H. rewrite N.land_lor_distr_l, H, N.lor_0_r. reflexivity. Qed.
Lemma sub_apart : forall b f m, sub b f -> N.land f m = 0%N -> N.land b m = 0%N.
Proof.
  intros b f m S A. apply N.bits_inj. intros k. rewrite N.land_spec, N.bits_0. rewrite sub_spec in S. specialize (S k).
  destruct (N.testbit b k); [|reflexivity]. destruct (N.testbit m k) eqn:M; [|reflexivity].
  rewrite (land_0_bit _ _ _ A M) in S. discriminate S. reflexivity.
Qed.

Lemma fines_keep : forall lab pc nx bad ops w ks e r, forallb spec_ok ops = true -> forallb keeps ops = true -> Forall kind_ok ks ->
  (forall k, In k bad -> ~ In k ks) -> spell_list lab pc nx ops w ks e r ->
  (forall m, N.land (fines bad ops) m = 0%N -> N.land e m = N.land w m) /\ sub r (reuse_masks ops).
Proof.
  intros lab pc nx bad ops w ks e r SO KE F NB H. induction H as [w|o ops w k1 k2 b r1 r2 e S H IH].
  - split; [reflexivity|apply sub_0].
  - cbn [forallb] in SO, KE. apply andb_true_iff in SO as (SO1 & SO2). apply andb_true_iff in KE as (KE1 & KE2).
    apply Forall_app in F as (F1 & F2).
    assert (NB1 : forall k, In k bad -> ~ In k k1) by (intros k I J; apply (NB k I), in_or_app; auto).
    assert (NB2 : forall k, In k bad -> ~ In k k2) by (intros k I J; apply (NB k I), in_or_app; auto).
    destruct (IH SO2 KE2 F2 NB2) as (A & B). split.
    + intros m D. cbn [fines] in D. rewrite N.land_lor_distr_l in D. apply N.lor_eq_0_iff in D as (D1 & D2).
      rewrite (A m D2). apply N.eqb_eq in KE1. rewrite KE1, N.ldiff_0_r. apply lor_keeps.
      exact (sub_apart _ _ _ (spells_fine _ _ _ _ _ _ _ _ _ SO1 F1 NB1 S) D1).
    + cbn [reuse_masks]. apply sub_lor; [apply sub_lor_l; eapply spells_reuse; exact S|apply sub_lor_r; exact B].
Qed.

Lemma clean_keeps : forall bad ops m0, clean bad m0 ops = true -> forallb keeps ops = true.
Proof.
  intros bad ops. induction ops as [|o ops IH]; intros m0 H; [reflexivity|]. cbn [clean forallb] in *.
  rewrite !andb_true_iff in H. destruct H as ((((H1 & _) & _) & _) & H5). rewrite H1. exact (IH _ H5).
Qed.

Section Lists.
  Variable q : bool.
  Variables lab lab' : text -> option Z.
  Variables pc pc' : Z.
  Variables nx nx' : tkind.

  Theorem list_same : forall bad ops m0 w ks ks' e r r', clean bad m0 ops = true ->
    forallb spec_ok ops = true -> forallb sharp ops = true -> sub w m0 ->
    Forall kind_ok ks -> Forall kind_ok ks' -> (forall k, In k bad -> ~ In k ks) -> (forall k, In k bad -> ~ In k ks') ->
    spell_list lab pc nx ops w ks e r -> spell_list lab' pc' nx' ops w ks' e r' -> (q = true -> r = r') ->
    same_all q lab lab' pc pc' ops ks ks'.
  Proof.
    intros bad ops. induction ops as [|o ops IH]; intros m0 w ks ks' e r r' C SO SH SW F F' NB NB' H H' Q.
    - inversion H; subst. inversion H'; subst. constructor.
    - inversion H as [|? ? ? k1 k2 b r1 r2 ? S T]; subst. inversion H' as [|? ? ? k1' k2' b' r1' r2' ? S' T']; subst.
      pose proof (clean_keeps _ _ _ C) as KE. cbn [clean forallb] in C, SO, SH, KE. rewrite !andb_true_iff in C.
      destruct C as ((((C1 & C2) & C3) & C4) & C5). apply N.eqb_eq in C1. apply apart_eq in C2, C3, C4.
      apply andb_true_iff in SO as (SO1 & SO2). apply andb_true_iff in SH as (SH1 & SH2). apply andb_true_iff in KE as (_ & KE).
      apply Forall_app in F as (F1 & F2). apply Forall_app in F' as (F1' & F2').
      assert (NB1 : forall k, In k bad -> ~ In k k1) by (intros k I J; apply (NB k I), in_or_app; auto).
      assert (NB2 : forall k, In k bad -> ~ In k k2) by (intros k I J; apply (NB k I), in_or_app; auto).
      assert (NB1' : forall k, In k bad -> ~ In k k1') by (intros k I J; apply (NB' k I), in_or_app; auto).
      assert (NB2' : forall k, In k bad -> ~ In k k2') by (intros k I J; apply (NB' k I), in_or_app; auto).
      destruct (fines_keep _ _ _ _ _ _ _ _ _ SO2 KE F2 NB2 T) as (A & R).
      destruct (fines_keep _ _ _ _ _ _ _ _ _ SO2 KE F2' NB2' T') as (A' & R').
      pose proof (spells_fine _ _ _ _ _ _ _ _ _ SO1 F1 NB1 S) as SB. pose proof (spells_fine _ _ _ _ _ _ _ _ _ SO1 F1' NB1' S') as SB'.
      pose proof (spells_reuse _ _ _ _ _ _ _ _ S) as RB. pose proof (spells_reuse _ _ _ _ _ _ _ _ S') as RB'.
      rewrite C1, !N.ldiff_0_r in *.
      assert (W : N.land w (fine bad o) = 0%N) by (eapply sub_apart; eassumption).
      assert (E : b = b').
      { specialize (A _ C3). specialize (A' _ C3). rewrite A in A'. rewrite !N.land_lor_distr_l, W, !N.lor_0_l in A'.
        rewrite (Recover.sub_land b _ SB), (Recover.sub_land b' _ SB') in A'. exact A'. }
      subst b'.
      assert (RE : q = true -> r1 = r1' /\ r2 = r2').
      { intros T0. specialize (Q T0).
        assert (X : forall x y, sub x (reuse_mask o) -> sub y (reuse_masks ops) ->
          N.land (N.lor x y) (reuse_mask o) = x /\ N.land (N.lor x y) (reuse_masks ops) = y).
        { intros x y X Y. rewrite !N.land_lor_distr_l, (Recover.sub_land x _ X), (Recover.sub_land y _ Y).
          rewrite (sub_apart _ _ _ Y C4), N.lor_0_r. rewrite N.land_comm in C4. rewrite (sub_apart _ _ _ X C4). auto. }
        destruct (X _ _ RB R) as (X1 & X2), (X _ _ RB' R') as (X3 & X4). rewrite Q in X1, X2. split; congruence. }
      constructor.
      + do 4 eexists. exact S.
      + do 4 eexists. exact S'.
      + eapply spells_same; [exact SO1|exact SH1|exact F1|exact F1'|reflexivity|exact S|exact S'|]. intros T0. apply RE, T0.
      + eapply (IH _ _ _ _ _ _ _ C5 SO2 SH2); [|exact F2|exact F2'|exact NB2|exact NB2'|exact T|exact T'|].
        * apply sub_lor; [apply sub_lor_l; exact SW|apply sub_lor_r; exact SB].
        * intros T0. apply RE, T0.
  Qed.
End Lists.
