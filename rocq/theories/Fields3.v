(** * Fields3: floating-point immediates, mirrored registers, extended
    immediates and texture modes in the emitted words. *)
From Verif Require Import Base Float Lexer Operand Catalogue Table Parse Assemble Spec SpecOperand SpecInsn Bits LexFacts
  SchedFuel Param Reach ParseFacts Outcomes Decode Program Footprint Encode Operands Operands2 Operands3 Quiet Notes Insn Words Clash Recover Fields.
From Coq Require Import Lia.
Local Open Scope string_scope.
Local Open Scope list_scope.
Open Scope Z_scope.

(** ** Floating-point immediates *)

Theorem single20_field : forall a code ls k i gi gn kf op pre, assembled a code ls k i gi gn kf op ->
  has i pre (OFimm 20) ->
  exists ka k1 kb f, found ls k i gi gn kf pre ka k1 kb /\ single k1 f /\ (f < 2 ^ 32)%N /\
    (field (value op) 56 1 * 2 ^ 31 + field (value op) 20 19 * 2 ^ 12 = f - f mod 2 ^ 12)%N.
Proof.
  intros a code ls k i gi gn kf op pre H E. seek H E (eq_refl false) ka k1 kb wa b r.
  destruct S as (f & SI & _ & B). cbn [N.eqb Pos.eqb] in B. subst b. pose proof (single_lt _ _ SI K) as L.
  assert (L1 : (f mod 2 ^ 31 / 2 ^ 12 < 2 ^ 19)%N).
  { apply N.div_lt_upper_bound; [discriminate|]. apply N.mod_lt. discriminate. }
  assert (L2 : (f / 2 ^ 31 < 2 ^ 1)%N) by (apply N.div_lt_upper_bound; [discriminate|exact L]).
  exists ka, k1, kb, f. split; [here|]. split; [exact SI|]. split; [exact L|].
  rewrite (field_of _ _ _ 56 1 V eq_refl), (field_of _ _ _ 20 19 V eq_refl), !field_lor.
  rewrite (field_place _ 56 1 L2), (field_place _ 20 19 L1), (field_place_out _ 20 19 56 1 L1), (field_place_out _ 56 1 20 19 L2)
    by ((left; discriminate) || (right; discriminate)). rewrite N.lor_0_l, N.lor_0_r. clear.
  change (2 ^ 31)%N with 2147483648%N. change (2 ^ 12)%N with 4096%N. 
  pose proof (N.div_mod f 2147483648 ltac:(discriminate)). pose proof (N.div_mod (f mod 2147483648) 4096 ltac:(discriminate)).
  pose proof (N.div_mod f 4096 ltac:(discriminate)).
  assert ((f mod 2147483648) mod 4096 = f mod 4096)%N.
  { change 2147483648%N with (4096 * 524288)%N. rewrite N.mod_mul_r by discriminate.
    rewrite N.mul_comm, N.mod_add by discriminate. apply N.mod_mod. discriminate. }
  lia.
Qed.
Theorem single32_field : forall a code ls k i gi gn kf op pre, assembled a code ls k i gi gn kf op ->
  has i pre (OFimm 32) ->
  exists ka k1 kb f, found ls k i gi gn kf pre ka k1 kb /\ single k1 f /\ field (value op) 20 32 = f.
Proof.
  intros a code ls k i gi gn kf op pre H E. seek H E (eq_refl false) ka k1 kb wa b r.
  destruct S as (f & SI & _ & B). cbn [N.eqb Pos.eqb] in B. subst b. pose proof (single_lt _ _ SI K) as L.
  exists ka, k1, kb, f. split; [here|]. split; [exact SI|].
  rewrite (field_of _ _ _ 20 32 V eq_refl). apply field_place. exact L.
Qed.
Theorem double_field : forall a code ls k i gi gn kf op pre, assembled a code ls k i gi gn kf op ->
  has i pre ODimm ->
  exists ka k1 kb mag neg, found ls k i gi gn kf pre ka k1 kb /\ double k1 mag neg /\ (mag < 2 ^ 63)%N /\
    field (value op) 56 1 = (if neg then 1 else 0)%N /\ field (value op) 20 19 = (mag / 2 ^ 44)%N.
Proof.
  intros a code ls k i gi gn kf op pre H E. seek H E (eq_refl false) ka k1 kb wa b r.
  destruct S as (mag & neg & D & -> & _).
  assert (L : (mag < 2 ^ 63)%N).
  { destruct D as [(f & _ & -> & _)|[(z & _ & -> & _)|[(_ & ->)|(_ & ->)]]]; try reflexivity; apply N.mod_lt; discriminate. }
  assert (L1 : (mag / 2 ^ 44 < 2 ^ 19)%N) by (apply N.div_lt_upper_bound; [discriminate|exact L]).
  exists ka, k1, kb, mag, neg. split; [here|]. split; [exact D|]. split; [exact L|]. split.
  - rewrite (field_of _ _ _ 56 1 V eq_refl), field_lor, (field_place_out _ 20 19 56 1 L1) by (right; discriminate).
    rewrite N.lor_0_l. apply field_flag.
  - rewrite (field_of _ _ _ 20 19 V eq_refl), field_lor, (field_place _ 20 19 L1), field_flag_out by (left; discriminate).
    apply N.lor_0_r.
Qed.

Lemma half_places : everywhere (fun i pre o post => match o with
  | OHalf n ad nb | OAbs _ (OHalf n ad nb) =>
      match nb with
      | None => N.eqb n 16 && (N.eqb ad 20 || N.eqb ad 36)
      | Some s => N.eqb n 9 && (N.eqb ad 20 && N.eqb s 29 || N.eqb ad 30 && N.eqb s 56)
      end
  | _ => true end) = true.
Proof. vm_compute. reflexivity. Qed.
Lemma half_lt : forall ks h neg special, half ks h neg special -> (h < 2 ^ 16)%N.
Proof.
  intros ks h neg special [(f & _ & -> & _)|[(z & _ & -> & _)|[(_ & -> & _)|(_ & -> & _)]]]; try reflexivity; apply fp16_lt.
Qed.
(** Half immediates of 16 bits hold the pattern, with the sign of special names
    put into it; those of 9 bits hold the upper bits and a separate sign. *)
Theorem half_field : forall a code ls k i gi gn kf op pre n ad nb, assembled a code ls k i gi gn kf op ->
  has i pre (OHalf n ad nb) ->
  exists ka k1 kb h neg special, found ls k i gi gn kf pre ka k1 kb /\ half k1 h neg special /\ (h < 2 ^ 16)%N /\
    match nb with
    | None => n = 16%N /\ (ad = 20%N \/ ad = 36%N) /\
        field (value op) ad 16 = (if special && neg then h + 0x8000 else h)%N
    | Some s => n = 9%N /\ (ad = 20%N /\ s = 29%N \/ ad = 30%N /\ s = 56%N) /\
        field (value op) ad 9 = (h mod 2 ^ 15 / 2 ^ 6)%N /\ field (value op) s 1 = (if neg then 1 else 0)%N
    end.
Proof.
  intros a code ls k i gi gn kf op pre n ad nb H E.
  assert (PL : match nb with
      | None => n = 16%N /\ (ad = 20%N \/ ad = 36%N)
      | Some s => n = 9%N /\ (ad = 20%N /\ s = 29%N \/ ad = 30%N /\ s = 56%N) end).
  { destruct (assembled_ok _ _ _ _ _ _ _ _ _ H) as (I & _).
    assert (Q : match nb with
      | None => N.eqb n 16 && (N.eqb ad 20 || N.eqb ad 36)
      | Some s => N.eqb n 9 && (N.eqb ad 20 && N.eqb s 29 || N.eqb ad 30 && N.eqb s 56) end = true).
    { destruct E as (post & [E|(x & E)]); exact (everywhere_in _ _ _ _ _ half_places I E). }
    destruct nb as [s|]; apply andb_true_iff in Q as (Q1 & Q2); apply N.eqb_eq in Q1; split; auto; apply orb_true_iff in Q2.
    - destruct Q2 as [Q2|Q2]; apply andb_true_iff in Q2 as (Q2 & Q3); apply N.eqb_eq in Q2, Q3; auto.
    - destruct Q2 as [Q2|Q2]; apply N.eqb_eq in Q2; auto. }
  seek H E (eq_refl false) ka k1 kb wa b r.
  destruct S as (h & neg & special & HH & _ & B). pose proof (half_lt _ _ _ _ HH) as L.
  exists ka, k1, kb, h, neg, special. split; [here|]. split; [exact HH|]. split; [exact L|].
  destruct nb as [s|].
  - destruct PL as (-> & PL). cbn [N.eqb Pos.eqb] in B. split; [reflexivity|]. split; [exact PL|].
    assert (L9 : (h mod 2 ^ 15 / 2 ^ 6 < 2 ^ 9)%N).
    { apply N.div_lt_upper_bound; [discriminate|]. apply N.mod_lt. discriminate. }
    rewrite B in V. clear B. destruct PL as [(-> & ->)|(-> & ->)]; split.
    + rewrite (field_of _ _ _ 20 9 V eq_refl), field_lor, (field_place _ 20 9 L9), field_flag_out by (left; discriminate).
      apply N.lor_0_l.
    + rewrite (field_of _ _ _ 29 1 V eq_refl), field_lor, (field_place_out _ 20 9 29 1 L9) by (right; discriminate).
      rewrite N.lor_0_r. apply field_flag.
    + rewrite (field_of _ _ _ 30 9 V eq_refl), field_lor, (field_place _ 30 9 L9), field_flag_out by (left; discriminate).
      apply N.lor_0_l.
    + rewrite (field_of _ _ _ 56 1 V eq_refl), field_lor, (field_place_out _ 30 9 56 1 L9) by (right; discriminate).
      rewrite N.lor_0_r. apply field_flag.
  - destruct PL as (-> & PL). cbn [N.eqb Pos.eqb] in B. cbv zeta in B. split; [reflexivity|]. split; [exact PL|].
    assert (L16 : ((if special && neg then h + 0x8000 else h) < 2 ^ 16)%N).
    { destruct (special && neg) eqn:Q; [|exact L]. apply andb_true_iff in Q as (-> & ->).
      destruct HH as [(f & _ & -> & [= ] & _)|[(z & _ & -> & [= ] & _)|[(_ & -> & _)|(_ & -> & _)]]]; reflexivity. }
    rewrite B in V. clear B. destruct PL as [->| ->];
      [rewrite (field_of _ _ _ 20 16 V eq_refl)|rewrite (field_of _ _ _ 36 16 V eq_refl)]; apply field_place; exact L16.
Qed.

(** ** Mirrored registers *)

Lemma mirror_last : everywhere (fun i pre o post => match o with
  | OMirrorGpr ad => N.eqb ad 0 && N.eqb (N.land (writes post) (range 0 8)) 0 &&
      existsb (fun o' => match o' with OGpr 0%N => true | _ => false end) pre
  | OAbs _ (OMirrorGpr _) => false
  | _ => true end) = true.
Proof. vm_compute. reflexivity. Qed.
(** The mirrored register is the destination, which is in bits 0..7. *)
Theorem mirror_field : forall a code ls k i gi gn kf op pre ad, assembled a code ls k i gi gn kf op ->
  has i pre (OMirrorGpr ad) ->
  ad = 0%N /\
  exists ka kb, found ls k i gi gn kf pre ka [TReg (field (value op) 0 8)] kb /\
  exists pre' ka' kr kb', has i pre' (OGpr 0) /\ found ls k i gi gn kf pre' ka' (TReg (field (value op) 0 8) :: kr) kb'.
Proof.
  intros a code ls k i gi gn kf op pre ad H E. pose proof E as E0. destruct E as (post & E).
  destruct (assembled_ok _ _ _ _ _ _ _ _ _ H) as (I & K & G & F).
  destruct E as [E|(x & E)]; pose proof (everywhere_in _ _ _ _ _ mirror_last I E) as Q; [|discriminate Q].
  cbn beta iota in Q. apply andb_true_iff in Q as (Q & Q3). apply andb_true_iff in Q as (Q1 & Q2).
  apply N.eqb_eq in Q1, Q2. subst ad. split; [reflexivity|].
  destruct (recover _ _ _ _ _ _ _ _ _ _ I G K F E) as (ka & k1 & kb & wa & ra & b & r & EK & _ & SL & S & _ & _ & KW).
  cbn [spells] in S. destruct S as (n & RG & -> & ->).
  assert (X : field (value op) 0 8 = field wa 0 8).
  { rewrite <- (field_land (value op) (range 0 8)) by apply sub_refl. rewrite KW; [apply field_land, sub_refl|].
    cbn [writes mask clears]. rewrite N.lor_0_l. exact Q2. }
  rewrite X. exists ka, kb. destruct RG as [(-> & _)|(_ & [= ])].
  split; [split; [exact EK|]; exists wa, ra; left; exact SL|].
  apply existsb_exists in Q3 as (o' & IN & O'). apply in_split in IN as (p1 & p2 & EP).
  assert (o' = OGpr 0) as -> by (destruct o'; try discriminate; destruct address; [reflexivity|discriminate]).
  assert (HG : has i p1 (OGpr 0)).
  { exists (p2 ++ OMirrorGpr 0 :: post). left. rewrite E, EP, <- app_assoc. reflexivity. }
  destruct (gpr_field _ _ _ _ _ _ _ _ _ _ _ H HG) as (ka' & n' & kr & kb' & FO & _ & FI & _).
  { intros (_ & ?). discriminate. }
  rewrite <- X, FI. exists p1, ka', kr, kb'. auto.
Qed.

(** ** Extended immediates (IADD3) *)

Lemma uimm_places : everywhere (fun i pre o post => match o with
  | OUimmExtended =>
      N.eqb (N.land (N.lor (N.lor (i_opcode i) (range 16 4)) (writes pre)) (N.lor (range 20 19) (range 56 1))) 0 &&
      N.eqb (N.land (writes post) (N.lor (range 20 19) (range 56 1))) 0
  | OAbs _ OUimmExtended => false
  | _ => true end) = true.
Proof. vm_compute. reflexivity. Qed.
Theorem uimm_field : forall a code ls k i gi gn kf op pre, assembled a code ls k i gi gn kf op ->
  has i pre OUimmExtended ->
  exists ka z kb, found ls k i gi gn kf pre ka [TImm z] kb /\ 0 <= z <= 2 ^ 20 /\
    (z < 2 ^ 20 -> Z.of_N (field (value op) 20 19 + 2 ^ 19 * field (value op) 56 1) = z).
Proof.
  intros a code ls k i gi gn kf op pre H (post & E).
  destruct (assembled_ok _ _ _ _ _ _ _ _ _ H) as (I & K & G & F).
  destruct E as [E|(x & E)]; pose proof (everywhere_in _ _ _ _ _ uimm_places I E) as Q; [|discriminate Q].
  cbn beta iota in Q. apply andb_true_iff in Q as (Q1 & Q2). apply N.eqb_eq in Q1, Q2.
  destruct (recover _ _ _ _ _ _ _ _ _ _ I G K F E) as (ka & k1 & kb & wa & ra & b & r & EK & _ & SL & S & _ & VB & _).
  cbn [spells] in S. destruct S as (z & -> & Z & -> & ->).
  exists ka, z, kb. split; [split; [exact EK|]; exists wa, ra; left; exact SL|]. split; [exact Z|]. intros ZL.
  set (lo := Z.to_N (if 2 ^ 19 <=? z then z - 2 ^ 19 else z)) in *.
  assert (L : (lo < 2 ^ 19)%N).
  { apply (to_N_lt _ 19). change (2 ^ Z.of_N 19) with 524288. change (2 ^ 19) with 524288 in *. change (2 ^ 20) with 1048576 in *.
    destruct (Z.leb_spec 524288 z); lia. }
  assert (V : N.land (value op) (N.lor (range 20 19) (range 56 1)) = N.lor (flag_bit (2 ^ 19 <=? z) 56) (place lo 20)).
  { apply VB; [|cbn [clears]; rewrite N.ldiff_0_r; exact Q1|exact Q2].
    apply sub_lor; [apply sub_lor_r, flag_sub|apply sub_lor_l, place_sub; exact L]. }
  rewrite (field_of _ _ _ 20 19 V eq_refl), (field_of _ _ _ 56 1 V eq_refl), !field_lor.
  rewrite (field_place _ 20 19 L), field_flag, (field_place_out _ 20 19 56 1 L), field_flag_out
    by ((left; discriminate) || (right; discriminate)). rewrite N.lor_0_l, N.lor_0_r. subst lo.
  change (2 ^ 19)%N with 524288%N. change (2 ^ 19) with 524288 in *. change (2 ^ 20) with 1048576 in *.
  destruct (Z.leb_spec 524288 z); lia.
Qed.

(** The register after it: right unless the immediate is 2^20. *)
Definition iadd3_before : list opnd := [op_x 48; op_dgpr 0; op_cc 47; op_comma; op_neg 51; op_sgpr 8; op_comma].
Definition iadd3_form : insn := Insn 0x38C0000000000000 0 "IADD3"
  (iadd3_before ++ op_uimm_extended :: [op_post_neg 50; op_comma; op_neg 49; op_sgpr 39]).
Lemma iadd3_only : forall i, In i table -> In OUimmExtended (i_operands i) -> i = iadd3_form.
Proof.
  assert (E : filter (fun i => existsb (fun o' => match o' with OUimmExtended => true | _ => false end) (i_operands i)) table = [iadd3_form])
    by (vm_compute; reflexivity).
  intros i I M. assert (J : In i [iadd3_form]).
  { rewrite <- E. apply filter_In. split; [exact I|]. apply existsb_exists. exists OUimmExtended. auto. }
  destruct J as [J|[]]. symmetry. exact J.
Qed.
Theorem iadd3_register : forall a code ls k i gi gn kf op, assembled a code ls k i gi gn kf op ->
  In OUimmExtended (i_operands i) ->
  exists ka z km n kr kb,
    found ls k i gi gn kf iadd3_before ka [TImm z] (km ++ (TReg n :: kr) ++ kb) /\
    found ls k i gi gn kf (iadd3_before ++ op_uimm_extended :: [op_post_neg 50; op_comma; op_neg 49]) (ka ++ [TImm z] ++ km) (TReg n :: kr) kb /\
    0 <= z <= 2 ^ 20 /\ (n <= 255)%N /\
    ((kr = [] /\ N.testbit (reuse op) 2 = false) \/ (kr = [id ".reuse"] /\ N.testbit (reuse op) 2 = true)) /\
    (z < 2 ^ 20 -> field (value op) 39 8 = n) /\ (z = 2 ^ 20 -> field (value op) 39 8 = N.lor n 1).
Proof.
  intros a code ls k i gi gn kf op H M. destruct (assembled_ok _ _ _ _ _ _ _ _ _ H) as (I & K & G & F).
  pose proof (iadd3_only i I M) as ->. clear M.
  destruct F as (ko & kn & notes & w & r & -> & _ & S & _ & _ & ->). cbn [value reuse].
  rewrite Forall_app in K. destruct K as (K & _).
  change (i_operands iadd3_form) with (iadd3_before ++ [op_uimm_extended] ++ [op_post_neg 50; op_comma; op_neg 49] ++ [op_sgpr 39]) in S.
  apply spell_app in S as (k0 & k1 & w0 & r0 & r1 & -> & -> & S0 & S). apply spell_app in S as (ku & k2 & w1 & ru & r2 & -> & -> & S1 & S).
  apply spell_app in S as (km & k3 & w2 & rm & r3 & -> & -> & S2 & S).
  rewrite !Forall_app in K. destruct K as (K0 & K1 & K2 & K3).
  destruct (list_keeps _ _ _ iadd3_before _ _ _ _ eq_refl K0 S0) as (_ & B0 & R0).
  destruct (list_keeps _ _ _ [op_uimm_extended] _ _ _ _ eq_refl K1 S1) as (_ & _ & R1).
  destruct (list_keeps _ _ _ [op_post_neg 50; op_comma; op_neg 49] _ _ _ _ eq_refl K2 S2) as (A2 & _ & R2).
  pose proof S1 as S1'. inversion S1' as [|? ? ? ks1 ks2 b ra rb ? SU SN]; subst. inversion SN; subst. clear SN S1'.
  inversion S as [|? ? ? ks3 ks4 b' ra' rb' ? SG SN]; subst. inversion SN; subst. clear SN. rewrite !app_nil_r in *.
  cbn [spells op_uimm_extended] in SU. destruct SU as (z & -> & Z & -> & ->).
  cbn [spells op_sgpr] in SG. destruct SG as (n & RG & ->).
  pose proof (reg_kind _ _ _ _ _ RG K3) as L.
  set (u := N.lor (flag_bit (2 ^ 19 <=? z) 56) (place (Z.to_N (if 2 ^ 19 <=? z then z - 2 ^ 19 else z)) 20)) in *.
  assert (W0 : N.land w0 (range 39 8) = 0%N).
  { apply (Quiet.sub_land w0 (N.lor (N.lor (i_opcode iadd3_form) (range 16 4)) (writes iadd3_before)) _ (range 39 8)); [|apply sub_refl|reflexivity].
    eapply sub_trans; [exact B0|]. apply sub_lor; [apply sub_lor_l, bare_sub; exact G|apply sub_lor_r, sub_refl]. }
  assert (FV : field (N.lor (N.ldiff w2 (clears (op_sgpr 39))) (place n 39)) 39 8 = N.lor (field u 39 8) n).
  { cbn [clears op_sgpr]. rewrite N.ldiff_0_r, field_lor, (field_place n 39 8 L). f_equal.
    rewrite <- (field_land w2 (range 39 8)) by apply sub_refl. rewrite (A2 (range 39 8) eq_refl).
    rewrite (field_land _ (range 39 8)) by apply sub_refl. cbn [clears op_uimm_extended]. rewrite N.ldiff_0_r, field_lor.
    rewrite <- (field_land w0 (range 39 8)) by apply sub_refl. rewrite W0, field_0. apply N.lor_0_l. }
  assert (RV : N.testbit (N.lor r0 (N.lor (N.lor 0 0) (N.lor rm (N.lor ra' 0)))) 2 = N.testbit ra' 2).
  { assert (X : forall r m, sub r m -> N.testbit m 2 = false -> N.testbit r 2 = false).
    { intros r m Q E. destruct (N.testbit r 2) eqn:T; [|reflexivity]. pose proof (proj1 (sub_spec r m) Q 2%N T). congruence. }
    rewrite !N.lor_spec, (X r0 _ R0 eq_refl), (X rm _ R2 eq_refl), !N.bits_0. cbn [orb]. apply orb_false_r. }
  assert (KS : exists kr, ks3 = TReg n :: kr /\
    ((kr = [] /\ N.testbit ra' 2 = false) \/ (kr = [id ".reuse"] /\ N.testbit ra' 2 = true))).
  { destruct RG as [(-> & _ & ->)|(-> & RB)]; eexists; (split; [reflexivity|]); [left; auto|right].
    split; [reflexivity|]. injection RB as <-. reflexivity. }
  destruct KS as (kr & KS & RK).
  exists k0, z, km, n, kr, (kn ++ [TSemi]). split; [|split].
  - split; [rewrite KS; rewrite <- !app_assoc; reflexivity|]. exists w0, r0. left. exact S0.
  - split; [rewrite KS; rewrite <- !app_assoc; reflexivity|]. eexists _, _. left.
    apply spell_app. eexists k0, ([TImm z] ++ km), w0, r0, _. split; [reflexivity|]. split; [reflexivity|].
    split; [exact S0|]. change (?a :: ?l) with ([a] ++ l) at 1.
    apply (spell_app _ _ _ [op_uimm_extended] [op_post_neg 50; op_comma; op_neg 49]).
    eexists [TImm z], km, _, _, rm. split; [reflexivity|]. split; [reflexivity|]. 
    rewrite KS in S1, S2. split; [|exact S2]. destruct km; exact S1.
  - split; [exact Z|]. change (2 ^ 8)%N with 256%N in L. split; [lia|]. rewrite RV. split; [exact RK|].
    rewrite FV. subst u. split.
    + intros ZL. set (lo := Z.to_N (if 2 ^ 19 <=? z then z - 2 ^ 19 else z)) in *.
      assert (LL : (lo < 2 ^ 19)%N).
      { apply (to_N_lt _ 19). change (2 ^ Z.of_N 19) with 524288. change (2 ^ 19) with 524288 in *. change (2 ^ 20) with 1048576 in *.
        destruct (Z.leb_spec 524288 z); lia. }
      rewrite field_lor, field_flag_out, (field_place_out lo 20 19) by (assumption || (left; discriminate) || (right; discriminate)).
      reflexivity.
    + intros ->. apply N.lor_comm.
Qed.

(** ** Texture modes *)

Lemma bit_of_field : forall w a, N.testbit w a = N.eqb (field w a 1) 1.
Proof. intros w a. rewrite field_arith, N.testbit_eqb. reflexivity. Qed.

(** The lod modifier and the DC modifier of a TEXS. *)
Inductive texs_modifiers : list tkind -> N -> bool -> Prop :=
| texs_mods : forall kl lod kd dc,
    (kl = [] /\ lod = 0%N \/ kl = [id ".LL"] /\ lod = 1%N \/ kl = [id ".LZ"] /\ lod = 2%N) ->
    (kd = [] /\ dc = false \/ kd = [id ".DC"] /\ dc = true) ->
    texs_modifiers (kl ++ kd) lod dc.
(** The lod, AOFFI and MS modifiers of a TLDS. *)
Inductive tlds_modifiers : list tkind -> bool -> bool -> bool -> Prop :=
| tlds_mods : forall kl ll ka aoffi km ms,
    (kl = [id ".LL"] /\ ll = true \/ kl = [id ".LZ"] /\ ll = false) ->
    (ka = [] /\ aoffi = false \/ ka = [id ".AOFFI"] /\ aoffi = true) ->
    (km = [] /\ ms = false \/ km = [id ".MS"] /\ ms = true) ->
    tlds_modifiers (kl ++ ka ++ km) ll aoffi ms.

Definition texs_before : list opnd := [op_nodep 49; op_dgpr 28; op_comma; op_dgpr 0; op_comma; op_sgpr 8; op_comma;
  op_sgpr 20; op_comma; op_uinteger 13 36; op_comma].
Definition texs_form : insn := Insn 0xD000000000000000 0 "TEXS"
  (([op_sample_size 59] ++ [op_texs_mode 53] ++ texs_before) ++ op_texs_type 53 :: [op_comma; op_texs_swizzle]).
Definition tlds_form : insn := Insn 0xD200000000000000 0 "TLDS"
  (([op_sample_size 59] ++ [op_tld_lod 53; op_aoffi 54; op_ms 55] ++ texs_before) ++ op_tlds_type 53 :: [op_comma; op_texs_swizzle]).
Lemma texs_only : forall i, In i table -> i_mnemonic i = "TEXS" -> i = texs_form.
Proof.
  assert (E : filter (fun i => String.eqb (i_mnemonic i) "TEXS") table = [texs_form]) by (vm_compute; reflexivity).
  intros i I M. assert (J : In i (filter (fun i => String.eqb (i_mnemonic i) "TEXS") table)).
  { apply filter_In. split; [exact I|]. apply String.eqb_eq. exact M. }
  rewrite E in J. destruct J as [J|[]]. symmetry. exact J.
Qed.
Lemma tlds_only : forall i, In i table -> i_mnemonic i = "TLDS" -> i = tlds_form.
Proof.
  assert (E : filter (fun i => String.eqb (i_mnemonic i) "TLDS") table = [tlds_form]) by (vm_compute; reflexivity).
  intros i I M. assert (J : In i (filter (fun i => String.eqb (i_mnemonic i) "TLDS") table)).
  { apply filter_In. split; [exact I|]. apply String.eqb_eq. exact M. }
  rewrite E in J. destruct J as [J|[]]. symmetry. exact J.
Qed.

(** The bits a sublist writes, just before the operand that follows it. *)
Lemma run_bits : forall lab pc i gi gn pre mids rest ka wa ra nx m,
  (gi <= 7)%N -> Forall kind_ok ka -> forallb spec_ok (pre ++ mids ++ rest) = true ->
  N.land (N.lor (N.lor (i_opcode i) (range 16 4)) (writes pre)) m = 0%N -> N.land (writes rest) m = 0%N ->
  spell_list lab pc nx (pre ++ mids ++ rest) (bare_word i gi gn) ka wa ra ->
  exists k0 k1 k2 w0 w1 r0 r1, ka = k0 ++ k1 ++ k2 /\
    spell_list lab pc (hd (hd nx k2) k1) pre (bare_word i gi gn) k0 w0 r0 /\
    spell_list lab pc (hd nx k2) mids w0 k1 w1 r1 /\ N.land w0 m = 0%N /\ N.land wa m = N.land w1 m.
Proof.
  intros lab pc i gi gn pre mids rest ka wa ra nx m G K SP D0 D2 H.
  rewrite !forallb_app in SP. apply andb_true_iff in SP as (SP0 & SP). apply andb_true_iff in SP as (_ & SP2).
  apply spell_app in H as (k0 & k' & w0 & r0 & r' & -> & _ & H0 & H).
  apply spell_app in H as (k1 & k2 & w1 & r1 & r2 & -> & _ & H1 & H2).
  rewrite !Forall_app in K. destruct K as (K0 & _ & K2).
  destruct (list_keeps _ _ _ _ _ _ _ _ SP0 K0 H0) as (_ & B0 & _).
  destruct (list_keeps _ _ _ _ _ _ _ _ SP2 K2 H2) as (A2 & _ & _).
  exists k0, k1, k2, w0, w1, r0, r1. split; [reflexivity|]. split; [destruct k1; exact H0|]. split; [exact H1|].
  split; [|apply A2; exact D2].
  apply (Quiet.sub_land w0 (N.lor (N.lor (i_opcode i) (range 16 4)) (writes pre)) m m); [|apply sub_refl|exact D0].
  eapply sub_trans; [exact B0|]. apply sub_lor; [apply sub_lor_l, bare_sub; exact G|apply sub_lor_r, sub_refl].
Qed.

Theorem texs_field : forall a code ls k i gi gn kf op, assembled a code ls k i gi gn kf op -> i_mnemonic i = "TEXS" ->
  exists k0 km k1 s kb lod dc c,
    found ls k i gi gn kf [op_sample_size 59] k0 km (k1 ++ id s :: kb) /\ texs_modifiers km lod dc /\
    found ls k i gi gn kf ([op_sample_size 59; op_texs_mode 53] ++ texs_before) (k0 ++ km ++ k1) [id s] kb /\
    In (s, lod, dc, c) texs_codes /\ field (value op) 53 4 = c.
Proof.
  intros a code ls k i gi gn kf op H M. destruct (assembled_ok _ _ _ _ _ _ _ _ _ H) as (I & K & G & F).
  pose proof (texs_only i I M) as ->. clear M.
  destruct (recover _ _ _ _ _ _ _ _ _ _ I G K F eq_refl) as (ka & k1 & kb & wa & ra & b & r & EK & NB & SL & S & AL & _).
  destruct (AL eq_refl) as (V & _). clear AL. change (i_operands texs_form) with (i_operands texs_form) in *.
  cbn [spells op_texs_type] in S. destruct S as (s & c & IN & -> & -> & ->).
  assert (KA : Forall kind_ok ka) by (rewrite EK, Forall_app in K; apply K).
  destruct (run_bits _ _ texs_form _ _ [op_sample_size 59] [op_texs_mode 53] texs_before _ _ _ _ (range 53 3) G KA eq_refl eq_refl eq_refl SL)
    as (k0 & km & k2 & w0 & w1 & r0 & r1 & -> & S0 & S1 & Z0 & Z1).
  inversion S1 as [|? ? ? ks1 ks2 b r2 r3 ? SO SN]; subst. inversion SN; subst. clear SN S1. rewrite app_nil_r in *.
  cbn [spells op_texs_mode] in SO. destruct SO as (kl & kd & lod & dc & -> & -> & -> & L & D).
  exists k0, (kl ++ kd), k2, s, kb, lod, (N.eqb dc 4), c.
  assert (FT : field wa 53 2 = lod /\ N.testbit wa 55 = N.eqb dc 4).
  { assert (W : N.land wa (range 53 3) = N.land (place (lod + dc) 53) (range 53 3)).
    { rewrite Z1. cbn [clears op_texs_mode]. rewrite N.ldiff_0_r, N.land_lor_distr_l, Z0, N.lor_0_l. reflexivity. }
    rewrite bit_of_field. rewrite (field_of _ _ _ 53 2 W eq_refl), (field_of _ _ _ 55 1 W eq_refl).
    destruct L as [(_ & ->)|[(_ & ->)|(_ & -> & _)]]; destruct D as [(_ & ->)|(_ & -> & _)]; split; reflexivity. }
  destruct FT as (FT1 & FT2). change (53 + 2)%N with 55%N in IN. rewrite FT1, FT2 in IN.
  split; [|split; [|split; [|split]]].
  - split; [rewrite <- !app_assoc; reflexivity|]. exists w0, r0. left.
    replace (hd TSemi ((kl ++ kd) ++ k2 ++ id s :: kb)) with (hd (hd (hd TSemi ([id s] ++ kb)) k2) (kl ++ kd)); [exact S0|].
    destruct (kl ++ kd); [|reflexivity]. destruct k2; reflexivity.
  - constructor.
    + destruct L as [(-> & ->)|[(-> & ->)|(-> & -> & _)]]; auto.
    + destruct D as [(-> & ->)|(-> & -> & _)]; auto.
  - split; [rewrite <- !app_assoc; reflexivity|]. exists wa, ra. left. exact SL.
  - exact IN.
  - rewrite (field_of _ _ _ 53 4 V eq_refl). apply field_place.
    assert (B : forallb (fun q => N.ltb (snd q) 16) texs_codes = true) by reflexivity.
    pose proof (forallb_in _ _ _ _ B IN) as Q. apply N.ltb_lt in Q. exact Q.
Qed.
(** No two accepted combinations of modifiers and type share a code. *)
Theorem texs_distinct : forall km lod dc km' lod' dc' s s' c, texs_modifiers km lod dc -> texs_modifiers km' lod' dc' ->
  In (s, lod, dc, c) texs_codes -> In (s', lod', dc', c) texs_codes -> km = km' /\ s = s'.
Proof.
  intros km lod dc km' lod' dc' s s' c M M' I I'.
  assert (U : s = s' /\ lod = lod' /\ dc = dc').
  { assert (B : forallb (fun p => forallb (fun q => match p, q with (s, lod, dc, c), (s', lod', dc', c') =>
       implb (N.ltb lod 3 && N.ltb lod' 3 && N.eqb c c') (String.eqb s s' && N.eqb lod lod' && Bool.eqb dc dc') end)
       texs_codes) texs_codes = true) by reflexivity.
    pose proof (forallb_in _ _ _ _ B I) as Q. cbn beta in Q. pose proof (forallb_in _ _ _ _ Q I') as Q'. cbn beta iota in Q'.
    rewrite N.eqb_refl, andb_true_r in Q'.
    assert (L : (lod <? 3)%N && (lod' <? 3)%N = true).
    { destruct M as [? ? ? ? [(_ & ->)|[(_ & ->)|(_ & ->)]] _], M' as [? ? ? ? [(_ & ->)|[(_ & ->)|(_ & ->)]] _]; reflexivity. }
    rewrite L in Q'. cbn [implb] in Q'. apply andb_true_iff in Q' as (Q' & Q3). apply andb_true_iff in Q' as (Q1 & Q2).
    apply String.eqb_eq in Q1. apply N.eqb_eq in Q2. apply eqb_prop in Q3. auto. }
  destruct U as (-> & -> & ->). split; [|reflexivity].
  destruct M as [kl lod kd dc L D], M' as [kl' lod' kd' dc' L' D']. f_equal.
  - destruct L as [(-> & ->)|[(-> & ->)|(-> & ->)]], L' as [(-> & E)|[(-> & E)|(-> & E)]]; auto; discriminate E.
  - destruct D as [(-> & ->)|(-> & ->)], D' as [(-> & E)|(-> & E)]; auto; discriminate E.
Qed.
Theorem tlds_field : forall a code ls k i gi gn kf op, assembled a code ls k i gi gn kf op -> i_mnemonic i = "TLDS" ->
  exists k0 km k1 s kb ll aoffi ms c,
    found ls k i gi gn kf [op_sample_size 59] k0 km (k1 ++ id s :: kb) /\ tlds_modifiers km ll aoffi ms /\
    found ls k i gi gn kf ([op_sample_size 59; op_tld_lod 53; op_aoffi 54; op_ms 55] ++ texs_before) (k0 ++ km ++ k1) [id s] kb /\
    In (s, ll, aoffi, ms, c) tlds_codes /\ field (value op) 53 4 = c.
Proof.
  intros a code ls k i gi gn kf op H M. destruct (assembled_ok _ _ _ _ _ _ _ _ _ H) as (I & K & G & F).
  pose proof (tlds_only i I M) as ->. clear M.
  destruct (recover _ _ _ _ _ _ _ _ _ _ I G K F eq_refl) as (ka & k1 & kb & wa & ra & b & r & EK & NB & SL & S & AL & _).
  destruct (AL eq_refl) as (V & _). clear AL.
  cbn [spells op_tlds_type] in S. destruct S as (s & c & IN & -> & -> & ->).
  assert (KA : Forall kind_ok ka) by (rewrite EK, Forall_app in K; apply K).
  destruct (run_bits _ _ tlds_form _ _ [op_sample_size 59] [op_tld_lod 53; op_aoffi 54; op_ms 55] texs_before _ _ _ _ (range 53 3) G KA eq_refl eq_refl eq_refl SL)
    as (k0 & km & k2 & w0 & w1 & r0 & r1 & -> & S0 & S1 & Z0 & Z1).
  inversion S1 as [|? ? ? kl ks b r2 r3 ? SL1 SN]; subst. clear S1.
  inversion SN as [|? ? ? kA ks' b2 r4 r5 ? SA SN']; subst. clear SN.
  inversion SN' as [|? ? ? kM ks'' b3 r6 r7 ? SM SN]; subst. clear SN'. inversion SN; subst. clear SN.
  rewrite app_nil_r in *. cbn [spells op_tld_lod] in SL1. cbn [spells op_aoffi] in SA. cbn [spells op_ms] in SM.
  assert (L : exists x, b = place x 53 /\ (kl = [id ".LL"] /\ x = 1%N \/ kl = [id ".LZ"] /\ x = 0%N)).
  { destruct SL1 as (_ & [(kk & x & -> & (t & E & -> & _) & ->)|(x & _ & _ & [= ] & _)]). exists x. split; [reflexivity|].
    destruct x as [|[| |]]; cbn in E; try discriminate E.
    - injection E as <-. right. split; reflexivity.
    - exfalso. destruct (Pos.to_nat p~1) as [|[|[|n]]] eqn:Q; try lia; discriminate E.
    - exfalso. destruct (Pos.to_nat p~0) as [|[|[|n]]] eqn:Q; try lia; discriminate E.
    - injection E as <-. left. split; reflexivity. }
  destruct L as (x & -> & L).
  assert (AO : exists y : bool, b2 = place (if y then 1 else 0) 54 /\ (kA = [] /\ y = false \/ kA = [id ".AOFFI"] /\ y = true)).
  { destruct SA as (_ & [(-> & ->)|(-> & _ & ->)]); [exists true|exists false]; split; auto. }
  destruct AO as (y & -> & AO).
  assert (MS : exists z : bool, b3 = place (if z then 1 else 0) 55 /\ (kM = [] /\ z = false \/ kM = [id ".MS"] /\ z = true)).
  { destruct SM as (_ & [(-> & ->)|(-> & _ & ->)]); [exists true|exists false]; split; auto. }
  destruct MS as (z & -> & MS).
  exists k0, (kl ++ kA ++ kM), k2, s, kb, (N.eqb x 1), y, z, c.
  assert (FT : N.testbit wa 53 = N.eqb x 1 /\ N.testbit wa 54 = y /\ N.testbit wa 55 = z).
  { assert (W : N.land wa (range 53 3) = N.land (N.lor (N.lor (place x 53) (place (if y then 1 else 0) 54)) (place (if z then 1 else 0) 55)) (range 53 3)).
    { rewrite Z1. cbn [clears op_tld_lod op_aoffi op_ms]. rewrite !N.ldiff_0_r, !N.land_lor_distr_l, Z0, N.lor_0_l. reflexivity. }
    rewrite !bit_of_field.
    rewrite (field_of _ _ _ 53 1 W eq_refl), (field_of _ _ _ 54 1 W eq_refl), (field_of _ _ _ 55 1 W eq_refl).
    destruct L as [(_ & ->)|(_ & ->)], y, z; split; [| split | | split | | split | | split| | split | | split | | split | | split]; reflexivity. }
  destruct FT as (FT1 & FT2 & FT3). change (53 + 2)%N with 55%N in IN. change (53 + 1)%N with 54%N in IN.
  rewrite FT1, FT2, FT3 in IN. split; [|split; [|split; [|split]]].
  - split; [rewrite <- !app_assoc; reflexivity|]. exists w0, r0. left.
    replace (hd TSemi ((kl ++ kA ++ kM) ++ k2 ++ id s :: kb)) with (hd (hd (hd TSemi ([id s] ++ kb)) k2) (kl ++ kA ++ kM)); [exact S0|].
    destruct (kl ++ kA ++ kM); [|reflexivity]. destruct k2; reflexivity.
  - constructor; [|exact AO|exact MS]. destruct L as [(-> & ->)|(-> & ->)]; auto.
  - split; [rewrite <- !app_assoc; reflexivity|]. exists wa, ra. left. exact SL.
  - exact IN.
  - rewrite (field_of _ _ _ 53 4 V eq_refl). apply field_place.
    assert (B : forallb (fun q => N.ltb (snd q) 16) tlds_codes = true) by reflexivity.
    pose proof (forallb_in _ _ _ _ B IN) as Q. apply N.ltb_lt in Q. exact Q.
Qed.
