(** * DeviceFacts: runs on any device (C82 - C84). *)
From Verif Require Import Base Float Lexer Operand Catalogue Table Parse Assemble Device Spec SpecCli SpecDevice Cli.
From Coq Require Import Lia.
Local Open Scope string_scope.
Local Open Scope list_scope.
Open Scope Z_scope.

Lemma firstn_pad : forall n (l : text), exists got pad, firstn n l ++ repeat " "%char (n - List.length (firstn n l)) = got ++ pad /\
  (exists more, l = got ++ more) /\ Forall (fun ch => ch = " "%char) pad /\ (pad = [] \/ l = got).
Proof.
  intros n l. exists (firstn n l), (repeat " "%char (n - List.length (firstn n l))). split; [reflexivity|].
  split; [exists (skipn n l); symmetry; apply firstn_skipn|]. split; [apply Forall_forall; intros x H; apply repeat_spec in H; exact H|].
  rewrite firstn_length. destruct (Nat.le_gt_cases n (List.length l)) as [L|L].
  - left. rewrite Nat.min_l by exact L. rewrite Nat.sub_diag. reflexivity.
  - right. symmetry. apply firstn_all2. lia.
Qed.
Lemma read_as_ok : forall limit d name t, read_device limit d name = Ok t <-> read_as limit d name t.
Proof.
  intros limit d name t. unfold read_device, read_as. destruct (input d name) as [(size, data)|]; [|split; [discriminate|intros (? & ? & ? & ? & H & _); discriminate]].
  destruct (Z.ltb_spec size 0) as [N|N]; cbn [orb].
  { split; [discriminate|]. intros (s & da & g & p & E & B & _). injection E as <- <-. lia. }
  destruct (Z.ltb_spec limit size) as [M|M].
  { split; [discriminate|]. intros (s & da & g & p & E & B & _). injection E as <- <-. lia. }
  assert (LEN : forall (l : text) n, List.length (firstn n l ++ repeat " "%char (n - List.length (firstn n l))) = n).
  { intros l n. rewrite app_length, repeat_length, firstn_length. lia. }
  split.
  - intros H. injection H as <-. destruct (firstn_pad (Z.to_nat size) data) as (got & pad & E & P). exists size, data, got, pad.
    split; [reflexivity|]. split; [lia|]. split; [rewrite LEN; lia|]. split; [exact E|exact P].
  - intros (s & da & got & pad & E & _ & L & -> & (more & D) & F & C). injection E as <- <-. subst data. f_equal.
    assert (PAD : pad = repeat " "%char (List.length pad)).
    { clear - F. induction F as [|x pad -> F IH]; [reflexivity|]. cbn. f_equal. exact IH. }
    destruct C as [-> |C].
    + rewrite app_nil_r in *. replace (Z.to_nat size) with (List.length got + 0)%nat by lia. rewrite firstn_app_2, firstn_O, app_nil_r.
      rewrite Nat.add_0_r, Nat.sub_diag. cbn. rewrite app_nil_r. reflexivity.
    + assert (more = []) by (apply (f_equal (@List.length _)) in C; rewrite app_length in C; destruct more; [reflexivity|cbn in C; lia]). subst more.
      rewrite app_nil_r. rewrite app_length in L. rewrite firstn_all2 by lia. f_equal. transitivity (repeat " "%char (List.length pad)); [f_equal; lia|symmetry; exact PAD].
Qed.
Lemma cut_off_ok : forall n bin out, out = firstn n (words_to_bytes bin) <-> cut_off n bin out.
Proof.
  intros n bin out. split.
  - intros ->. exists (words_to_bytes bin), (skipn n (words_to_bytes bin)). split; [apply words_little_endian|]. split; [symmetry; apply firstn_skipn|].
    destruct (Nat.le_gt_cases n (List.length (words_to_bytes bin))) as [L|L]; [left|right].
    + split; [apply firstn_length_le, L|exact L].
    + split; [apply skipn_all2; lia|lia].
  - intros (all & more & (LL & LB) & E & C). destruct (words_little_endian bin) as (WL & WB).
    assert (AW : all = words_to_bytes bin).
    { apply (nth_ext _ _ NUL NUL); [congruence|]. intros j J. rewrite LB by exact J. rewrite WB by lia. reflexivity. }
    rewrite <- AW, E. destruct C as [(L & _)|(-> & L)].
    + rewrite <- L, firstn_app, Nat.sub_diag, firstn_all, firstn_O, app_nil_r. reflexivity.
    + rewrite app_nil_r in *. rewrite E in L. symmetry. apply firstn_all2. exact L.
Qed.

Lemma device_cases : forall a limit args d, 
  (exists m, args_error args m /\ device_main a limit args d = (Fatal (Diag None m), None)) \/
  (exists i o, names args i o /\
     ((exists r, device_main a limit args d = (r, None) /\
        ((r = Undef UB_null_format /\ input d i = None) \/
         (r = Abort "uncaught std::length_error" /\ exists size data, input d i = Some (size, data) /\ ~ 0 <= size <= limit) \/
         (exists t p, read_as limit d i t /\ before_nul t p /\
            ((exists bin, assemble a p = Ok bin /\ room d o = None /\ r = Fatal (Diag None (open_message o))) \/
             ((forall bin, assemble a p <> Ok bin) /\ r = (let* _ := assemble a p in Ok tt)))))) \/
      (exists t p bin n out, device_main a limit args d = (Ok tt, Some (o, out)) /\ read_as limit d i t /\ before_nul t p /\
         assemble a p = Ok bin /\ room d o = Some n /\ cut_off n bin out))).
Proof.
  intros a limit args d. destruct (args_complete args) as [(i & o & N & _)|(m & E & _)].
  - right. exists i, o. split; [exact N|]. unfold device_main. rewrite (names_ok _ _ _ N). cbn [bind].
    destruct (read_device limit d i) as [t| | | |u|] eqn:R.
    + cbn [bind]. pose proof (proj1 (read_as_ok _ _ _ _) R) as RA. pose proof (c_string_before t) as B.
      destruct (assemble a (c_string t)) as [bin|e|e|e|u|] eqn:AS; cbn [bind];
        try (left; eexists; split; [reflexivity|]; right; right; exists t, (c_string t); split; [exact RA|]; split; [exact B|]; right; split; [rewrite AS; discriminate|rewrite AS; reflexivity]).
      destruct (room d o) as [n|] eqn:RO.
      * right. exists t, (c_string t), bin, n, (firstn n (words_to_bytes bin)). split; [reflexivity|]. split; [exact RA|]. split; [exact B|]. split; [exact AS|].
        split; [reflexivity|]. apply cut_off_ok. reflexivity.
      * left. eexists. split; [reflexivity|]. right. right. exists t, (c_string t). split; [exact RA|]. split; [exact B|]. left. exists bin. auto.
    + exfalso. unfold read_device in R. destruct (input d i) as [(s, da)|]; [|discriminate]. destruct (_ || _); discriminate.
    + exfalso. unfold read_device in R. destruct (input d i) as [(s, da)|]; [|discriminate]. destruct (_ || _); discriminate.
    + left. eexists. split; [reflexivity|]. right. left. unfold read_device in R. destruct (input d i) as [(s, da)|]; [|discriminate].
      destruct (_ || _) eqn:C; [|discriminate]. injection R as <-. split; [reflexivity|]. exists s, da. split; [reflexivity|].
      apply orb_true_iff in C as [C|C]; apply Z.ltb_lt in C; lia.
    + left. eexists. split; [reflexivity|]. left. unfold read_device in R. destruct (input d i) as [(s, da)|]; [destruct (_ || _); discriminate|].
      injection R as <-. split; reflexivity.
    + exfalso. unfold read_device in R. destruct (input d i) as [(s, da)|]; [|discriminate]. destruct (_ || _); discriminate.
  - left. exists m. split; [exact E|]. pose proof (cli_rejects a args (World (fun _ => None) (fun _ => false)) m E) as C.
    unfold cli_main in C. unfold device_main. destruct (parse_args args None None) as [([i|], [o|])|e|e|e|u|] eqn:P; cbn [bind] in C |- *;
      try discriminate C; try (cbn in C |- *; congruence).
Qed.

Theorem device_success : forall a limit args d o out, device_main a limit args d = (Ok tt, Some (o, out)) <->
  exists i t p bin n, names args i o /\ read_as limit d i t /\ before_nul t p /\ assemble a p = Ok bin /\ room d o = Some n /\ cut_off n bin out.
Proof.
  intros a limit args d o out. split.
  - intros H. destruct (device_cases a limit args d) as [(m & _ & E)|(i & o' & N & [(r & E & _)|(t & p & bin & n & out' & E & R)])];
      rewrite H in E; try discriminate. injection E as <- <-. exists i, t, p, bin, n. auto.
  - intros (i & t & p & bin & n & N & R & B & A & O & C). unfold device_main. rewrite (names_ok _ _ _ N). cbn [bind].
    rewrite (proj2 (read_as_ok _ _ _ _) R). cbn [bind]. rewrite <- (before_nul_fun _ _ B), A. cbn [bind]. rewrite O.
    rewrite (proj2 (cut_off_ok _ _ _) C). reflexivity.
Qed.
Theorem device_touches : forall a limit args d r f, device_main a limit args d = (r, f) -> (exists o out, f = Some (o, out)) <-> r = Ok tt.
Proof.
  intros a limit args d r f H. destruct (device_cases a limit args d) as [(m & _ & E)|(i & o' & N & [(r' & E & C)|(t & p & bin & n & out' & E & R)])];
    rewrite H in E; injection E as -> ->; split; try discriminate; try (intros (? & ? & X); discriminate).
  - intros ->. exfalso. destruct C as [(X & _)|[(X & _)|(t & p & _ & _ & [(bin & _ & _ & X)|(NA & X)])]]; try discriminate.
    destruct (assemble a p) as [bin| | | | |]; try discriminate. exact (NA bin eq_refl).
  - reflexivity.
  - eauto.
Qed.
Theorem device_complete : forall n bin out, cut_off n bin out -> (little_endian bin out <-> (8 * List.length bin <= n)%nat).
Proof.
  intros n bin out (all & more & LE & E & C). split.
  - intros (L & _). destruct LE as (L' & _). destruct C as [(LO & LA)|(_ & X)]; lia.
  - intros H. destruct LE as (L & B). assert (more = []).
    { destruct C as [(LO & LA)|(X & _)]; [|exact X]. apply (f_equal (@List.length _)) in E. rewrite app_length in E. destruct more; [reflexivity|cbn in E; lia]. }
    subst more. rewrite app_nil_r in E. subst all. split; [exact L|exact B].
Qed.
Theorem device_rejects : forall a limit args d e f, device_main a limit args d = (Fatal e, f) ->
  (exists m, args_error args m /\ e = Diag None m) \/
  (exists i o t p, names args i o /\ read_as limit d i t /\ before_nul t p /\
    (assemble a p = Fatal e \/ exists bin, assemble a p = Ok bin /\ room d o = None /\ e = Diag None (open_message o))).
Proof.
  intros a limit args d e f H. destruct (device_cases a limit args d) as [(m & M & E)|(i & o & N & [(r & E & C)|(t & p & bin & n & out' & E & R)])];
    rewrite H in E; [left; injection E as -> _; eauto| |discriminate].
  injection E as E _. right. destruct C as [(X & _)|[(X & _)|(t & p & R & B & C)]]; try congruence. exists i, o, t, p.
  split; [exact N|]. split; [exact R|]. split; [exact B|]. destruct C as [(bin & A & RO & X)|(_ & X)].
  - right. exists bin. split; [exact A|]. split; [exact RO|]. congruence.
  - left. rewrite X in E. destruct (assemble a p); cbn in E; congruence.
Qed.
(** A device that cannot tell its size, or claims too much. *)
Theorem device_sizeless : forall a limit args d i o size data, names args i o -> input d i = Some (size, data) -> ~ 0 <= size <= limit ->
  exists why, device_main a limit args d = (Abort why, None).
Proof.
  intros a limit args d i o size data N I S. unfold device_main. rewrite (names_ok _ _ _ N). cbn [bind]. unfold read_device. rewrite I.
  replace ((size <? 0) || (limit <? size)) with true; [eexists; reflexivity|]. symmetry. apply orb_true_iff.
  destruct (Z.ltb_spec size 0) as [X|X]; [auto|]. right. apply Z.ltb_lt. lia.
Qed.
(** On plain files this is the command line of [Assemble]. *)
Theorem device_plain : forall a limit args d w,
  (forall n, input d n = option_map (fun data => (Z.of_nat (List.length data), data)) (files w n)) ->
  (forall n data, files w n = Some data -> Z.of_nat (List.length data) <= limit) ->
  (forall n, room d n = None <-> writable w n = false) ->
  (forall i o data p bin n, names args i o -> files w i = Some data -> before_nul data p -> assemble a p = Ok bin -> room d o = Some n -> (8 * List.length bin <= n)%nat) ->
  cli_main a args w = (fst (device_main a limit args d), match snd (device_main a limit args d) with Some (o, out) => write_file w o out | None => w end).
Proof.
  intros a limit args d w HI HL HW HR. unfold cli_main, device_main.
  destruct (args_complete args) as [(i & o & N & _)|(m & E & _)].
  - rewrite (names_ok _ _ _ N). cbn [bind]. unfold read_file, read_device. rewrite HI. destruct (files w i) as [data|] eqn:F; cbn [option_map bind]; [|reflexivity].
    destruct (Z.ltb_spec (Z.of_nat (List.length data)) 0) as [X|_]; [lia|]. cbn [orb].
    destruct (Z.ltb_spec limit (Z.of_nat (List.length data))) as [X|_]; [specialize (HL _ _ F); lia|]. cbn [bind].
    rewrite Nat2Z.id, firstn_all, Nat.sub_diag. cbn [repeat]. rewrite app_nil_r.
    destruct (assemble a (c_string data)) as [bin| | | | |] eqn:A; cbn [bind]; try reflexivity.
    specialize (HW o). destruct (room d o) as [n|] eqn:R.
    + destruct (writable w o); [|discriminate (proj2 HW eq_refl)]. cbn [fst snd]. do 2 f_equal. symmetry. apply firstn_all2.
      pose proof (HR i o data _ bin n N F (c_string_before data) A R) as L. destruct (words_little_endian bin) as (LL & _). lia.
    + rewrite (proj1 HW eq_refl). reflexivity.
  - pose proof (cli_rejects a args w m E) as C1. unfold cli_main in C1. 
    destruct (parse_args args None None) as [([i|], [o|])|e|e|e|u|] eqn:P; cbn [bind] in C1 |- *; try reflexivity.
    exfalso. pose proof (cli_rejects a args (World (fun _ => None) (fun _ => false)) m E) as C2. unfold cli_main in C2. rewrite P in C2. cbn in C2. discriminate.
Qed.
