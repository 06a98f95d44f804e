(** * RunsParse: symbolic execution of assemble_predicate and assemble_sched of parse.cpp. *)
From Coq Require Import Lia ZifyBool ZifyN.
From Verif Require Footprint.
From Verif Require Import Base Float Lexer LexFacts Operand Operands Parse SchedFuel Reach Outcomes Catalogue Table Source SourceText Cxx Exec Functions SpecRuns Runs Lines.
Local Open Scope string_scope.
Local Open Scope list_scope.
Open Scope Z_scope.

Definition parse_with : list fn := parse_functions ++ helper_functions.

(** ** assemble_predicate *)

Lemma shift_small : forall n, (n < 64)%N -> wrap TU64 (z_of n) = z_of n.
Proof. intros n H. unfold wrap, z_of. cbv [is_signed width]. apply Z.mod_small. lia. Qed.
Lemma shift_good : forall n, (n < 64)%N -> bad_shift TU64 (z_of n) = false.
Proof. intros n H. unfold bad_shift, z_of. cbv [width]. lia. Qed.
Lemma pred_wrap : forall i n, kind_ok (TPred i n) -> wrap TU64 (z_of i) = z_of i.
Proof. intros i n H. apply shift_small. cbn in H. lia. Qed.

Lemma lor_of : forall a b, z_or (z_of a) (z_of b) = z_of (N.lor a b).
Proof. intros [|a] [|b]; reflexivity. Qed.

Lemma predicate_runs : forall fuel e s shift n, (50 <= fuel)%nat -> kind_ok (kind (s_tok s)) -> (shift < 64)%N ->
  run_fn fuel sched_fields parse_with [] e "assemble_predicate"
    [PSelf "token"; PSelf "op"; PValue (VZ TI32 (z_of shift)); PValue (VZ TI32 n)] s =
  (let* op := assemble_predicate (e_asserts e) (s_tok s) (s_op s) shift (negb (n =? 0)) in
   Ok (St (s_cur s) (s_tok s) op)).
Proof.
  intros fuel' e s shift n F TOK SH. replace fuel' with (50 + (fuel' - 50))%nat by lia.
  remember (fuel' - 50)%nat as fuel. clear Heqfuel F.
  match goal with |- ?l = ?r =>
    let x := fresh "x" in set (x := l); run_text x; subst x end.
  rewrite (shift_small shift SH), (shift_good shift SH).
  change (bad_shift TI32 3) with false.
  change (wrap TU64 (z_shl TI32 1 3)) with (z_of 8). change (wrap TU64 (z_shl TI32 0 3)) with (z_of 0).
  unfold assemble_predicate. change (z_nonzero n) with (negb (n =? 0)).
  destruct (kind (s_tok s)) as [ | | |i b| | | | | | | | | | | ] eqn:K; cbn [type_of ttype_eqb predicate];
    try (cbn [bind fail]; unfold fail; rewrite ?K; reflexivity).
  rewrite z_nonzero_bit, (pred_wrap i b TOK).
  assert (P : forall m, lift (put e (n_of (z_shl TU64 (z_or (z_of i) (z_of m)) (z_of shift))) s) (fun s0 => Ok s0) =
    (let* op := add_bits (e_asserts e) (s_op s) (shl64 (N.lor i m) shift) in Ok (St (s_cur s) (s_tok s) op))).
  { intros m. rewrite lor_of. unfold z_of at 2. rewrite n_shl, shl_u64. unfold put.
    unfold add_bits. destruct (_ && _); reflexivity. }
  destruct (n =? 0), b; cbn [negb andb]; try reflexivity; apply P.
Qed.

(** ** assemble_sched *)

Definition sched_body : list stmt.
Proof.
  let x := eval vm_compute in
    (match find_fn false parse_with "assemble_sched" with
     | Some f => match f_body f with Some l => l | None => [] end
     | None => []
     end) in exact x.
Defined.
(** The loop with what follows, its condition and its body. *)
Definition loop_on : list stmt := skipn 5 sched_body.
Definition loop_body : list stmt := match loop_on with SWhile _ l :: _ => l | _ => [] end.
Definition loop_test : expr := match loop_on with SWhile c _ :: _ => c | _ => ENothing end.
Definition loop_after : list stmt := tl loop_on.

(** The variables of the function. *)
Definition sched_frame (v : sched_vars) : frame :=
  [("yield", (TInteger TBool, VBool (v_yield v)));
   ("wait_barrier", (TInteger TU32, VZ TU32 (z_of (v_wait v))));
   ("read_barrier", (TOptional (Some TU32), VOpt TU32 (option_map z_of (v_read v))));
   ("write_barrier", (TOptional (Some TU32), VOpt TU32 (option_map z_of (v_write v))));
   ("stall", (TOptional (Some TU32), VOpt TU32 (option_map z_of (v_stall v))))].

Lemma while_step : forall layout enums e call ign fuel c a l fr s k,
  exec layout enums e call ign (S fuel) (SWhile c a :: l) fr s k =
  eval enums e fr s c (fun v => truth v (fun t =>
    if t then
      exec layout enums e call ign fuel a fr s (fun p =>
        let '(f, fr', s) := p in
        match f with
        | FNext => exec layout enums e call ign fuel (SWhile c a :: l) (leave fr fr') s
        | FBreak => exec layout enums e call ign fuel l (leave fr fr') s
        | FReturn => ret (f, leave fr fr', s)
        end k)
    else exec layout enums e call ign fuel l fr s k)).
Proof. reflexivity. Qed.

Definition sched_call (fuel : nat) (e : env) := call_fn fuel sched_fields 9 parse_with [] e.

Definition in_range (v : sched_vars) : Prop :=
  (forall n, v_stall v = Some n -> n < 16)%N /\ (forall n, v_write v = Some n -> n < 8)%N /\
  (forall n, v_read v = Some n -> n < 8)%N /\ (v_wait v < 64)%N.

Lemma range_small : forall z, 0 <= z < 64 -> wrap TU32 z = z_of (Z.to_N z).
Proof.
  intros z H. unfold wrap, z_of. cbv [is_signed width]. rewrite Z2N.id by lia. apply Z.mod_small.
  change (2 ^ 32) with 4294967296. lia.
Qed.

Lemma and_of : forall a b, z_and (z_of a) (z_of b) = z_of (N.land a b).
Proof. intros [|a] [|b]; reflexivity. Qed.

(** The bit of a barrier index: six cases. *)
Lemma mask_cases : forall z (P : Z -> Prop), (z <? 0) = false -> (5 <? z) = false ->
  P 0 -> P 1 -> P 2 -> P 3 -> P 4 -> P 5 -> P z.
Proof.
  intros z P A B ? ? ? ? ? ?. assert (z = 0 \/ z = 1 \/ z = 2 \/ z = 3 \/ z = 4 \/ z = 5) as C by lia.
  repeat destruct C as [->|C]; try assumption. subst z. assumption.
Qed.

Ltac six_masks :=
  cbv beta;
  match goal with |- context [bad_shift TU32 ?z] => change (bad_shift TU32 z) with false end; cbn beta iota;
  match goal with |- context [z_shl TU32 1 ?z] =>
    let m := eval vm_compute in (N.shiftl 1 (Z.to_N z)) in
    change (N.shiftl 1 (Z.to_N z)) with m; change (z_shl TU32 1 z) with (z_of m);
    change (dep_message (Z.to_N z)) with (Message "dependency barrier index %d already specified" [AInt z]);
    change (wrap TI32 z) with z
  end;
  rewrite and_of, z_nonzero_of, lor_of.

Ltac same_step :=
  match goal with
  | |- _ -> ?l = ?r =>
    let y := waits l in
    lazymatch y with
    | advance_tok ?s => pattern (advance_tok s); apply advance_cases;
        [intros ? _; reflexivity|intros ? _; reflexivity|intros ? _; reflexivity|intros N; exfalso; apply N; reflexivity
        |intros ? ? ?]
    | ttype_eqb (type_of (kind ?t)) ?ty => split_type t ty
    | immediate (kind ?t) => split_kind t
    | bad_shift TU32 ?z =>
        match goal with
        | A : (z <? 0) = false, B : (5 <? z) = false |- _ => pattern z; apply (mask_cases z _ A B); six_masks
        end
    | _ =>
        lazymatch type of y with
        | bool => let E := fresh "E" in destruct y eqn:E
        | option N => let E := fresh "E" in destruct y eqn:E
        end
    end
  end; cbn beta iota delta [lift bind negb andb orb];
  repeat (match goal with
          | K : kind ?t = _ |- context [kind ?t] => rewrite !K
          | E : (?a <? ?b) = _ |- context [?a <? ?b] => rewrite !E
          end; cbn beta iota delta [lift bind negb andb orb]).

Lemma lor_64 : forall a b, (a < 64 -> b < 64 -> N.lor a b < 64)%N.
Proof. intros a b A B. exact (Footprint.lor_lt a b 6 A B). Qed.

Ltac range V :=
  let V1 := fresh in let V2 := fresh in let V3 := fresh in let V4 := fresh in
  unfold in_range in *; cbn [v_stall v_write v_read v_wait] in *; destruct V as (V1 & V2 & V3 & V4);
  repeat split; try assumption; try (intros ? X; injection X as <-; lia); try (apply lor_64; [assumption|reflexivity]).

Lemma body_runs : forall fuel m n e v s k, in_range v ->
  (forall v' s', in_range v' -> assemble_sched_loop n v' s' <> OutOfFuel ->
   k (FNext, sched_frame v', s') = assemble_sched_loop n v' s') ->
  ttype_eqb (type_of (s_kind s)) ty_at = true ->
  assemble_sched_loop (S n) v s <> OutOfFuel ->
  exec sched_fields [] e (sched_call (60 + m) e) false (60 + fuel) loop_body (sched_frame v) s k =
  assemble_sched_loop (S n) v s.
Proof.
  intros fuel m n e [vs vw vr w y] s k V HK AT.
  cbn [assemble_sched_loop]. rewrite AT. cbn [negb].
  match goal with |- _ -> ?l = ?r =>
    let x := fresh "x" in set (x := l); run_text x; subst x end.
  cbn [v_stall v_write v_read v_wait v_yield]. unfold sched_int, confirm_type, fail, barrier_message, plain, s_kind.
  change (wrap TI64 0) with 0. change (wrap TI64 5) with 5. change (wrap TI64 15) with 15. cbv [z_lt].
  repeat same_step.
  all: try (intros _; reflexivity).
  all: try (match goal with T : ttype_eqb (type_of (kind (s_tok ?t))) _ = false |- _ => intros _; unfold expected_message;
         destruct (kind (s_tok t)); try discriminate; reflexivity end).
  all: intros NF;
    match goal with |- _ = assemble_sched_loop _ ?v ?s => rewrite <- (HK v s); [|range V|exact NF] end;
    rewrite ?range_small by lia; try reflexivity.
Qed.

(** ** The bit-fields *)

Lemma small_mod : forall n w, (n < 2 ^ w)%N -> n_of (z_of n) = n /\ (n mod 2 ^ w = n)%N.
Proof. intros n w H. split; [apply n_of_of|apply N.mod_small; exact H]. Qed.

Lemma pack_is : forall v s, in_range v -> forall z y, z = pack sched_fields 0
  [("stall", match v_stall v with Some n => z_of n | None => 0 end);
   ("yield", y);
   ("write_barrier", match v_write v with Some n => z_of n | None => 7 end);
   ("read_barrier", match v_read v with Some n => z_of n | None => 7 end);
   ("wait_barrier", z_of (v_wait v)); ("padding", 0)] -> y = z_bit (v_yield v) ->
  Opcode (value s) (reuse s) z = Opcode (value s) (reuse s) (pack_sched v).
Proof.
  intros [vs vw vr w y] s (A & B & C & D) z y' -> ->. f_equal. cbn [v_stall v_write v_read v_wait v_yield] in *.
  unfold pack_sched. cbn [v_stall v_write v_read v_wait v_yield].
  cbv [pack sched_fields assoc String.eqb Ascii.eqb Bool.eqb].
  assert (P : forall n w, (n < 2 ^ w)%N -> (n_of (z_of n) mod 2 ^ w = n)%N).
  { intros n k H. rewrite n_of_of. apply N.mod_small. exact H. }
  assert (S : (n_of (match vs with Some n => z_of n | None => 0 end) mod 2 ^ 4 = value_or vs 0)%N).
  { destruct vs as [n| ]; [apply P; apply A; reflexivity|reflexivity]. }
  assert (W : (n_of (match vw with Some n => z_of n | None => 7 end) mod 2 ^ 3 = value_or vw 7)%N).
  { destruct vw as [n| ]; [apply P; apply B; reflexivity|reflexivity]. }
  assert (R : (n_of (match vr with Some n => z_of n | None => 7 end) mod 2 ^ 3 = value_or vr 7)%N).
  { destruct vr as [n| ]; [apply P; apply C; reflexivity|reflexivity]. }
  rewrite S, W, R, (P w 6%N D). change (n_of 0 mod 2 ^ 15)%N with 0%N.
  replace (n_of (z_bit y) mod 2 ^ 1)%N with (if y then 1 else 0)%N by (destruct y; reflexivity).
  rewrite !N.add_0_l, N.shiftl_0_r, N.shiftl_0_l, N.lor_0_r. reflexivity.
Qed.

(** ** The loop *)

Lemma loop_runs : forall n fuel m e v s k, in_range v -> (forall fr s', k (FReturn, fr, s') = Ok s') ->
  assemble_sched_loop n v s <> OutOfFuel ->
  exec sched_fields [] e (sched_call (60 + m) e) false (60 + (n + fuel)) loop_on (sched_frame v) s k =
  assemble_sched_loop n v s.
Proof.
  induction n as [|n IH]; intros fuel m e v s k V HK NF; [exfalso; apply NF; reflexivity| ].
  replace (60 + (S n + fuel))%nat with (S (60 + (n + fuel)))%nat by lia.
  change loop_on with (SWhile loop_test loop_body :: loop_after) at 1. rewrite while_step.
  change (eval [] e (sched_frame v) s loop_test)
    with (fun k : val -> res st => k (VBool (ttype_eqb (type_of (s_kind s)) ty_at))). cbv beta.
  cbn [truth ret]. destruct (ttype_eqb (type_of (s_kind s)) ty_at) eqn:AT.
  - unfold ret at 1. apply body_runs; try assumption. intros v' s' V' NF'. apply IH; assumption.
  - unfold ret at 1. cbn [assemble_sched_loop]. rewrite AT. cbn [negb].
    destruct v as [vs vw vr w y].
    transitivity (Ok (St (s_cur s) (s_tok s) (Opcode (value (s_op s)) (reuse (s_op s)) (pack sched_fields 0
      [("stall", match vs with Some n => z_of n | None => 0 end); ("yield", z_bit y);
       ("write_barrier", match vw with Some n => z_of n | None => 7 end);
       ("read_barrier", match vr with Some n => z_of n | None => 7 end);
       ("wait_barrier", z_of w); ("padding", 0)])))).
    + rewrite <- (HK (sched_frame (Sched vs vw vr w y))). destruct vs, vw, vr, y;
      (match goal with |- ?l = ?r => let x := fresh "x" in let z := fresh "z" in set (x := l); set (z := r);
        cbv -[pack sched_fields z_of s_tok s_cur s_op value reuse sched wrap] in x;
        cbv -[pack sched_fields z_of s_tok s_cur s_op value reuse sched wrap] in z; subst x z end;
      change (wrap TU32 0) with 0; change (wrap TU32 7) with 7; reflexivity).
    + do 2 f_equal. eapply (pack_is (Sched vs vw vr w y) (s_op s) V); reflexivity.
Qed.

(** ** The function *)

Lemma range_0 : in_range sched0.
Proof. repeat split; try discriminate. Qed.

Lemma sched_enters : forall fuel e s k,
  call_fn fuel sched_fields 10 parse_with [] e false (ARef "assemble_sched" None)
    [PSelf "ctx"; PSelf "token"; PSelf "op"] s k =
  exec sched_fields [] e (sched_call fuel e) false fuel sched_body [] s (fun p =>
    let '(f, fr', s) := p in
    match f with
    | FReturn => ret (map (fun p => match assoc fr' p with Some (_, v) => v | None => VUnset end)
                       ["ctx"; "token"; "op"], s)
    | _ => stuck
    end k).
Proof. reflexivity. Qed.

Lemma sched_declares : forall fuel call e s k,
  exec sched_fields [] e call false (5 + fuel) sched_body [] s k =
  exec sched_fields [] e call false fuel loop_on (sched_frame sched0) s k.
Proof. intros. reflexivity. Qed.

Lemma sched_runs : forall fuel e s, (100 + List.length (rest (s_cur s)) <= fuel)%nat ->
  run_fn fuel sched_fields parse_with [] e "assemble_sched" [PSelf "ctx"; PSelf "token"; PSelf "op"] s =
  assemble_sched s.
Proof.
  intros fuel e s F. unfold run_fn. rewrite sched_enters.
  pose (n := S (S (List.length (rest (s_cur s))))).
  pose (m := (fuel - n - 65)%nat).
  assert (E : (fuel = 5 + (60 + (n + m)))%nat) by (subst n m; lia).
  rewrite E at 2. rewrite sched_declares.
  replace fuel with (60 + (fuel - 60))%nat at 1 by lia.
  apply loop_runs.
  - exact range_0.
  - reflexivity.
  - apply assemble_sched_not_fuel.
Qed.

(** ** From the text *)

Lemma instruction_text_runs : forall k line i, nth_error references k = Some line -> nth_error table k = Some i ->
  forall e c op, (value op < 2 ^ 64)%N ->
  parse_text functions enumerators parse_with sched_fields e line i c op = parse_insn e i c op.
Proof.
  intros k line i A B e c op V. rewrite <- (instruction_runs k line i A B e c op V). unfold parse_text, parse_line.
  destruct (add_bits _ _ _); try reflexivity. cbn [bind]. destruct (tokenize c) as [(t, c1)| | | | | ]; try reflexivity.
  cbn [bind]. destruct (_ && _); [reflexivity| ].
  assert (R : forall l n s (g h : Z -> st -> res attempt), (forall n s, g n s = h n s) ->
    run_line functions enumerators e l n s g = run_line functions enumerators e l n s h).
  { intros l. induction l as [|r l IH]; intros n s g h E; cbn [run_line]; [apply E| ].
    destruct (run_ref _ _ _ _ _); cbn [scored]; try reflexivity. apply IH. exact E. }
  apply R. intros n s. rewrite sched_runs by lia. reflexivity.
Qed.

Lemma parse_texts_run : forall fs hs ps enums others others' fields refs,
  read_functions operand_h = Some (fs, enums) -> read_functions helper_cpp = Some (hs, others) ->
  read_functions parse_cpp = Some (ps, others') -> read_bit_fields opcode_h = Some fields ->
  read_refs table_h = Some refs ->
  (forall fuel e s shift n, (50 <= fuel)%nat -> kind_ok (kind (s_tok s)) -> (shift < 64)%N ->
   run_fn fuel fields (ps ++ hs) [] e "assemble_predicate"
     [PSelf "token"; PSelf "op"; PValue (VZ TI32 (Z.of_N shift)); PValue (VZ TI32 n)] s =
   (let* op := assemble_predicate (e_asserts e) (s_tok s) (s_op s) shift (negb (n =? 0)) in
    Ok (St (s_cur s) (s_tok s) op))) /\
  (forall fuel e s, (100 + List.length (rest (s_cur s)) <= fuel)%nat ->
   run_fn fuel fields (ps ++ hs) [] e "assemble_sched" [PSelf "ctx"; PSelf "token"; PSelf "op"] s = assemble_sched s) /\
  (forall k line i, nth_error refs k = Some line -> nth_error table k = Some i ->
   forall e c op, (value op < 2 ^ 64)%N ->
   parse_text (fs ++ hs) enums (ps ++ hs) fields e line i c op = parse_insn e i c op).
Proof.
  intros fs hs ps enums others others' fields refs A B C D E.
  rewrite operand_h_read in A. injection A as <- <-. rewrite helper_cpp_read in B. injection B as <- <-.
  rewrite parse_cpp_read in C. injection C as <- <-. rewrite opcode_h_read in D. injection D as <-.
  rewrite table_h_read in E. injection E as <-.
  split; [exact predicate_runs| ]. split; [exact sched_runs|exact instruction_text_runs].
Qed.
