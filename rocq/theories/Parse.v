(** * Parse: /repo/src/parse.cpp and /repo/src/options.cpp. *)
From Verif Require Import Base Float Lexer Operand Catalogue Table.
Local Open Scope string_scope.
Open Scope Z_scope.

(** ** /repo/src/options.cpp *)

(** The option fields of [context] (src/context.h:59-79).  [entrypoint],
    [second_entrypoint], [second_num_gprs], the three fragment flags and
    [num_barriers] are never assigned and keep their initial values, which the
    writers below use directly.  [int] fields hold values in the [int] range. *)
Record options := Options {
  o_type : option N;           (* program_type, vertex = 0 .. compute = 5 *)
  o_dksh : bool;
  o_num_gprs : Z;
  o_local : Z;
  o_dims : N * N * N;
  o_shared : Z
}.
Definition options0 : options := Options None false 8 0 (1, 1, 1)%N 0.

(** src/options.cpp:21-36: the names of the program types. *)
Definition program_type (t : token) : option N :=
  if equal t "vertex" then Some 0%N
  else if equal t "tess_control" || equal t "hull" then Some 1%N
  else if equal t "tess_eval" || equal t "domain" then Some 2%N
  else if equal t "geometry" then Some 3%N
  else if equal t "fragment" || equal t "pixel" then Some 4%N
  else if equal t "compute" then Some 5%N
  else None.

(** src/options.cpp:9-13 [check_option_line]. *)
Definition check_option_line (option_line : Z) (t : token) : res unit :=
  if Z.eqb (t_line t) option_line then Ok tt
  else fatal_error t "unexpected new line in option".

(** src/options.cpp:34-35. *)
Definition type_message (s : text) : message :=
  Message ("invalid program type " ++ bold "%.*s") (int_view s).
(** src/options.cpp:14-37 [parse_type].  [t] is the option's own token. *)
Definition parse_type (option_line : Z) (t : token) (c : cursor) (o : options)
  : res (token * cursor * options) :=
  match o_type o with
  | Some _ => fatal_error t "program type already specified"
  | None =>
      let* (t, c) := tokenize c in
      let* _ := check_option_line option_line t in
      match program_type t with
      | Some ty =>
          Ok (t, c, Options (Some ty) (o_dksh o) (o_num_gprs o) (o_local o) (o_dims o) (o_shared o))
      | None =>
          if string_is_active (kind t) then fatal_error t (type_message (token_view (kind t)))
          else Undef UB_inactive_union
      end
  end.

(** An option argument that must be an integer literal. *)
Definition option_int (c : cursor) (msg : string) : res (Z * token * cursor) :=
  let* (t, c) := tokenize c in
  match kind t with
  | TImm z => Ok (z, t, c)
  | _ => fatal_error t msg
  end.

(** src/options.cpp:6-76 [context::parse_option]: the token read after the
    option, the cursor and the updated options. *)
Definition parse_option (t : token) (c : cursor) (o : options) : res (token * cursor * options) :=
  let option_line := t_line t in
  let* (t, c, o) :=
    (if equal t ".dksh" then
       parse_type option_line t c
         (Options (o_type o) true (o_num_gprs o) (o_local o) (o_dims o) (o_shared o))
     else if equal t ".type" then parse_type option_line t c o
     else if equal t ".num_gprs" then
       let* (t, c) := tokenize c in
       match kind t with
       | TImm _ => fatal_error t "expected number of general purpose registers"
       | _ => Undef UB_inactive_union (* reads token.data.immediate *)
       end
     else if equal t ".workgroup_size" then
       let* (x, _, c) := option_int c "expected workgroup sizes" in
       let* (y, _, c) := option_int c "expected workgroup sizes" in
       let* (z, t, c) := option_int c "expected workgroup sizes" in
       let* _ := check_option_line option_line t in
       Ok (t, c, Options (o_type o) (o_dksh o) (o_num_gprs o) (o_local o)
                   (u32_of_Z x, u32_of_Z y, u32_of_Z z) (o_shared o))
     else if equal t ".shared_memory" then
       let* (z, t, c) := option_int c "expected shared memory size" in
       Ok (t, c, Options (o_type o) (o_dksh o) (o_num_gprs o) (o_local o) (o_dims o) (s32_of_Z z))
     else if equal t ".local_memory" then
       let* (z, t, c) := option_int c "expected local memory size" in
       Ok (t, c, Options (o_type o) (o_dksh o) (o_num_gprs o) (s32_of_Z z) (o_dims o) (o_shared o))
     else Ok (t, c, o)) in
  let* (t, c) := tokenize c in
  if Z.eqb option_line (t_line t) then fatal_error t "expected new line after option"
  else Ok (t, c, o).

(** [token.type == identifier && token.data.string[0] == '.'] (parse.cpp:135);
    identifiers are never empty. *)
Definition is_option (t : token) : bool :=
  match kind t with TIdent s => Ascii.eqb (peek s) "."%char | _ => false end.

(** src/parse.cpp:135-137. *)
Fixpoint parse_options (fuel : nat) (t : token) (c : cursor) (o : options)
  : res (token * cursor * options) :=
  match fuel with
  | O => OutOfFuel
  | S fuel' =>
      if is_option t then
        let* (t, c, o) := parse_option t c o in parse_options fuel' t c o
      else Ok (t, c, o)
  end.

(** ** /repo/src/parse.cpp *)

(** parse.cpp:16-28.  [index | negated << 3], shifted. *)
Definition assemble_predicate (asserts : bool) (t : token) (op : opcode) (shift : N)
  (is_negable : bool) : res opcode :=
  match kind t with
  | TPred index negated =>
      if negb is_negable && negated then fail t "predicate can't be negated"
      else add_bits asserts op (shl64 (N.lor index (if negated then 8 else 0)) shift)
  | _ => fail t (expected_message ty_pred (kind t))
  end.

(** Local variables of [assemble_sched]. *)
Record sched_vars := Sched {
  v_stall : option N; v_write : option N; v_read : option N; v_wait : N; v_yield : bool }.
Definition sched0 : sched_vars := Sched None None None 0 false.

(** parse.cpp:95-102 written through the bit-field layout of opcode.h:32-38. *)
Definition pack_sched (v : sched_vars) : N :=
  (N.lor (value_or (v_stall v) 0)
  (N.lor (N.shiftl (if v_yield v then 1 else 0) 4)
  (N.lor (N.shiftl (value_or (v_write v) 7) 5)
  (N.lor (N.shiftl (value_or (v_read v) 7) 8)
         (N.shiftl (v_wait v) 11)))))%N.

(** An immediate between 0 and [max]: the common part of lines 43-50, 57-63
    and 77-83. *)
Definition sched_int (s : st) (max : Z) (msg : string) : res (N * st) :=
  let* s := advance_tok s in
  let* s := confirm_type ty_imm s in
  match s_kind s with
  | TImm z =>
      if (z <? 0) || (max <? z) then fail (s_tok s) msg
      else Ok (Z.to_N z, s)
  | _ => Undef UB_inactive_union
  end.

(** parse.cpp:55 and 86-87. *)
Definition barrier_message (is_write : bool) : message :=
  Message "%s barrier already specified" [AStr (lit (if is_write then "write" else "read"))].
Definition dep_message (n : N) : message :=
  Message "dependency barrier index %d already specified" [AInt (Z.of_N n)].
(** parse.cpp:30-104. *)
Fixpoint assemble_sched_loop (fuel : nat) (v : sched_vars) (s : st) : res st :=
  match fuel with
  | O => OutOfFuel
  | S fuel' =>
      if negb (ttype_eqb (type_of (s_kind s)) ty_at) then
        Ok (St (s_cur s) (s_tok s) (Opcode (value (s_op s)) (reuse (s_op s)) (pack_sched v)))
      else
        let* s := advance_tok s in
        if equal (s_tok s) "WAIT" then
          match v_stall v with
          | Some _ => fail (s_tok s) "clocks to stall are already specified"
          | None =>
              let* (n, s) := sched_int s 15
                  "number of waited clocks must be between 0 and 15 inclusively" in
              let* s := advance_tok s in
              assemble_sched_loop fuel'
                (Sched (Some n) (v_write v) (v_read v) (v_wait v) (v_yield v)) s
          end
        else if equal (s_tok s) "WB" || equal (s_tok s) "RB" then
          let is_write := equal (s_tok s) "WB" in
          match (if is_write then v_write v else v_read v) with
          | Some _ => fail (s_tok s) (barrier_message is_write)
          | None =>
              let* (n, s) := sched_int s 5 "barrier index must be between 0 and 5 inclusively" in
              let* s := advance_tok s in
              assemble_sched_loop fuel'
                (if is_write
                 then Sched (v_stall v) (Some n) (v_read v) (v_wait v) (v_yield v)
                 else Sched (v_stall v) (v_write v) (Some n) (v_wait v) (v_yield v)) s
          end
        else if equal (s_tok s) "Y" || equal (s_tok s) "YIELD" then
          if v_yield v then fail (s_tok s) "yield already specified"
          else
            let* s := advance_tok s in
            assemble_sched_loop fuel'
              (Sched (v_stall v) (v_write v) (v_read v) (v_wait v) true) s
        else if equal (s_tok s) "DEP" then
          let* (n, s) := sched_int s 5
              "dependency barrier index must be between 0 and 5 inclusively" in
          let mask := N.shiftl 1 n in
          if negb (N.eqb (N.land (v_wait v) mask) 0) then
            fail (s_tok s) (dep_message n)
          else
            let* s := advance_tok s in
            assemble_sched_loop fuel'
              (Sched (v_stall v) (v_write v) (v_read v) (N.lor (v_wait v) mask) (v_yield v)) s
        else fail (s_tok s) "expected @WAIT, @WB, @RB, @DEP, or @YIELD/@Y"
  end.

(** Every round of the loop reads an '@': the length of the text bounds it. *)
Definition assemble_sched (s : st) : res st :=
  assemble_sched_loop (S (S (List.length (rest (s_cur s))))) sched0 s.

(** Result of [parse_insn]: success, or an error with its score. *)
Inductive attempt := Parsed (s : st) | Failed (e : diag) (score : Z).

Definition scored (score : Z) (r : res st) (k : st -> res attempt) : res attempt :=
  match r with
  | Ok s => k s
  | Err e => Ok (Failed e score)
  | Fatal d => Fatal d
  | Abort w => Abort w
  | Undef u => Undef u
  | OutOfFuel => OutOfFuel
  end.

(** parse.cpp:114-120: operands in order, the score counts them from 1. *)
Fixpoint run_operands (e : env) (ops : list opnd) (score : Z) (s : st) (k : Z -> st -> res attempt)
  : res attempt :=
  match ops with
  | [] => k score s
  | o :: ops' =>
      scored score (run_operand e o s) (fun s => run_operands e ops' (score + 1) s k)
  end.

(** parse.cpp:112. *)
Definition guard_message (mnemonic : string) : message :=
  Message "%s does not support predicated execution" [AStr (lit mnemonic)].
(** parse.cpp:106-127. *)
Definition parse_insn (e : env) (i : insn) (c : cursor) (op : opcode) : res attempt :=
  let* op := add_bits (e_asserts e) op (i_opcode i) in
  let* (t, c) := tokenize c in
  let s := St c t op in
  if negb (N.eqb (N.land (i_flags i) NO_PRED) 0)
     && negb (N.eqb (andnot (shl64 7 16) (value op)) 0)
  then Ok (Failed (diag_at t (guard_message (i_mnemonic i))) 0)
  else
    run_operands e (i_operands i) 1 s (fun score s =>
      let score := score + 1000 in
      scored score (assemble_sched s) (fun s =>
        scored score (confirm_type ty_semi s) (fun s => Ok (Parsed s)))).

(** parse.cpp:182-183. *)
Definition mnemonic_message (s : text) : message :=
  Message ("unknown mnemonic " ++ bold "%.*s") (size_view s).
(** parse.cpp:156-184: the table walk.  Every attempt starts from the saved
    cursor and opcode.  [best] is [error_message] with [error_score]
    (absent = -1). *)
Fixpoint parse_table (e : env) (tbl : list insn) (t : token) (c : cursor) (op : opcode)
  (best : option (diag * Z)) : res st :=
  match tbl with
  | [] =>
      match best with
      | Some (d, _) => Fatal d
      | None => fatal_error t (mnemonic_message (token_view (kind t)))
      end
  | i :: tbl' =>
      if negb (equal t (i_mnemonic i)) then parse_table e tbl' t c op best
      else
        let* r := parse_insn e i c op in
        match r with
        | Parsed s => Ok s
        | Failed d score =>
            let better := match best with None => true | Some (_, b) => b <? score end in
            parse_table e tbl' t c op (if better then Some (d, score) else best)
        end
  end.

(** The parts of [context] that change while parsing. *)
Record ctx := Ctx { c_cur : cursor; c_pc : Z; c_opts : options }.

(** parse.cpp:129-185.  [None] is the C++ result [false]: end of input.
    [message.raise()] turns an error into a fatal exit. *)
Definition raise {A} (r : res A) : res A :=
  match r with Err d => Fatal d | r => r end.
Definition parse_instruction_with (tbl : list insn) (asserts : bool) (ls : labels) (x : ctx) (op : opcode)
  : res (option (ctx * opcode)) :=
  let* (t, c) := tokenize (c_cur x) in
  match kind t with
  | TNone => Ok None
  | _ =>
      let* (t, c, o) := parse_options (S (S (List.length (rest c)))) t c (c_opts x) in
      let pc := if Z.rem (c_pc x) 32 =? 0 then c_pc x + 8 else c_pc x in
      let* (t, c, op) :=
        (if ttype_eqb (type_of (kind t)) ty_at then
           let* (t, c) := tokenize c in
           let* op := raise (assemble_predicate asserts t op 16 true) in
           let* (t, c) := tokenize c in
           Ok (t, c, op)
         else
           let* op := add_bits asserts op (shl64 7 16) in
           Ok (t, c, op)) in
      match kind t with
      | TIdent _ =>
          let* s := parse_table (Env ls pc asserts) tbl t c op None in
          Ok (Some (Ctx (s_cur s) (pc + 8) o, s_op s))
      | _ => fatal_error t "expected mnemonic"
      end
  end.
Definition parse_instruction := parse_instruction_with table.
