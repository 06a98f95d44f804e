(** * ScanExec: running the functions that [Scan] reads.

    An interpreter for the statements of context.cpp.  The state holds the
    members [text], [line], [column], [pc] and [labels] of the context, the local
    variables and the lambdas.  A pointer into the text is the characters in front of
    it, last one first, and those from it on; [Past] is the place behind the
    terminating NUL.  Reading there is undefined.  std::strtoll and
    std::strtof are those of the model; integers that count characters, lines
    and columns are not bounded.  [OutOfFuel] also stands for "the interpreter
    does not know what this means".

    Everything takes what is to be done with its result as an argument. *)
From Verif Require Import Base Lexer Scan.
Local Open Scope string_scope.
Local Open Scope list_scope.
Open Scope Z_scope.

Inductive ptr := At (before after : text) | Past.

Inductive sval :=
| VInt (z : Z)
| VBool (b : bool)
| VPtr (p : ptr)
| VNull
| VOpt (o : option Z)
| VView (s : text)
| VEnum (s : string)
| VReal (f : N)
| VToken (t : token)
| VPair (s : text) (z : Z)
| VVoid.

Record sst := Sst
  { s_text : ptr; s_line : Z; s_column : Z; s_pc : Z; s_labels : labels; s_vars : list (string * sval);
    s_code : list (string * list sstmt) }.

Definition out : Type := res (sval * sst).

Fixpoint get (x : string) (vs : list (string * sval)) : option sval :=
  match vs with [] => None | (y, v) :: vs' => if String.eqb y x then Some v else get x vs' end.
Fixpoint set (x : string) (v : sval) (vs : list (string * sval)) : list (string * sval) :=
  match vs with
  | [] => [(x, v)]
  | (y, w) :: vs' => if String.eqb y x then (y, v) :: vs' else (y, w) :: set x v vs'
  end.

Fixpoint code_named (x : string) (l : list (string * list sstmt)) : option (list sstmt) :=
  match l with [] => None | (y, b) :: l' => if String.eqb y x then Some b else code_named x l' end.

(** [char] is signed on the supported targets. *)
Definition char_value (c : ascii) : Z :=
  let n := Z.of_N (N_of_ascii c) in if n <? 128 then n else n - 256.
Definition to_char (z : Z) : Z := let m := z mod 256 in if m <? 128 then m else m - 256.
Definition to_int64 (z : Z) : Z := let m := z mod 2 ^ 64 in if m <? 2 ^ 63 then m else m - 2 ^ 64.

(** Comparisons of values. *)
Definition int_eq (x y : Z) : bool := x =? y.
Definition int_lt (x y : Z) : bool := x <? y.
Definition int_le (x y : Z) : bool := x <=? y.

Definition truth (v : sval) : option bool :=
  match v with
  | VBool b => Some b
  | VInt z => Some (negb (int_eq z 0))
  | VOpt o => Some (match o with Some _ => true | None => false end)
  | _ => None
  end.

(** The token a function returns: the member of the union its type names. *)
Definition token_kind (vs : list (string * sval)) : option tkind :=
  match get "token.type" vs with
  | Some (VEnum e) =>
      if String.eqb e "token_type::none" then Some TNone else
      if String.eqb e "token_type::identifier" then
        match get "token.data.string" vs with Some (VView s) => Some (TIdent s) | _ => None end else
      if String.eqb e "token_type::regster" then
        match get "token.data.regster" vs with Some (VInt z) => Some (TReg (Z.to_N z)) | _ => None end else
      if String.eqb e "token_type::predicate" then
        match get "token.data.predicate.index" vs, get "token.data.predicate.negated" vs with
        | Some (VInt z), Some (VBool b) => Some (TPred (Z.to_N z) b)
        | _, _ => None
        end else
      if String.eqb e "token_type::immediate" then
        match get "token.data.immediate" vs with Some (VInt z) => Some (TImm z) | _ => None end else
      if String.eqb e "token_type::float_immediate" then
        match get "token.data.float_immediate" vs with Some (VReal f) => Some (TFloat f) | _ => None end else
      if String.eqb e "token_type::plus" then Some TPlus else
      if String.eqb e "token_type::minus" then Some TMinus else
      if String.eqb e "token_type::tilde" then Some TTilde else
      if String.eqb e "token_type::vbar" then Some TVbar else
      if String.eqb e "token_type::bracket_left" then Some TLbrack else
      if String.eqb e "token_type::bracket_right" then Some TRbrack else
      if String.eqb e "token_type::at" then Some TAt else
      if String.eqb e "token_type::semicolon" then Some TSemi else
      if String.eqb e "token_type::comma" then Some TComma else None
  | _ => None
  end.
Definition token_place (vs : list (string * sval)) : option (Z * Z) :=
  match get "token.line" vs, get "token.column" vs with
  | Some (VInt l), Some (VInt c) => Some (l, c)
  | _, _ => None
  end.
Definition token_of (vs : list (string * sval)) : option sval :=
  match token_kind vs, token_place vs with
  | Some k, Some (l, c) => Some (VToken (Token k l c))
  | _, _ => None
  end.

(** ** Names *)

Definition is_enumerator (x : string) : bool := String.prefix "token_type::" x.

Definition name_value (x : string) (s : sst) : option sval :=
  if String.eqb x "text" then Some (VPtr (s_text s)) else
  if String.eqb x "line" then Some (VInt (s_line s)) else
  if String.eqb x "column" then Some (VInt (s_column s)) else
  if String.eqb x "pc" then Some (VInt (s_pc s)) else
  if String.eqb x "text_begin" then match s_text s with At b a => Some (VPtr (At [] (rev b ++ a))) | Past => None end else
  if String.eqb x "filename" then Some VVoid else
  if String.eqb x "true" then Some (VBool true) else
  if String.eqb x "false" then Some (VBool false) else
  if String.eqb x "nullptr" then Some VNull else
  if String.eqb x "NULL" then Some VNull else
  if String.eqb x "ZERO_REGISTER" then Some (VInt (Z.of_N ZERO_REGISTER)) else
  if String.eqb x "NUM_USER_REGISTERS" then Some (VInt NUM_USER_REGISTERS) else
  if String.eqb x "token" then token_of (s_vars s) else
  if is_enumerator x then Some (VEnum x) else
  get x (s_vars s).

Definition with_vars (s : sst) (vs : list (string * sval)) : sst :=
  Sst (s_text s) (s_line s) (s_column s) (s_pc s) (s_labels s) vs (s_code s).
Definition with_code (s : sst) (l : list (string * list sstmt)) : sst :=
  Sst (s_text s) (s_line s) (s_column s) (s_pc s) (s_labels s) (s_vars s) l.
Definition bind_var (x : string) (v : sval) (s : sst) : sst := with_vars s (set x v (s_vars s)).

(** Assignment; a number put into a std::optional makes it hold the number. *)
Definition assign (x : string) (v : sval) (s : sst) : option sst :=
  if String.eqb x "text" then
    match v with VPtr p => Some (Sst p (s_line s) (s_column s) (s_pc s) (s_labels s) (s_vars s) (s_code s)) | _ => None end else
  if String.eqb x "line" then
    match v with VInt z => Some (Sst (s_text s) z (s_column s) (s_pc s) (s_labels s) (s_vars s) (s_code s)) | _ => None end else
  if String.eqb x "column" then
    match v with VInt z => Some (Sst (s_text s) (s_line s) z (s_pc s) (s_labels s) (s_vars s) (s_code s)) | _ => None end else
  if String.eqb x "pc" then
    match v with VInt z => Some (Sst (s_text s) (s_line s) (s_column s) z (s_labels s) (s_vars s) (s_code s)) | _ => None end else
  match get x (s_vars s), v with
  | Some (VOpt _), VInt z => Some (bind_var x (VOpt (Some z)) s)
  | Some (VOpt _), _ => None
  | _, _ => Some (bind_var x v s)
  end.

(** ** Operators *)

Definition distance (p q : ptr) : option Z :=
  match p, q with
  | At _ a, At _ a' => Some (Z.of_nat (List.length a') - Z.of_nat (List.length a))
  | _, _ => None
  end.
Definition same_length (a b : text) : bool := Nat.eqb (List.length a) (List.length b).
Definition same_address (p q : ptr) : option bool :=
  match p, q with
  | At _ a, At _ a' => Some (same_length a a')
  | _, _ => None
  end.

Definition binary_value (op : string) (a b : sval) : option sval :=
  match a, b with
  | VInt x, VInt y =>
      if String.eqb op "==" then Some (VBool (int_eq x y)) else
      if String.eqb op "!=" then Some (VBool (negb (int_eq x y))) else
      if String.eqb op "<" then Some (VBool (int_lt x y)) else
      if String.eqb op ">" then Some (VBool (int_lt y x)) else
      if String.eqb op "<=" then Some (VBool (int_le x y)) else
      if String.eqb op ">=" then Some (VBool (int_le y x)) else
      if String.eqb op "+" then Some (VInt (x + y)) else
      if String.eqb op "-" then Some (VInt (x - y)) else
      if String.eqb op "%" then Some (VInt (Z.rem x y)) else None
  | VPtr p, VPtr q =>
      if String.eqb op "-" then match distance p q with Some z => Some (VInt z) | None => None end else
      if String.eqb op "!=" then match same_address p q with Some b => Some (VBool (negb b)) | None => None end else None
  | VPtr p, VInt z =>
      if String.eqb op "+" then
        if z =? 1 then match p with At b (x :: a) => Some (VPtr (At (x :: b) a)) | _ => None end else None
      else None
  | _, _ => None
  end.

(** [p[0]], [p[1]] and [p[-1]]. *)
Definition read_at (p : ptr) (z : Z) (k : sval -> out) : out :=
  match p with
  | Past => Undef UB_read_past_nul
  | At b a =>
      if z =? 0 then k (VInt (char_value (peek a))) else
      if z =? 1 then match a with [] => Undef UB_read_past_nul | _ :: a' => k (VInt (char_value (peek a'))) end else
      if z =? -1 then match b with [] => OutOfFuel | x :: _ => k (VInt (char_value x)) end else OutOfFuel
  end.

Definition step_ptr (p : ptr) (k : ptr -> out) : out :=
  match p with
  | At b (x :: a) => k (At (x :: b) a)
  | At _ [] => k Past
  | Past => Undef UB_read_past_nul
  end.

Definition cast (t : string) (z : Z) : option Z :=
  if String.eqb t "char" then Some (to_char z) else
  if String.eqb t "int" then Some (s32_of_Z z) else
  if String.eqb t "int64_t" then Some (to_int64 z) else
  if String.eqb t "uint8_t" then Some (z mod 256) else
  if String.eqb t "size_t" then (if int_lt z 0 then None else Some z) else None.

(** std::ranges::find: where the first character with this value is. *)
Fixpoint find_from (b a : text) (z : Z) : ptr :=
  match a with
  | [] => At b []
  | c :: a' => if char_value c =? z then At b (c :: a') else find_from (c :: b) a' z
  end.
Definition view_end (s : text) : ptr := At (rev s) [].

(** The pointer a conversion of [a] leaves behind. *)
Definition converted (b a e : text) : ptr := At (rev (firstn (List.length a - List.length e) a) ++ b) e.

(** A vararg; a pointer stands for the characters up to the cursor. *)
Definition vararg (s : sst) (v : sval) : option arg :=
  match v, s_text s with
  | VInt z, _ => Some (AInt z)
  | VPtr (At _ a), At _ a' => Some (APtr (firstn (List.length a - List.length a') a))
  | _, _ => None
  end.
Fixpoint varargs (s : sst) (l : list sval) : option (list arg) :=
  match l with
  | [] => Some []
  | v :: l' => match vararg s v, varargs s l' with Some a, Some r => Some (a :: r) | _, _ => None end
  end.

(** ** Expressions *)

Inductive callee := Named (f : string) | Code (l : list sstmt).

Definition opt {A} (o : option A) (k : A -> out) : out := match o with Some x => k x | None => OutOfFuel end.

Section Running.
  (** Whether assert is compiled in, a bound for each loop, and calls. *)
  Variable asserts : bool.
  Variable bound : nat.
  Variable call : callee -> list sval -> sst -> (sval -> sst -> out) -> out.

  (** Library functions of values. *)
  Definition library (f : string) (args : list sval) (s : sst) (k : sval -> sst -> out) : out :=
    if String.eqb f "std::ranges::find" then
      match args with [VView t; VInt z] => k (VPtr (find_from [] t z)) s | _ => OutOfFuel end else
    if String.eqb f "std::string_view" then
      match args with
      | [VPtr (At _ a); VInt z] => if int_lt z 0 then OutOfFuel else k (VView (firstn (Z.to_nat z) a)) s
      | _ => OutOfFuel
      end else
    if String.eqb f "std::move" then match args with [v] => k v s | _ => OutOfFuel end else
    match code_named f (s_code s) with
    | Some l => call (Code l) args s k
    | None => call (Named f) args s k
    end.

  Definition method (x m : string) (args : list sval) (s : sst) (k : sval -> sst -> out) : out :=
    if String.eqb m "end" then
      match get x (s_vars s) with Some (VView t) => k (VPtr (view_end t)) s | _ => OutOfFuel end else
    if String.eqb m "append" then
      match get x (s_vars s), args with
      | Some (VView t), [VPtr (At _ a); VInt z] =>
          if int_lt z 0 then OutOfFuel else k VVoid (bind_var x (VView (t ++ firstn (Z.to_nat z) a)) s)
      | _, _ => OutOfFuel
      end else
    if String.eqb x "labels" then
      if String.eqb m "insert" then
        match args with
        | [VPair n z] =>
            k VVoid (Sst (s_text s) (s_line s) (s_column s) (s_pc s) (insert_label (s_labels s) n z) (s_vars s) (s_code s))
        | _ => OutOfFuel
        end
      else OutOfFuel
    else OutOfFuel.

  Fixpoint eval (e : sexpr) (s : sst) (k : sval -> sst -> out) {struct e} : out :=
    let each := fix each (l : list sexpr) (s : sst) (k : list sval -> sst -> out) {struct l} : out :=
      match l with
      | [] => k [] s
      | a :: l' => eval a s (fun v s => each l' s (fun vs s => k (v :: vs) s))
      end in
    match e with
    | XNum z => k (VInt z) s
    | XChar c => k (VInt (char_value c)) s
    | XText t => k (VView t) s
    | XName x => opt (name_value x s) (fun v => k v s)
    | XUn op a =>
        eval a s (fun v s =>
          if String.eqb op "!" then opt (truth v) (fun b => k (VBool (negb b)) s) else
          if String.eqb op "*" then
            match v with
            | VPtr p => read_at p 0 (fun v => k v s)
            | VOpt (Some z) => k (VInt z) s
            | _ => OutOfFuel
            end else
          if String.eqb op "-" then match v with VInt z => k (VInt (- z)) s | _ => OutOfFuel end
          else OutOfFuel)
    | XBin op a b =>
        if String.eqb op "&&" then
          eval a s (fun v s => opt (truth v) (fun x =>
            if x then eval b s (fun v s => opt (truth v) (fun y => k (VBool y) s)) else k (VBool false) s))
        else if String.eqb op "||" then
          eval a s (fun v s => opt (truth v) (fun x =>
            if x then k (VBool true) s else eval b s (fun v s => opt (truth v) (fun y => k (VBool y) s))))
        else eval a s (fun v s => eval b s (fun w s => opt (binary_value op v w) (fun r => k r s)))
    | XIndex a b =>
        eval a s (fun v s => eval b s (fun w s =>
          match v, w with VPtr p, VInt z => read_at p z (fun r => k r s) | _, _ => OutOfFuel end))
    | XSet x op a =>
        eval a s (fun v s =>
          if String.eqb op "=" then opt (assign x v s) (fun s => k v s) else
          opt (name_value x s) (fun w =>
            match w, v with
            | VInt y, VInt z => if String.eqb op "+=" then opt (assign x (VInt (y + z)) s) (fun s => k (VInt (y + z)) s) else OutOfFuel
            | VBool y, VBool z => if String.eqb op "|=" then opt (assign x (VBool (y || z)) s) (fun s => k (VBool (y || z)) s) else OutOfFuel
            | _, _ => OutOfFuel
            end))
    | XStep behind x =>
        opt (name_value x s) (fun w =>
          match w with
          | VInt z => opt (assign x (VInt (z + 1)) s) (fun s => k (VInt (if behind then z else z + 1)) s)
          | VPtr p => step_ptr p (fun q => opt (assign x (VPtr q) s) (fun s => k (VPtr (if behind then p else q)) s))
          | _ => OutOfFuel
          end)
    | XAddress _ => OutOfFuel
    | XCast t a =>
        eval a s (fun v s => match v with VInt z => opt (cast t z) (fun z => k (VInt z) s) | _ => OutOfFuel end)
    | XBraces l =>
        each l s (fun vs s => match vs with [VView t; VInt z] => k (VPair t z) s | _ => OutOfFuel end)
    | XMethod x m l => each l s (fun vs s => method x m vs s k)
    | XCall f l =>
        if String.eqb f "assert" then
          match l with
          | [a] => if asserts
                   then eval a s (fun v s => opt (truth v) (fun b => if b then k VVoid s else Abort "assert"))
                   else k VVoid s
          | _ => OutOfFuel
          end
        else if String.eqb f "fatal_error" then
          match l with
          | XName _ :: XText m :: r =>
              each r s (fun vs s => opt (token_place (s_vars s)) (fun p => opt (varargs s vs) (fun a =>
                Fatal (Diag (Some p) (Message (text_of m) a)))))
          | _ => OutOfFuel
          end
        else if String.eqb f "std::strtof" then
          match l with
          | [a; XAddress x] =>
              eval a s (fun v s => match v with
                | VPtr (At b t) => let '(f, e) := strtof t in k (VReal f) (bind_var x (VPtr (converted b t e)) s)
                | _ => OutOfFuel
                end)
          | _ => OutOfFuel
          end
        else if String.eqb f "std::strtoll" then
          match l with
          | [a; XAddress x; XNum base] =>
              eval a s (fun v s => match v with
                | VPtr (At b t) => let '(z, e) := strtoll base t in k (VInt z) (bind_var x (VPtr (converted b t e)) s)
                | _ => OutOfFuel
                end)
          | _ => OutOfFuel
          end
        else each l s (fun vs s => library f vs s k)
    end.

  (** ** Statements *)

  (** What follows a statement: the next one, the end of the loop or switch
      around it, the condition of the loop, or the caller. *)
  Record after := After
    { a_next : sst -> out; a_break : sst -> out; a_continue : sst -> out; a_return : sval -> sst -> out }.

  (** The statements a switch jumps to. *)
  Fixpoint case_of (z : Z) (l : list sstmt) : option (list sstmt) :=
    match l with
    | [] => None
    | YCase c :: l' => if char_value c =? z then Some l' else case_of z l'
    | _ :: l' => case_of z l'
    end.
  Fixpoint default_of (l : list sstmt) : list sstmt :=
    match l with [] => [] | YDefault :: l' => l' | _ :: l' => default_of l' end.

  Definition block := list sstmt -> sst -> after -> out.

  Fixpoint loop (go : block) (n : nat) (c : sexpr) (l : list sstmt) (s : sst) (k : after) : out :=
    match n with
    | O => OutOfFuel
    | S n =>
        eval c s (fun v s => opt (truth v) (fun b =>
          if b then go l s (After (fun s => loop go n c l s k) (a_next k) (fun s => loop go n c l s k) (a_return k))
          else a_next k s))
    end.

  Definition step (go : block) : block := fun l s k =>
    match l with
    | [] => a_next k s
    | y :: l =>
        let k' := After (fun s => go l s k) (a_break k) (a_continue k) (a_return k) in
        match y with
        | YExpr e => eval e s (fun _ s => go l s k)
        | YDecl t x (Some e) => eval e s (fun v s => go l (bind_var x v s) k)
        | YDecl t x None =>
            if String.eqb t "token" then go l s k else
            if String.eqb t "optional" then go l (bind_var x (VOpt None) s) k else
            if String.eqb t "std::string" then go l (bind_var x (VView []) s) k else OutOfFuel
        | YIf c a b => eval c s (fun v s => opt (truth v) (fun x => if x then go a s k' else go b s k'))
        | YWhile c b => loop go bound c b s k'
        | YDo b c =>
            go b s (After (fun s => loop go bound c b s k') (a_next k') (fun s => loop go bound c b s k') (a_return k'))
        | YSwitch e b =>
            eval e s (fun v s =>
              match v with
              | VInt z =>
                  let k'' := After (a_next k') (a_next k') (a_continue k') (a_return k') in
                  match case_of z b with
                  | Some b' => go b' s k''
                  | None => go (default_of b) s k''
                  end
              | _ => OutOfFuel
              end)
        | YCase _ | YDefault => go l s k
        | YReturn None => a_return k VVoid s
        | YReturn (Some e) => eval e s (a_return k)
        | YBreak => a_break k s
        | YContinue => a_continue k s
        | YLambda x b => go l (with_code s ((x, b) :: s_code s)) k
        end
    end.

  Fixpoint exec (height : nat) : block :=
    match height with O => fun _ _ _ => OutOfFuel | S h => step (exec h) end.
End Running.

(** ** Calls *)

(** A function starts with its parameters as its only variables and without
    lambdas; when it returns, the variables and lambdas of the caller are there
    again. *)
Definition enters (s : sst) (vs : list (string * sval)) : sst :=
  Sst (s_text s) (s_line s) (s_column s) (s_pc s) (s_labels s) vs [].
Definition leaves (s s' : sst) : sst :=
  Sst (s_text s') (s_line s') (s_column s') (s_pc s') (s_labels s') (s_vars s) (s_code s).

Fixpoint function_named (fs : list sfn) (f : string) : option sfn :=
  match fs with
  | [] => None
  | x :: fs' => if String.eqb (sf_name x) f || String.eqb (sf_name x) ("context::" ++ f) then Some x else function_named fs' f
  end.

Definition outside : sst -> out := fun _ => OutOfFuel.

(** A lambda sees the variables of the function it is in. *)
Fixpoint run (asserts : bool) (bound : nat) (fs : list sfn) (depth : nat) (f : callee) (args : list sval) (s : sst)
  (k : sval -> sst -> out) : out :=
  match depth with
  | O => OutOfFuel
  | S d =>
      match f with
      | Named n =>
          match function_named fs n with
          | Some x =>
              let back v s' := k v (leaves s s') in
              exec asserts bound (run asserts bound fs d) 60 (sf_body x)
                (enters s (combine (sf_params x) args))
                (After (fun s' => back VVoid s') outside outside back)
          | None => OutOfFuel
          end
      | Code l =>
          exec asserts bound (run asserts bound fs d) 60 l s (After (k VVoid) outside outside k)
      end
  end.
