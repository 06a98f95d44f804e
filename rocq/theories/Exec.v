(** * Exec: running the functions that [Cxx] reads.

    An interpreter for the statements of operand.h and helper.cpp.  The state
    is that of [Operand]: the context with its cursor, the current token and
    the opcode.  The methods of the context, of the opcode and of
    std::string_view, and the functions [equal], [find_in_table], [name],
    [info], [max_bits] and [fp32_to_fp16], are those of the model; everything
    else is run from its text.  [OutOfFuel] also stands for "the interpreter
    does not know what this means".

    The interpreter is written with continuations: something of type [M A]
    computes an [A] and is given what is to be done with it.  [x <- m;; k]
    goes on with [k] when [m] has an [x]; an error, an abort or undefined
    behaviour drops the continuation. *)
From Coq Require Import Ascii.
From Verif Require Source.
From Verif Require Import Base Float Lexer Operand Cxx.
Local Open Scope string_scope.
Local Open Scope list_scope.
Open Scope Z_scope.

Definition M (A : Type) : Type := (A -> res st) -> res st.
Definition ret {A} (x : A) : M A := fun k => k x.
(** One of the model's functions that do not return an [error]. *)
Definition lift {A} (m : res A) : M A := fun k =>
  match m with
  | Ok x => k x
  | Err _ => OutOfFuel
  | Fatal d => Fatal d
  | Abort w => Abort w
  | Undef u => Undef u
  | OutOfFuel => OutOfFuel
  end.
(** Not covered. *)
Definition stuck {A} : M A := fun _ => OutOfFuel.
Notation "x <- m ;; k" := (fun c => m (fun x => k c)) (at level 100, m at next level, right associativity).
Notation "' p <- m ;; k" := (fun c => m (fun p => k c)) (at level 100, p pattern, m at next level, right associativity).
Definition undefined {A} (u : ub) : M A := fun _ => Undef u.
(** The token's data, if it is what is asked for. *)
Definition active {A} (o : option A) : M A := fun k => match o with Some x => k x | None => Undef UB_inactive_union end.
(** Branches. *)
Definition test {A} (b : bool) (x y : M A) : M A := fun k => if b then x k else y k.

(** ** Values *)

(** Integers carry their type.  [VExact f] is a double that holds the float
    [f]; [VFloat] and [VDouble] are bit patterns.  [VView] is a string_view,
    [VPtr] what its data() returns.  [VFn] is an operand given as a template
    argument, [VFields] the unsigned numbers of a designated initializer, [VUnset] a variable that was never assigned. *)
Inductive val :=
| VZ (t : ity) (z : Z)
| VBool (b : bool)
| VOpt (t : ity) (o : option Z)
| VTable (l : list string) (ended : bool)
| VLit (s : string)
| VView (x : text)
| VPtr (x : text)
| VType (ty : ttype)
| VEnum (z : Z)
| VToken (t : token)
| VData (t : token)
| VPredicate (i : N) (n : bool)
| VExact (f : N)
| VFloat (w : N)
| VDouble (w : N)
| VFn (r : targ)
| VFields (l : list (string * Z))
| VUnset.

(** ** Integers *)

Definition width (t : ity) : Z :=
  match t with TBool => 1 | TU8 => 8 | TU16 | TI16 => 16 | TI32 | TU32 => 32 | TI64 | TU64 => 64 end.
Definition is_signed (t : ity) : bool := match t with TI16 | TI32 | TI64 => true | _ => false end.

Definition ity_eqb (a b : ity) : bool :=
  match a, b with
  | TBool, TBool | TU8, TU8 | TU16, TU16 | TI16, TI16 | TI32, TI32 | TU32, TU32 | TI64, TI64 | TU64, TU64 => true
  | _, _ => false
  end.

(** The value of the type that is equal modulo its range (C++20). *)
Definition wrap (t : ity) (z : Z) : Z :=
  let m := z mod 2 ^ width t in
  if is_signed t then (if m <? 2 ^ (width t - 1) then m else m - 2 ^ width t) else m.

Definition cast (from to : ity) (z : Z) : Z := if ity_eqb from to then z else wrap to z.

(** Outside the range of a signed type. *)
Definition over (t : ity) (z : Z) : bool := (z <? - 2 ^ (width t - 1)) || (2 ^ (width t - 1) - 1 <? z).

(** Integral promotion and the usual arithmetic conversions. *)
Definition promote (t : ity) : ity := match t with TBool | TU8 | TU16 | TI16 => TI32 | _ => t end.
Definition common (a b : ity) : ity :=
  match promote a, promote b with
  | TU64, _ | _, TU64 => TU64
  | TI64, _ | _, TI64 => TI64
  | TU32, _ | _, TU32 => TU32
  | _, _ => TI32
  end.

(** Numbers of the model. *)
Definition z_of (n : N) : Z := Z.of_N n.
Definition n_of (z : Z) : N := Z.to_N z.
Definition z_bit (b : bool) : Z := if b then 1 else 0.
Definition z_neg (x : Z) : Z := - x.

(** The operations on the common type. *)
Definition z_add (x y : Z) : Z := x + y.
Definition z_sub (x y : Z) : Z := x - y.
Definition z_rem (x y : Z) : Z := Z.rem x y.
Definition z_and (x y : Z) : Z := Z.land x y.
Definition z_or (x y : Z) : Z := Z.lor x y.
Definition z_eq (x y : Z) : bool := x =? y.
Definition z_lt (x y : Z) : bool := x <? y.
Definition z_shl (t : ity) (x a : Z) : Z := wrap t (x * 2 ^ a).
Definition z_shr (x a : Z) : Z := x / 2 ^ a.
Definition z_mask (a : Z) : Z := 2 ^ a - 1.
Definition z_not (t : ity) (x : Z) : Z := wrap t (- x - 1).
Definition z_nonzero (x : Z) : bool := negb (x =? 0).

(** A result that must fit a signed type and wraps in an unsigned one. *)
Definition computed (t : ity) (z : Z) : M val :=
  if is_signed t then test (over t z) (undefined UB_signed_overflow) (ret (VZ t z)) else ret (VZ t (wrap t z)).

Definition bad_shift (t : ity) (a : Z) : bool := (a <? 0) || (width t <=? a).

(** In a condition. *)
Definition truth (v : val) : M bool :=
  match v with
  | VBool b => ret b
  | VZ _ z => ret (z_nonzero z)
  | VOpt _ o => ret (match o with Some _ => true | None => false end)
  | _ => stuck
  end.

(** As an integer. *)
Definition integral (v : val) : option (ity * Z) :=
  match v with
  | VZ t z => Some (t, z)
  | VBool b => Some (TBool, z_bit b)
  | _ => None
  end.

Definition integer_op (op : string) (ta : ity) (x : Z) (tb : ity) (y : Z) : M val :=
  if String.eqb op "<<" then
    let t := promote ta in test (bad_shift t y) stuck (ret (VZ t (z_shl t (cast ta t x) y)))
  else if String.eqb op ">>" then
    let t := promote ta in test (bad_shift t y) stuck (ret (VZ t (z_shr (cast ta t x) y)))
  else
    let t := common ta tb in
    let x := cast ta t x in
    let y := cast tb t y in
    if String.eqb op "+" then computed t (z_add x y) else
    if String.eqb op "-" then computed t (z_sub x y) else
    if String.eqb op "%" then test (z_eq y 0) stuck (computed t (z_rem x y)) else
    if String.eqb op "&" then ret (VZ t (z_and x y)) else
    if String.eqb op "|" then ret (VZ t (z_or x y)) else
    if String.eqb op "==" then ret (VBool (z_eq x y)) else
    if String.eqb op "!=" then ret (VBool (negb (z_eq x y))) else
    if String.eqb op "<" then ret (VBool (z_lt x y)) else
    if String.eqb op ">" then ret (VBool (z_lt y x)) else
    if String.eqb op "<=" then ret (VBool (negb (z_lt y x))) else
    if String.eqb op ">=" then ret (VBool (negb (z_lt x y))) else stuck.

(** [==] and [!=] from equality. *)
Definition equality (op : string) (b : bool) : M val :=
  if String.eqb op "==" then ret (VBool b) else if String.eqb op "!=" then ret (VBool (negb b)) else stuck.

(** Floating-point numbers are only compared: an integer with a float, which
    converts it, and a floating-point number with 0. *)
Definition real_op (op : string) (a b : val) : M val :=
  match a, b with
  | VZ TI64 z, VFloat w => if String.eqb op "!=" then ret (VBool (f32_ne (f32_of_Z z) w)) else stuck
  | VDouble w, VZ TI32 0 => if String.eqb op "<" then ret (VBool (f64_lt0 w)) else stuck
  | VExact f, VZ TI32 0 => if String.eqb op "<" then ret (VBool (f32_lt0 f)) else stuck
  | _, _ => stuck
  end.

Definition binary_op (op : string) (a b : val) : M val :=
  match integral a, integral b with
  | Some (ta, x), Some (tb, y) => integer_op op ta x tb y
  | _, _ =>
      match a, b with
      | VType x, VType y => equality op (ttype_eqb x y)
      | VEnum x, VEnum y => equality op (z_eq x y)
      | VOpt t (Some x), VZ t' y => equality op (z_eq x (cast t' t y))
      | VOpt t None, VZ _ _ => equality op false
      | _, _ => real_op op a b
      end
  end.

Definition unary_op (op : string) (a : val) : M val :=
  if String.eqb op "!" then b <- truth a;; ret (VBool (negb b)) else
  if String.eqb op "-" then
    match a with
    | VZ t z => computed (promote t) (z_neg (cast t (promote t) z))
    | VFloat w => ret (VFloat (N.lxor w f32_sign))
    | _ => stuck
    end
  else if String.eqb op "~" then
    match a with VZ t z => ret (VZ (promote t) (z_not (promote t) (cast t (promote t) z))) | _ => stuck end
  else if String.eqb op "*" then
    match a with VOpt t (Some z) => ret (VZ t z) | _ => stuck end
  else stuck.

(** Initialization, assignment, static_cast, and passing an argument. *)
Definition convert (t : ctype) (v : val) : M val :=
  match t, v with
  | TAny, _ => ret v
  | TInteger TBool, _ => b <- truth v;; ret (VBool b)
  | TInteger t, VZ t' z => ret (VZ t (cast t' t z))
  | TInteger t, VBool b => ret (VZ t (z_bit b))
  | TInteger t, VEnum z => ret (VZ t (cast TI32 t z))
  | TOptional (Some t), VOpt t' o => ret (VOpt t (match o with Some z => Some (cast t' t z) | None => None end))
  | TOptional (Some t), VZ t' z => ret (VOpt t (Some (cast t' t z)))
  | TOptional None, VOpt _ _ => ret v
  | TEnum _, VEnum _ => ret v
  | TEnum _, VZ t z => ret (VEnum (cast t TI32 z))
  | TReal false, VExact f => ret (VFloat f)
  | TReal false, VFloat _ => ret v
  | TReal false, VZ TI64 z => ret (VFloat (f32_of_Z z))
  | TReal true, VExact f => ret (VDouble (f64_of_f32 f))
  | TReal true, VDouble _ => ret v
  | TReal true, VZ TI64 z => ret (VDouble (f64_of_Z z))
  | _, _ => stuck
  end.

(** ** Expressions *)

(** Variables with their types, newest first. *)
Definition frame := list (string * (ctype * val)).

Definition token_types : list (string * ttype) :=
  [("token_type::none", ty_none); ("token_type::identifier", ty_ident); ("token_type::regster", ty_reg);
   ("token_type::predicate", ty_pred); ("token_type::immediate", ty_imm); ("token_type::float_immediate", ty_float);
   ("token_type::plus", ty_plus); ("token_type::minus", ty_minus); ("token_type::tilde", ty_tilde);
   ("token_type::vbar", ty_vbar); ("token_type::bracket_left", ty_lbrack); ("token_type::bracket_right", ty_rbrack);
   ("token_type::at", ty_at); ("token_type::semicolon", ty_semi); ("token_type::comma", ty_comma)].

(** <cstdint> and opcode.h:6,18-20. *)
Definition constants : list (string * val) :=
  [("true", VBool true); ("false", VBool false);
   ("INT16_MIN", VZ TI32 (-32768)); ("INT16_MAX", VZ TI32 32767);
   ("UINT16_MAX", VZ TI32 65535); ("UINT32_MAX", VZ TU32 4294967295);
   ("ZERO_REGISTER", VZ TI32 255);
   ("reuse_flag::gpr8", VZ TU32 1); ("reuse_flag::gpr20", VZ TU32 2); ("reuse_flag::gpr39", VZ TU32 4)].

(** The members of the union (token.h:31-38), where they are active. *)
Definition immediate (k : tkind) : option Z := match k with TImm z => Some z | _ => None end.
Definition regster (k : tkind) : option N := match k with TReg r => Some r | _ => None end.
Definition predicate (k : tkind) : option (N * bool) := match k with TPred i n => Some (i, n) | _ => None end.
Definition float_immediate (k : tkind) : option N := match k with TFloat f => Some f | _ => None end.

(** Members of [token] and of the union in it: reading one that is not active
    is undefined. *)
Definition member (v : val) (m : string) : M val :=
  match v with
  | VToken t =>
      if String.eqb m "type" then ret (VType (type_of (kind t))) else
      if String.eqb m "data" then ret (VData t) else stuck
  | VData t =>
      if String.eqb m "immediate" then
        z <- active (immediate (kind t));; ret (VZ TI64 z)
      else if String.eqb m "regster" then
        r <- active (regster (kind t));; ret (VZ TU8 (z_of r))
      else if String.eqb m "predicate" then
        '(i, n) <- active (predicate (kind t));; ret (VPredicate i n)
      else if String.eqb m "float_immediate" then
        f <- active (float_immediate (kind t));; ret (VExact f)
      else if String.eqb m "string" then
        x <- active (if string_is_active (kind t) then Some (token_view (kind t)) else None);; ret (VView x)
      else stuck
  | VPredicate i n =>
      if String.eqb m "index" then ret (VZ TI32 (z_of i)) else
      if String.eqb m "negated" then ret (VZ TI32 (z_bit n)) else stuck
  | _ => stuck
  end.

Definition z_length (x : text) : Z := Z.of_nat (List.length x).

(** size() and data() of a string_view. *)
Definition view_size (v : val) : M val :=
  match v with VView x => ret (VZ TU64 (z_length x)) | _ => stuck end.
Definition view_data (v : val) : M val := match v with VView x => ret (VPtr x) | _ => stuck end.

(** An optional is empty or not. *)
Definition option_value (t : ity) (o : option Z) : M val :=
  fun k => match o with Some z => k (VOpt t (Some z)) | None => k (VOpt t None) end.

(** value_or, size and data. *)
Definition method (v : val) (m : string) (args : list val) : M val :=
  match args with
  | [] => if String.eqb m "size" then view_size v else if String.eqb m "data" then view_data v else stuck
  | [d] =>
      if String.eqb m "value_or" then
        match v with
        | VOpt t o =>
            d <- convert (TInteger t) d;;
            match o, d with
            | Some z, _ => ret (VZ t z)
            | None, _ => ret d
            end
        | _ => stuck
        end
      else stuck
  | _ => stuck
  end.

(** The functions that are not run from their text. *)
Definition builtin (f : string) (args : list val) : M val :=
  if String.eqb f "equal" then
    match args with [VToken t; VLit s] => ret (VBool (equal t s)) | _ => stuck end
  else if String.eqb f "find_in_table" then
    match args with
    | [VToken t; VTable l b; VLit p] =>
        o <- lift (find_in_table b l p t);;
        option_value TU64 (match o with Some i => Some (z_of i) | None => None end)
    | _ => stuck
    end
  else if String.eqb f "max_bits" then
    match args with [VZ t z] => test (bad_shift TU64 z) stuck (ret (VZ TU64 (z_mask z))) | _ => stuck end
  else if String.eqb f "name" then match args with [VType ty] => ret (VLit (type_name ty)) | _ => stuck end
  else if String.eqb f "info" then match args with [VToken t] => ret (VView (token_view (kind t))) | _ => stuck end
  else if String.eqb f "std::size" then match args with [v] => view_size v | _ => stuck end
  else if String.eqb f "std::data" then match args with [v] => view_data v | _ => stuck end
  else if String.eqb f "fp32_to_fp16" then
    match args with
    | [v] =>
        v <- convert (TReal false) v;;
        match v with VFloat w => ret (VZ TU16 (z_of (fp32_to_fp16 w))) | _ => stuck end
    | _ => stuck
    end
  else if String.eqb f "float::quiet_NaN" then ret (VFloat f32_qnan)
  else if String.eqb f "float::infinity" then ret (VFloat f32_inf)
  else if String.eqb f "double::quiet_NaN" then ret (VDouble f64_qnan)
  else if String.eqb f "double::infinity" then ret (VDouble f64_inf)
  else stuck.

Definition is_name (n : string) (a : expr) : bool := match a with EName x => String.eqb x n | _ => false end.

(** [enums] are the enumerators the file defines.  Both results of [?:] have
    the same type in these files. *)
Fixpoint eval (enums : list (string * N)) (e : env) (fr : frame) (s : st) (x : expr) : M val :=
  match x with
  | ENum t n => ret (VZ t (Z.of_N n))
  | EText t => ret (VLit t)
  | EName n =>
      if String.eqb n "token" then ret (VToken (s_tok s)) else
      match assoc fr n with
      | Some (_, VUnset) => stuck
      | Some (_, v) => ret v
      | None =>
          match assoc constants n with
          | Some v => ret v
          | None =>
              match assoc token_types n with
              | Some ty => ret (VType ty)
              | None => match assoc enums n with Some i => ret (VEnum (Z.of_N i)) | None => stuck end
              end
          end
      end
  | ECall f None args =>
      vs <- (fix all (l : list expr) : M (list val) :=
                 match l with
                 | [] => ret []
                 | a :: l' => v <- eval enums e fr s a;; vs <- all l';; ret (v :: vs)
                 end) args;;
      builtin f vs
  | ECall _ (Some _) _ => stuck
  | EMethod a m args =>
      if is_name "ctx" a then
        if String.eqb m "find_label" then
          match args with
          | [a] =>
              v <- eval enums e fr s a;;
              match v with VView x => option_value TI64 (find_label (e_labels e) x) | _ => stuck end
          | _ => stuck
          end
        else stuck
      else
        v <- eval enums e fr s a;;
        vs <- (fix all (l : list expr) : M (list val) :=
                 match l with
                 | [] => ret []
                 | a :: l' => v <- eval enums e fr s a;; vs <- all l';; ret (v :: vs)
                 end) args;;
        method v m vs
  | EMem a m =>
      if is_name "op" a then
        if String.eqb m "value" then ret (VZ TU64 (z_of (value (s_op s)))) else stuck
      else if is_name "ctx" a then
        if String.eqb m "pc" then ret (VZ TI64 (e_pc e)) else stuck
      else v <- eval enums e fr s a;; member v m
  | EUn op a => v <- eval enums e fr s a;; unary_op op v
  | EBin op a b =>
      if String.eqb op "&&" then
        v <- eval enums e fr s a;;
        t <- truth v;;
        test t (w <- eval enums e fr s b;; u <- truth w;; ret (VBool u)) (ret (VBool false))
      else if String.eqb op "||" then
        v <- eval enums e fr s a;;
        t <- truth v;;
        test t (ret (VBool true)) (w <- eval enums e fr s b;; u <- truth w;; ret (VBool u))
      else
        v <- eval enums e fr s a;;
        w <- eval enums e fr s b;;
        binary_op op v w
  | EIf c a b =>
      v <- eval enums e fr s c;;
      t <- truth v;;
      test t (eval enums e fr s a) (eval enums e fr s b)
  | ECast t a => v <- eval enums e fr s a;; convert t v
  | EFields l =>
      vs <- (fix all (l : list (string * expr)) : M (list (string * Z)) :=
               match l with
               | [] => ret []
               | (n, a) :: l' =>
                   v <- eval enums e fr s a;;
                   v <- convert (TInteger TU32) v;;
                   vs <- all l';;
                   match v with VZ _ z => ret ((n, z) :: vs) | _ => stuck end
               end) l;;
      ret (VFields vs)
  | EPointer _ | ENothing => stuck
  end.

(** ** Statements *)

Fixpoint assign (fr : frame) (x : string) (v : val) : M frame :=
  match fr with
  | [] => stuck
  | (y, (t, w)) :: fr' =>
      if String.eqb x y then v <- convert t v;; ret ((y, (t, v)) :: fr')
      else fr' <- assign fr' x v;; ret ((y, (t, w)) :: fr')
  end.

(** Leaving a block drops its variables. *)
Definition leave (outer inner : frame) : frame := skipn (List.length inner - List.length outer) inner.

(** How a statement ends. *)
Inductive flow := FNext | FBreak | FReturn.

(** An argument: one of the objects that every function shares, the address of
    a variable, or a value. *)
Inductive passed := PSelf (n : string) | PAddress (x : string) | PValue (v : val).

Definition shared (n : string) : bool := existsb (String.eqb n) ["ctx"; "token"; "op"].

(** Arguments of [fail] behind the format. *)
Definition format_arg (v : val) : M arg :=
  match v with
  | VZ TI32 z => ret (AInt z)
  | VZ TI64 z => ret (ALong z)
  | VZ TU64 z => ret (ASize (n_of z))
  | VLit s => ret (AStr (lit s))
  | VPtr x => ret (APtr x)
  | _ => stuck
  end.

(** Template arguments of a call may be template parameters of the caller. *)
Definition resolve (fr : frame) (t : targ) : targ :=
  match t with
  | ARef n None =>
      match assoc fr n with
      | Some (_, VZ _ z) => ANum (Z.to_N z)
      | Some (_, VBool b) => ATruth b
      | Some (_, VFn r) => r
      | _ => t
      end
  | _ => t
  end.

(** The function a call names: a template parameter, or a function. *)
Definition callee (fr : frame) (f : string) (ts : option (list targ)) : targ :=
  match assoc fr f with
  | Some (_, VFn r) => r
  | _ => ARef f (match ts with Some l => Some (map (resolve fr) l) | None => None end)
  end.

(** The word of bit-fields from the least significant on; each takes the low
    bits of what it is assigned, those not named are 0. *)
Fixpoint pack (layout : list (string * N)) (off : N) (vs : list (string * Z)) : N :=
  match layout with
  | [] => 0
  | (n, w) :: layout' =>
      N.lor (match assoc vs n with Some z => N.shiftl (n_of z mod 2 ^ w) off | None => 0 end) (pack layout' (off + w) vs)
  end.

Section exec.
(** The bit-fields of [op.sched.values]. *)
Variable layout : list (string * N).
Variable enums : list (string * N).
Variable e : env.
(** Run a function: the values its parameters end with, and the state. *)
Variable call : bool -> targ -> list passed -> st -> M (list val * st).

Definition pass (fr : frame) (s : st) (a : expr) : M passed :=
  match a with
  | EName n => if shared n then ret (PSelf n) else v <- eval enums e fr s a;; ret (PValue v)
  | EUn op (EName x) => if String.eqb op "&" then ret (PAddress x) else v <- eval enums e fr s a;; ret (PValue v)
  | EPointer (EUn _ (EName x)) => ret (PAddress x)
  | _ => v <- eval enums e fr s a;; ret (PValue v)
  end.

Fixpoint pass_all (fr : frame) (s : st) (l : list expr) : M (list passed) :=
  match l with
  | [] => ret []
  | a :: l' => p <- pass fr s a;; ps <- pass_all fr s l';; ret (p :: ps)
  end.

(** What the function left in the variables whose addresses it was given. *)
Fixpoint copy_back (fr : frame) (ps : list passed) (vs : list val) : M frame :=
  match ps, vs with
  | PAddress x :: ps', v :: vs' => fr <- assign fr x v;; copy_back fr ps' vs'
  | _ :: ps', _ :: vs' => copy_back fr ps' vs'
  | _, _ => ret fr
  end.

(** A call of a function that returns [error]; a set error is [Err].  Where
    the result is ignored ([ign]), the state behind an error is not known. *)
Definition invoke (ign : bool) (fr : frame) (s : st) (x : expr) : M (frame * st) :=
  match x with
  | ECall f ts args =>
      if String.eqb f "fail" then
        match args with
        | t :: m :: l =>
            t <- eval enums e fr s t;;
            m <- eval enums e fr s m;;
            vs <- (fix all (l : list expr) : M (list arg) :=
                     match l with
                     | [] => ret []
                     | a :: l' => v <- eval enums e fr s a;; v <- format_arg v;; vs <- all l';; ret (v :: vs)
                     end) l;;
            match t, m with
            | VToken t, VLit m => if ign then stuck else (fun _ => fail t (Message m vs))
            | _, _ => stuck
            end
        | _ => stuck
        end
      else
        ps <- pass_all fr s args;;
        '(vs, s) <- call ign (callee fr f ts) ps s;;
        fr <- copy_back fr ps vs;;
        ret (fr, s)
  | ENothing => ret (fr, s)
  | _ => stuck
  end.

(** The statements behind the label a switch goes to. *)
Fixpoint find_case (fr : frame) (s : st) (v : val) (l : list stmt) : M (option (list stmt)) :=
  match l with
  | [] => ret None
  | SCase c :: l' =>
      w <- eval enums e fr s c;;
      b <- binary_op "==" v w;;
      b <- truth b;;
      test b (ret (Some l')) (find_case fr s v l')
  | _ :: l' => find_case fr s v l'
  end.

Fixpoint find_default (l : list stmt) : list stmt :=
  match l with
  | [] => []
  | SDefault :: l' => l'
  | _ :: l' => find_default l'
  end.

(** Assigning to a variable (or what it points to), the token or the opcode. *)
Definition store (fr : frame) (s : st) (lhs : expr) (v : val) : M (frame * st) :=
  match lhs with
  | EName x => fr <- assign fr x v;; ret (fr, s)
  | EUn _ (EName x) => fr <- assign fr x v;; ret (fr, s)
  | EMem (EName o) m =>
      if String.eqb o "op" then
        if String.eqb m "value" then
          v <- convert (TInteger TU64) v;;
          match v with VZ _ z => ret (fr, set_value (n_of z) s) | _ => stuck end
        else stuck
      else stuck
  | EMem (EMem (EName o) m) f =>
      if Source.same_path [o; m; f] ["op"; "sched"; "values"] then
        match v with
        | VFields l => ret (fr, St (s_cur s) (s_tok s) (Opcode (value (s_op s)) (reuse (s_op s)) (pack layout 0 l)))
        | _ => stuck
        end
      else stuck
  | _ => stuck
  end.

(** Statements that are an expression; the [error] of a call is ignored. *)
Definition effect (fr : frame) (s : st) (x : expr) : M (frame * st) :=
  match x with
  | EMethod (EName o) m [a] =>
      if String.eqb o "op" then
        v <- eval enums e fr s a;;
        if String.eqb m "add_bits" then
          v <- convert (TInteger TU64) v;;
          match v with
          | VZ _ z => s <- lift (put e (n_of z) s);; ret (fr, s)
          | _ => stuck
          end
        else if String.eqb m "add_reuse" then
          match v with
          | VZ _ z =>
              op <- lift (add_reuse (e_asserts e) (s_op s) (n_of z));;
              ret (fr, St (s_cur s) (s_tok s) op)
          | _ => stuck
          end
        else stuck
      else stuck
  | ECall f ts args =>
      if String.eqb f "std::memcpy" then
        match args with
        | [EUn _ (EName d); EUn _ a; _] =>
            v <- eval enums e fr s a;;
            match v with
            | VFloat w => fr <- assign fr d (VZ TU32 (z_of w));; ret (fr, s)
            | VDouble w => fr <- assign fr d (VZ TU64 (z_of w));; ret (fr, s)
            | _ => stuck
            end
        | _ => stuck
        end
      else if String.eqb f "assert" then
        match args with
        | [EBin _ c (EText m)] =>
            v <- eval enums e fr s c;;
            b <- truth v;;
            test b (ret (fr, s)) (test (e_asserts e) (fun _ => Abort m) (ret (fr, s)))
        | _ => stuck
        end
      else
        invoke true fr s x
  | _ => stuck
  end.

Definition is_tokenize (x : expr) : bool :=
  match x with
  | EMethod (EName o) m [] => if String.eqb o "ctx" then String.eqb m "tokenize" else false
  | _ => false
  end.

Fixpoint exec (ign : bool) (fuel : nat) (l : list stmt) (fr : frame) (s : st) : M (flow * frame * st) :=
  match fuel with
  | O => stuck
  | S fuel =>
      match l with
      | [] => ret (FNext, fr, s)
      | x :: l' =>
          match x with
          | SDecl t n None =>
              exec ign fuel l' ((n, (t, match t with TOptional (Some t) => VOpt t None | _ => VUnset end)) :: fr) s
          | SDecl t n (Some a) =>
              v <- eval enums e fr s a;;
              v <- convert t v;;
              exec ign fuel l' ((n, (t, v)) :: fr) s
          | STable n strings b => exec ign fuel l' ((n, (TAny, VTable strings b)) :: fr) s
          | SAssign lhs op a =>
              if is_tokenize a then
                match lhs with
                | EName n => if String.eqb n "token" then s <- lift (advance_tok s);; exec ign fuel l' fr s else stuck
                | _ => stuck
                end
              else
                v <- eval enums e fr s (if String.eqb op "" then a else EBin op lhs a);;
                '(fr, s) <- store fr s lhs v;;
                exec ign fuel l' fr s
          | SExpr a => '(fr, s) <- effect fr s a;; exec ign fuel l' fr s
          | SIf c a b =>
              v <- eval enums e fr s c;;
              t <- truth v;;
              '(k, fr', s) <- test t (exec ign fuel a fr s) (exec ign fuel b fr s);;
              match k with FNext => exec ign fuel l' (leave fr fr') s | _ => ret (k, leave fr fr', s) end
          | SWhile c a =>
              v <- eval enums e fr s c;;
              t <- truth v;;
              test t
                ('(k, fr', s) <- exec ign fuel a fr s;;
                 match k with
                 | FNext => exec ign fuel l (leave fr fr') s
                 | FBreak => exec ign fuel l' (leave fr fr') s
                 | FReturn => ret (k, leave fr fr', s)
                 end)
                (exec ign fuel l' fr s)
          | SBlock a =>
              '(k, fr', s) <- exec ign fuel a fr s;;
              match k with FNext => exec ign fuel l' (leave fr fr') s | _ => ret (k, leave fr fr', s) end
          | SSwitch a items =>
              v <- eval enums e fr s a;;
              o <- find_case fr s v items;;
              '(k, fr', s) <- exec ign fuel (match o with Some l => l | None => find_default items end) fr s;;
              match k with
              | FReturn => ret (k, leave fr fr', s)
              | _ => exec ign fuel l' (leave fr fr') s
              end
          | SCheck a => '(fr, s) <- invoke ign fr s a;; exec ign fuel l' fr s
          | SReturn a => '(fr, s) <- invoke ign fr s a;; ret (FReturn, fr, s)
          | SBreak => ret (FBreak, fr, s)
          | SCase _ | SDefault | SFall => exec ign fuel l' fr s
          end
      end
  end.
End exec.

(** ** Functions *)

(** A name with template arguments means the template, one without the plain
    function, or else the template with all its defaults. *)
Fixpoint find_fn (template : bool) (fs : list fn) (n : string) : option fn :=
  match fs with
  | [] => None
  | f :: fs' =>
      if String.eqb (f_name f) n then
        if Bool.eqb template (match f_template f with Some _ => true | None => false end) then Some f
        else find_fn template fs' n
      else find_fn template fs' n
  end.

Definition named_fn (fs : list fn) (n : string) (ts : option (list targ)) : option fn :=
  match ts with
  | Some _ => find_fn true fs n
  | None => match find_fn false fs n with Some f => Some f | None => find_fn true fs n end
  end.

Definition targ_value (t : targ) : ctype * val :=
  match t with
  | ANum n => (TInteger TI32, VZ TI32 (Z.of_N n))
  | ATruth b => (TInteger TBool, VBool b)
  | ARef _ _ => (TAny, VFn t)
  end.

Fixpoint template_frame (ps : list (string * option targ)) (ts : list targ) : option frame :=
  match ps, ts with
  | [], [] => Some []
  | (n, _) :: ps', t :: ts' => match template_frame ps' ts' with Some fr => Some ((n, targ_value t) :: fr) | None => None end
  | (n, Some t) :: ps', [] => match template_frame ps' [] with Some fr => Some ((n, targ_value t) :: fr) | None => None end
  | _, _ => None
  end.

(** A parameter that is one of the shared objects must be given that object. *)
Fixpoint bind_args (ps : list (string * ctype)) (args : list passed) (fr : frame) : M frame :=
  match ps, args with
  | [], [] => ret fr
  | (n, t) :: ps', a :: args' =>
      match a with
      | PSelf m => if String.eqb n m then bind_args ps' args' fr else stuck
      | PAddress _ => fr <- bind_args ps' args' fr;; ret ((n, (t, VUnset)) :: fr)
      | PValue v => v <- convert t v;; fr <- bind_args ps' args' fr;; ret ((n, (t, v)) :: fr)
      end
  | _, _ => stuck
  end.

Fixpoint call_fn (fuel : nat) (layout : list (string * N)) (depth : nat) (fs : list fn) (enums : list (string * N)) (e : env)
    (ign : bool) (r : targ) (args : list passed) (s : st) : M (list val * st) :=
  match depth with
  | O => stuck
  | S depth =>
      match r with
      | ARef n ts =>
          match named_fn fs n ts with
          | Some f =>
              match f_body f, template_frame (match f_template f with Some ps => ps | None => [] end)
                                             (match ts with Some l => l | None => [] end) with
              | Some body, Some fr =>
                  fr <- bind_args (f_params f) args fr;;
                  '(k, fr', s) <- exec layout enums e (call_fn fuel layout depth fs enums e) ign fuel body fr s;;
                  match k with
                  | FReturn =>
                      ret (map (fun p => match assoc fr' (fst p) with Some (_, v) => v | None => VUnset end)
                              (f_params f), s)
                  | _ => stuck
                  end
              | _, _ => stuck
              end
          | None => stuck
          end
      | _ => stuck
      end
  end.

(** Run an operand that a line of the table names. *)
Definition run_ref (fs : list fn) (enums : list (string * N)) (e : env) (r : targ) (s : st) : res st :=
  call_fn 200 [] 10 fs enums e false r [PSelf "ctx"; PSelf "token"; PSelf "op"] s (fun p => Ok (snd p)).

(** Run another function, with the bit-fields of opcode.h. *)
Definition run_fn (fuel : nat) (layout : list (string * N)) (fs : list fn) (enums : list (string * N)) (e : env)
    (f : string) (args : list passed) (s : st) : res st :=
  call_fn fuel layout 10 fs enums e false (ARef f None) args s (fun p => Ok (snd p)).
