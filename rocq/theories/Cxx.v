(** * Cxx: reading functions of the C++ sources from their text.

    A lexer, the function-like macros of the preprocessor, and a parser for the
    statements and expressions that operand.h, helper.cpp and parts of parse.cpp are written in.
    The result is the syntax tree of every function returning [error].  Words
    the parser does not know make it fail; it never guesses.  This is separate
    from [Source], which only reads the data of the two headers. *)
From Coq Require Import Ascii.
From Verif Require Import Base Lexer Source.
Local Open Scope string_scope.
Local Open Scope list_scope.
Open Scope N_scope.

(** ** Words *)

(** The integer types. *)
Inductive ity := TBool | TU8 | TU16 | TI16 | TI32 | TU32 | TI64 | TU64.

(** Names (with their :: inside), integer literals with their type, string
    literals, and everything else. *)
Inductive cword :=
| CName (s : string)
| CNum (t : ity) (n : N)
| CText (s : string)
| CSym (s : string).

(** The type of a literal: by its suffix, else the first that holds it. *)
Definition has_char (c : ascii) (s : list ascii) : bool := existsb (Ascii.eqb c) s.
Definition number_type (s : list ascii) (n : N) : ity :=
  if has_char "U" s then (if has_char "L" s then TU64 else TU32) else
  if has_char "L" s then TI64 else
  if N.ltb n 0x80000000 then TI32 else TI64.

(** A finished run of letters and digits, last first. *)
Definition run_word (w : list ascii) : list cword :=
  match rev w with
  | [] => []
  | c :: s =>
      if is_digit c then
        let n := match s with
                 | x :: s' => if Ascii.eqb x "x" then number 16 0 s' else
                              if Ascii.eqb x "b" then number 2 0 s' else number 10 0 (c :: s)
                 | [] => number 10 0 [c]
                 end in
        [CNum (number_type (c :: s) n) n]
      else [CName (string_of (c :: s))]
  end.

(** Escapes of a string literal: octal numbers, and a character for itself. *)
Definition octal (c : ascii) : option N := if char_within "0" "7" c then Some (N_of_ascii c - 48) else None.
Fixpoint unescape (s : list ascii) : list ascii :=
  match s with
  | "\"%char :: c :: s' =>
      match octal c with
      | Some a =>
          match s' with
          | d :: s'' => match octal d with
                        | Some b => ascii_of_N (a * 8 + b) :: unescape s''
                        | None => ascii_of_N a :: unescape s'
                        end
          | [] => [ascii_of_N a]
          end
      | None => (if Ascii.eqb c "n" then ascii_of_N 10 else c) :: unescape s'
      end
  | c :: s' => c :: unescape s'
  | [] => []
  end.

(** Operators of two characters; the rest have one. *)
Definition two_chars : list string :=
  ["<<"; ">>"; "<="; ">="; "=="; "!="; "&&"; "||"; "++"; "-="; "+="; "&="; "|="; "[["; "]]"; "##"].

Definition pair_of (a b : ascii) : string := String a (String b EmptyString).

(** Inside a word, a string literal, or behind a backslash in one. *)
Fixpoint lex (m : within) (s : string) : list cword :=
  match s with
  | EmptyString => match m with Word w => run_word w | _ => [] end
  | String c s' =>
      match m with
      | Quoted w =>
          if Ascii.eqb c """" then CText (string_of (unescape (rev w))) :: lex (Word []) s' else
          if Ascii.eqb c "\" then lex (Escaped (c :: w)) s' else lex (Quoted (c :: w)) s'
      | Escaped w => lex (Quoted (c :: w)) s'
      | Word w =>
          if (if is_letter c then true else is_digit c) then lex (Word (c :: w)) s' else
          if Ascii.eqb c " " then run_word w ++ lex (Word []) s' else
          if Ascii.eqb c """" then run_word w ++ lex (Quoted []) s' else
          match s' with
          | EmptyString => run_word w ++ [CSym (String c EmptyString)]
          | String d s'' =>
              if String.eqb (pair_of c d) "//" then run_word w else
              if String.eqb (pair_of c d) "::" then lex (Word (d :: c :: w)) s'' else
              if existsb (String.eqb (pair_of c d)) two_chars
              then run_word w ++ CSym (pair_of c d) :: lex (Word []) s''
              else run_word w ++ CSym (String c EmptyString) :: lex (Word []) s'
          end
      end
  end.

(** ** The preprocessor *)

(** [#define name(params) body]; [...] is kept as the parameter __VA_ARGS__. *)
Record macro := Macro { mc_name : string; mc_params : list string; mc_body : list cword }.

Definition is_sym (s : string) (w : cword) : bool := match w with CSym x => String.eqb x s | _ => false end.

Fixpoint last_word (ws : list cword) : option cword :=
  match ws with [] => None | [w] => Some w | _ :: ws' => last_word ws' end.
Definition goes_on (ws : list cword) : bool :=
  match last_word ws with Some w => is_sym "\" w | None => false end.
Definition no_backslash (ws : list cword) : list cword := filter (fun w => negb (is_sym "\" w)) ws.

(** Split a file into directives (with the lines they are continued on) and
    the words of all other lines. *)
Fixpoint directives (open : option (list cword)) (ls : list (list cword)) : list (list cword) * list cword :=
  match ls with
  | [] => (match open with Some d => [d] | None => [] end, [])
  | l :: ls' =>
      match open with
      | Some d =>
          if goes_on l then directives (Some (d ++ no_backslash l)) ls'
          else let (ds, ws) := directives None ls' in ((d ++ l) :: ds, ws)
      | None =>
          match l with
          | CSym s :: _ =>
              if String.eqb s "#" then
                if goes_on l then directives (Some (no_backslash l)) ls'
                else let (ds, ws) := directives None ls' in (l :: ds, ws)
              else let (ds, ws) := directives None ls' in (ds, l ++ ws)
          | _ => let (ds, ws) := directives None ls' in (ds, l ++ ws)
          end
      end
  end.

(** The words up to the bracket that closes [depth] open ones. *)
Fixpoint until (o c : string) (depth : nat) (ws : list cword) : option (list cword * list cword) :=
  match ws with
  | [] => None
  | w :: ws' =>
      let go d := match until o c d ws' with Some (a, b) => Some (w :: a, b) | None => None end in
      if is_sym o w then go (S depth) else
      if is_sym c w then match depth with O => Some ([], ws') | S d => go d end else go depth
  end.

(** Split at the commas outside brackets. *)
Fixpoint by_commas (depth : nat) (ws : list cword) : list (list cword) :=
  match ws with
  | [] => [[]]
  | w :: ws' =>
      let put d := match by_commas d ws' with [] => [[w]] | a :: r => (w :: a) :: r end in
      if (if is_sym "(" w then true else is_sym "{" w) then put (S depth) else
      if (if is_sym ")" w then true else is_sym "}" w) then put (pred depth) else
      if is_sym "," w then match depth with O => [] :: by_commas O ws' | _ => put depth end else put depth
  end.

Definition param_name (ws : list cword) : string :=
  match ws with [CName s] => s | _ => "__VA_ARGS__" end.

Definition define (d : list cword) : option macro :=
  match d with
  | CSym _ :: CName k :: CName n :: CSym p :: r =>
      if String.eqb k "define" then
        if String.eqb p "(" then
          match until "(" ")" O r with
          | Some (ps, body) => Some (Macro n (map param_name (by_commas O ps)) body)
          | None => None
          end
        else None
      else None
  | _ => None
  end.

Fixpoint defines (ds : list (list cword)) : list macro :=
  match ds with
  | [] => []
  | d :: ds' => match define d with Some m => m :: defines ds' | None => defines ds' end
  end.

Fixpoint find_macro (ms : list macro) (n : string) : option macro :=
  match ms with
  | [] => None
  | m :: ms' => if String.eqb (mc_name m) n then Some m else find_macro ms' n
  end.

(** Parameters and what they stand for; the last takes all that is left when
    it is __VA_ARGS__. *)
Fixpoint with_commas (l : list (list cword)) : list cword :=
  match l with [] => [] | [a] => a | a :: l' => a ++ CSym "," :: with_commas l' end.

Fixpoint macro_args (ps : list string) (args : list (list cword)) : list (string * list cword) :=
  match ps with
  | [] => []
  | p :: ps' =>
      if String.eqb p "__VA_ARGS__" then [(p, with_commas args)] else
      match args with
      | a :: args' => (p, a) :: macro_args ps' args'
      | [] => []
      end
  end.

Fixpoint assoc {A} (l : list (string * A)) (n : string) : option A :=
  match l with
  | [] => None
  | (x, a) :: l' => if String.eqb x n then Some a else assoc l' n
  end.

Fixpoint replace_words (e : list (string * list cword)) (ws : list cword) : list cword :=
  match ws with
  | [] => []
  | CName n :: ws' =>
      match assoc e n with Some a => a ++ replace_words e ws' | None => CName n :: replace_words e ws' end
  | w :: ws' => w :: replace_words e ws'
  end.

(** Replace macro calls, and look again at what replaced them. *)
Fixpoint expand (fuel : nat) (ms : list macro) (ws : list cword) : option (list cword) :=
  match fuel with
  | O => None
  | S fuel =>
      match ws with
      | [] => Some []
      | w :: ws' =>
          let keep := match expand fuel ms ws' with Some r => Some (w :: r) | None => None end in
          match w, ws' with
          | CName n, CSym p :: r =>
              if String.eqb p "(" then
                match find_macro ms n with
                | Some m =>
                    match until "(" ")" O r with
                    | Some (a, r') => expand fuel ms (replace_words (macro_args (mc_params m) (by_commas O a)) (mc_body m) ++ r')
                    | None => None
                    end
                | None => keep
                end
              else keep
          | _, _ => keep
          end
      end
  end.

(** ** Syntax trees *)

(** A template argument: a number, true or false, or the name of a function
    (or parameter) with arguments of its own. *)
Inductive targ :=
| ANum (n : N)
| ATruth (b : bool)
| ARef (f : string) (ts : option (list targ)).

(** Types of variables; [TAny] is deduced. *)
Inductive ctype :=
| TInteger (t : ity)
| TOptional (t : option ity)
| TReal (double : bool)
| TAny
| TEnum (n : string).

Inductive expr :=
| ENum (t : ity) (n : N)
| EText (s : string)
| EName (s : string)
| ECall (f : string) (ts : option (list targ)) (args : list expr)
| EMethod (e : expr) (m : string) (args : list expr)
| EMem (e : expr) (m : string)
| EUn (op : string) (e : expr)
| EBin (op : string) (a b : expr)
| EIf (c a b : expr)
| ECast (t : ctype) (e : expr)
| EPointer (e : expr)
| EFields (l : list (string * expr))
| ENothing.

(** [SIf] is also [if constexpr]; [SCheck] is CHECK and the same written out;
    the parts of a switch are labels and statements in the order of the text. *)
Inductive stmt :=
| SDecl (t : ctype) (x : string) (init : option expr)
| STable (x : string) (l : list string) (ended : bool)
| SAssign (lhs : expr) (op : string) (e : expr)
| SExpr (e : expr)
| SIf (c : expr) (a b : list stmt)
| SWhile (c : expr) (l : list stmt)
| SCheck (e : expr)
| SReturn (e : expr)
| SSwitch (e : expr) (l : list stmt)
| SCase (e : expr)
| SDefault
| SBlock (l : list stmt)
| SBreak
| SFall.

(** ** Expressions *)

(** A list of template arguments with its closing bracket. *)
Fixpoint targs (fuel : nat) (ws : list cword) : option (list targ * list cword) :=
  match fuel with
  | O => None
  | S fuel =>
      let rest a r :=
        match r with
        | CSym s :: r' =>
            if String.eqb s "," then
              match targs fuel r' with Some (l, r'') => Some (a :: l, r'') | None => None end
            else if String.eqb s ">" then Some ([a], r') 
            else if String.eqb s ">>" then Some ([a], CSym ">" :: r')
            else None
        | _ => None
        end in
      match ws with
      | CNum _ n :: r => rest (ANum n) r
      | CName n :: r =>
          if String.eqb n "true" then rest (ATruth true) r else
          if String.eqb n "false" then rest (ATruth false) r else
          match r with
          | CSym s :: r' =>
              if String.eqb s "<" then
                match targs fuel r' with Some (l, r'') => rest (ARef n (Some l)) r'' | None => None end
              else rest (ARef n None) r
          | _ => None
          end
      | _ => None
      end
  end.

Definition integer_types : list (string * ity) :=
  [("bool", TBool); ("uint8_t", TU8); ("uint16_t", TU16); ("int16_t", TI16); ("int", TI32); ("uint32_t", TU32);
   ("unsigned", TU32); ("int64_t", TI64); ("uint64_t", TU64); ("size_t", TU64)].

(** [(int)], without its first bracket. *)
Definition old_cast (ws : list cword) : option (ity * list cword) :=
  match ws with
  | CName n :: CSym c :: r =>
      if String.eqb c ")" then match assoc integer_types n with Some t => Some (t, r) | None => None end else None
  | _ => None
  end.

Definition enum_names : list string := ["Lod"].

(** A type and the words behind it. *)
Definition type_at (ws : list cword) : option (ctype * list cword) :=
  match ws with
  | CName n :: r =>
      match assoc integer_types n with
      | Some t => Some (TInteger t, r)
      | None =>
          if String.eqb n "std::optional" then
            match r with
            | CSym a :: CName k :: CSym b :: r' =>
                if String.eqb a "<" then
                  if String.eqb b ">" then
                    match assoc integer_types k with Some t => Some (TOptional (Some t), r') | None => None end
                  else None
                else None
            | _ => Some (TOptional None, r)
            end
          else if String.eqb n "float" then Some (TReal false, r)
          else if String.eqb n "double" then Some (TReal true, r)
          else if String.eqb n "std::string_view" then Some (TAny, r)
          else if existsb (String.eqb n) enum_names then Some (TEnum n, r)
          else None
      end
  | _ => None
  end.

(** Binary operators, loosest first. *)
Definition levels : list (list string) :=
  [["||"]; ["&&"]; ["|"]; ["^"]; ["&"]; ["=="; "!="]; ["<"; ">"; "<="; ">="]; ["<<"; ">>"]; ["+"; "-"]; ["*"; "/"; "%"]].

(** String literals in a row; PRId64 is "ld" on the supported targets. *)
Fixpoint texts (ws : list cword) : string * list cword :=
  match ws with
  | CText s :: r => let (t, r') := texts r in ((s ++ t)%string, r')
  | CName n :: ((CText _ :: _) as r) =>
      if String.eqb n "PRId64" then let (t, r') := texts r in (("ld" ++ t)%string, r') else (EmptyString, ws)
  | _ => (EmptyString, ws)
  end.

(** The word that must come next. *)
Definition eat (s : string) (ws : list cword) : option (list cword) :=
  match ws with w :: r => if is_sym s w then Some r else None | [] => None end.

Fixpoint expression (fuel : nat) (ws : list cword) : option (expr * list cword) :=
  match fuel with
  | O => None
  | S fuel =>
      match binary fuel levels ws with
      | Some (c, r) =>
          match eat "?" r with
          | Some r1 =>
              match expression fuel r1 with
              | Some (a, r2) =>
                  match eat ":" r2 with
                  | Some r3 => match expression fuel r3 with Some (b, r4) => Some (EIf c a b, r4) | None => None end
                  | None => None
                  end
              | None => None
              end
          | None => Some (c, r)
          end
      | None => None
      end
  end
with binary (fuel : nat) (ls : list (list string)) (ws : list cword) : option (expr * list cword) :=
  match fuel with
  | O => None
  | S fuel =>
      match ls with
      | [] => unary fuel ws
      | ops :: ls' => match binary fuel ls' ws with Some (a, r) => more fuel ops ls' a r | None => None end
      end
  end
with more (fuel : nat) (ops : list string) (ls : list (list string)) (a : expr) (ws : list cword)
    : option (expr * list cword) :=
  match fuel with
  | O => None
  | S fuel =>
      match ws with
      | CSym s :: r =>
          if existsb (String.eqb s) ops then
            match binary fuel ls r with Some (b, r') => more fuel ops ls (EBin s a b) r' | None => None end
          else Some (a, ws)
      | _ => Some (a, ws)
      end
  end
with unary (fuel : nat) (ws : list cword) : option (expr * list cword) :=
  match fuel with
  | O => None
  | S fuel =>
      match ws with
      | CSym s :: r =>
          if existsb (String.eqb s) ["!"; "-"; "~"; "*"; "&"] then
            match unary fuel r with Some (a, r') => Some (EUn s a, r') | None => None end
          else if String.eqb s "(" then
            match old_cast r with
            | Some (t, r') => match unary fuel r' with Some (a, r'') => Some (ECast (TInteger t) a, r'') | None => None end
            | None =>
                match expression fuel r with
                | Some (a, r') => match eat ")" r' with Some r'' => postfix fuel a r'' | None => None end
                | None => None
                end
            end
          else if String.eqb s "{" then
            match eat "}" r with
            | Some r' => Some (ENothing, r')
            | None => match fields fuel r with Some (l, r') => Some (EFields l, r') | None => None end
            end
          else None
      | CNum t n :: r => Some (ENum t n, r)
      | CText _ :: _ => let (s, r) := texts ws in Some (EText s, r)
      | CName n :: r =>
          if (if String.eqb n "static_cast" then true else String.eqb n "reinterpret_cast") then
            match eat "<" r with
            | Some r1 =>
                match type_at r1 with
                | Some (t, r2) =>
                    let to f r3 :=
                      match eat ">" r3 with
                      | Some r4 =>
                          match eat "(" r4 with
                          | Some r5 =>
                              match expression fuel r5 with
                              | Some (a, r6) => match eat ")" r6 with Some r7 => Some (f a, r7) | None => None end
                              | None => None
                              end
                          | None => None
                          end
                      | None => None
                      end in
                    match eat "*" r2 with Some r3 => to EPointer r3 | None => to (ECast t) r2 end
                | None => None
                end
            | None => None
            end
          else if String.eqb n "std::numeric_limits" then
            match r with
            | CSym a :: CName t :: CSym b :: CName m :: CSym o :: CSym c :: r1 =>
                if same_path [a; b; o; c] ["<"; ">"; "("; ")"] then Some (ECall (t ++ m) None [], r1) else None
            | _ => None
            end
          else
            match assoc integer_types n with
            | Some t =>
                match r with
                | CSym o :: r1 =>
                    match expression fuel r1 with
                    | Some (a, r2) =>
                        match eat (if String.eqb o "{" then "}" else ")") r2 with
                        | Some r3 => Some (ECast (TInteger t) a, r3)
                        | None => None
                        end
                    | None => None
                    end
                | _ => None
                end
            | None =>
                match eat "(" r with
                | Some r1 => match args fuel r1 with Some (l, r2) => postfix fuel (ECall n None l) r2 | None => None end
                | None =>
                    match eat "<" r with
                    | Some r1 =>
                        match targs fuel r1 with
                        | Some (ts, r2) =>
                            match eat "(" r2 with
                            | Some r3 =>
                                match args fuel r3 with
                                | Some (l, r4) => postfix fuel (ECall n (Some ts) l) r4
                                | None => None
                                end
                            | None => postfix fuel (EName n) r
                            end
                        | None => postfix fuel (EName n) r
                        end
                    | None => postfix fuel (EName n) r
                    end
                end
            end
      | [] => None
      end
  end
with postfix (fuel : nat) (a : expr) (ws : list cword) : option (expr * list cword) :=
  match fuel with
  | O => None
  | S fuel =>
      match ws with
      | CSym s :: CName m :: r =>
          if String.eqb s "." then
            match eat "(" r with
            | Some r1 => match args fuel r1 with Some (l, r2) => postfix fuel (EMethod a m l) r2 | None => None end
            | None => postfix fuel (EMem a m) r
            end
          else Some (a, ws)
      | _ => Some (a, ws)
      end
  end
with fields (fuel : nat) (ws : list cword) : option (list (string * expr) * list cword) :=
  match fuel with
  | O => None
  | S fuel =>
      match ws with
      | CSym d :: CName n :: CSym q :: r =>
          if same_path [d; q] ["."; "="] then
            match expression fuel r with
            | Some (a, r1) =>
                match eat "," r1 with
                | Some r2 =>
                    match eat "}" r2 with
                    | Some r3 => Some ([(n, a)], r3)
                    | None => match fields fuel r2 with Some (l, r3) => Some ((n, a) :: l, r3) | None => None end
                    end
                | None => match eat "}" r1 with Some r2 => Some ([(n, a)], r2) | None => None end
                end
            | None => None
            end
          else None
      | _ => None
      end
  end
with args (fuel : nat) (ws : list cword) : option (list expr * list cword) :=
  match fuel with
  | O => None
  | S fuel =>
      match eat ")" ws with
      | Some r => Some ([], r)
      | None =>
          match expression fuel ws with
          | Some (a, r) =>
              match eat ")" r with
              | Some r' => Some ([a], r')
              | None =>
                  match eat "," r with
                  | Some r' => match args fuel r' with Some (l, r'') => Some (a :: l, r'') | None => None end
                  | None => None
                  end
              end
          | None => None
          end
      end
  end.

(** ** Statements *)

(** The strings of a table up to its closing brace, and whether a nullptr ends
    them. *)
Fixpoint table_strings (ws : list cword) : option (list string * bool * list cword) :=
  match ws with
  | CText s :: CSym c :: r =>
      if String.eqb c "," then
        match table_strings r with Some (l, b, r') => Some (s :: l, b, r') | None => None end
      else if String.eqb c "}" then Some ([s], false, r) else None
  | CName n :: r =>
      if String.eqb n "nullptr" then
        match r with
        | CSym c :: r' =>
            if String.eqb c "}" then Some ([], true, r') else
            match eat "}" r' with Some r'' => Some ([], true, r'') | None => None end
        | _ => None
        end
      else None
  | CSym c :: r => if String.eqb c "}" then Some ([], false, r) else None
  | _ => None
  end.

Definition qualifiers : list string := ["static"; "const"; "constexpr"; "struct"].
Definition is_qualifier (w : cword) : bool :=
  match w with CName n => existsb (String.eqb n) qualifiers | _ => false end.

(** Skip qualifiers, and say whether there was one. *)
Fixpoint unqualified (ws : list cword) : bool * list cword :=
  match ws with
  | w :: r => if is_qualifier w then (true, snd (unqualified r)) else (false, ws)
  | [] => (false, [])
  end.

(** The stars and qualifiers of a pointer to characters. *)
Fixpoint stars (ws : list cword) : list cword :=
  match ws with
  | w :: r => if (if is_qualifier w then true else is_sym "*" w) then stars r else ws
  | [] => []
  end.

Definition assignments : list (string * string) :=
  [("=", ""); ("-=", "-"); ("+=", "+"); ("&=", "&"); ("|=", "|")].

(** What is behind the type of a declaration. *)
Definition declared (fuel : nat) (t : ctype) (ws : list cword) : option (stmt * list cword) :=
  match ws with
  | CName x :: r =>
      match eat ";" r with
      | Some r' => Some (SDecl t x None, r')
      | None =>
          match eat "=" r with
          | Some r1 =>
              match expression fuel r1 with
              | Some (a, r2) => match eat ";" r2 with Some r3 => Some (SDecl t x (Some a), r3) | None => None end
              | None => None
              end
          | None => None
          end
      end
  | _ => None
  end.

(** Texts: a table of them, or one. *)
Definition characters (fuel : nat) (ws : list cword) : option (stmt * list cword) :=
  match stars ws with
  | CName x :: r =>
      let r1 := match eat "[" r with Some r' => eat "]" r' | None => Some r end in
      match r1 with
      | Some r1 =>
          let r2 := match eat "=" r1 with Some r' => r' | None => r1 end in
          match eat "{" r2 with
          | Some r3 =>
              match table_strings r3 with
              | Some (l, b, r4) => match eat ";" r4 with Some r5 => Some (STable x l b, r5) | None => None end
              | None => None
              end
          | None =>
              match expression fuel r2 with
              | Some (a, r3) => match eat ";" r3 with Some r4 => Some (SDecl TAny x (Some a), r4) | None => None end
              | None => None
              end
          end
      | None => None
      end
  | _ => None
  end.

(** [x >>= e] is lexed as the words >>, = and e, and [x <<= e] like it. *)
Definition simple (fuel : nat) (ws : list cword) : option (stmt * list cword) :=
  match unary fuel ws with
  | Some (a, r) =>
      let assign op r1 :=
        match expression fuel r1 with
        | Some (b, r2) => match eat ";" r2 with Some r3 => Some (SAssign a op b, r3) | None => None end
        | None => None
        end in
      match r with
      | CSym s :: r1 =>
          if String.eqb s ";" then Some (SExpr a, r1) else
          match assoc assignments s with
          | Some op => assign op r1
          | None =>
              if String.eqb s ">>" then match eat "=" r1 with Some r2 => assign ">>" r2 | None => None end else
              if String.eqb s "<<" then match eat "=" r1 with Some r2 => assign "<<" r2 | None => None end else
              None
          end
      | _ => None
      end
  | None => None
  end.

(** [if (auto x = e) { return x; }] and [if (error x = e; x) { return x; }] *)
Definition propagate (fuel : nat) (ws : list cword) : option (stmt * list cword) :=
  match ws with
  | CSym o :: CName k :: CName x :: CSym q :: r =>
      if String.eqb k "auto" then
        match expression fuel r with
        | Some (a, CSym c :: CSym b :: CName ret :: CName y :: CSym s :: CSym e :: r') =>
            if same_path [o; q; c; b; ret; y; s; e] ["("; "="; ")"; "{"; "return"; x; ";"; "}"]
            then Some (SCheck a, r') else None
        | _ => None
        end
      else if String.eqb k "error" then
        match expression fuel r with
        | Some (a, CSym i :: CName z :: CSym c :: CSym b :: CName ret :: CName y :: CSym s :: CSym e :: r') =>
            if same_path [o; q; i; z; c; b; ret; y; s; e] ["("; "="; ";"; x; ")"; "{"; "return"; x; ";"; "}"]
            then Some (SCheck a, r') else None
        | _ => None
        end
      else None
  | _ => None
  end.

Fixpoint statement (fuel : nat) (ws : list cword) : option (stmt * list cword) :=
  match fuel with
  | O => None
  | S fuel =>
      match ws with
      | CSym s :: r =>
          if String.eqb s "{" then
            match statements fuel r with Some (l, r') => Some (SBlock l, r') | None => None end
          else if String.eqb s "[[" then
            match r with
            | CName n :: r1 =>
                if String.eqb n "fallthrough" then
                  match eat "]]" r1 with
                  | Some r2 => match eat ";" r2 with Some r3 => Some (SFall, r3) | None => None end
                  | None => None
                  end
                else None
            | _ => None
            end
          else simple fuel ws
      | CName n :: r =>
          if String.eqb n "return" then
            match expression fuel r with
            | Some (a, r1) => match eat ";" r1 with Some r2 => Some (SReturn a, r2) | None => None end
            | None => None
            end
          else if String.eqb n "break" then match eat ";" r with Some r1 => Some (SBreak, r1) | None => None end
          else if String.eqb n "CHECK" then
            match unary fuel r with
            | Some (a, r1) => match eat ";" r1 with Some r2 => Some (SCheck a, r2) | None => None end
            | None => None
            end
          else if String.eqb n "case" then
            match expression fuel r with
            | Some (a, r1) => match eat ":" r1 with Some r2 => Some (SCase a, r2) | None => None end
            | None => None
            end
          else if String.eqb n "default" then match eat ":" r with Some r1 => Some (SDefault, r1) | None => None end
          else if String.eqb n "if" then
            match propagate fuel r with
            | Some x => Some x
            | None =>
                let r0 := match r with CName c :: r' => if String.eqb c "constexpr" then r' else r | _ => r end in
                match eat "(" r0 with
                | Some r1 =>
                    match expression fuel r1 with
                    | Some (c, r2) =>
                        match eat ")" r2 with
                        | Some r3 =>
                            match block fuel r3 with
                            | Some (a, r4) =>
                                match r4 with
                                | CName e :: r5 =>
                                    if String.eqb e "else" then
                                      match block fuel r5 with Some (b, r6) => Some (SIf c a b, r6) | None => None end
                                    else Some (SIf c a [], r4)
                                | _ => Some (SIf c a [], r4)
                                end
                            | None => None
                            end
                        | None => None
                        end
                    | None => None
                    end
                | None => None
                end
            end
          else if String.eqb n "while" then
            match eat "(" r with
            | Some r1 =>
                match expression fuel r1 with
                | Some (c, r2) =>
                    match eat ")" r2 with
                    | Some r3 => match block fuel r3 with Some (l, r4) => Some (SWhile c l, r4) | None => None end
                    | None => None
                    end
                | None => None
                end
            | None => None
            end
          else if String.eqb n "switch" then
            match eat "(" r with
            | Some r1 =>
                match expression fuel r1 with
                | Some (c, r2) =>
                    match eat ")" r2 with
                    | Some r3 =>
                        match eat "{" r3 with
                        | Some r4 => match statements fuel r4 with Some (l, r5) => Some (SSwitch c l, r5) | None => None end
                        | None => None
                        end
                    | None => None
                    end
                | None => None
                end
            | None => None
            end
          else
            let (q, r1) := unqualified ws in
            match r1 with
            | CName k :: r2 =>
                if String.eqb k "char" then characters fuel r2 else
                if (if q then String.eqb k "token" else false) then declared fuel TAny r2 else
                match type_at r1 with
                | Some (t, CName x :: r3) => declared fuel t (CName x :: r3)
                | _ => if q then None else simple fuel ws
                end
            | _ => None
            end
      | _ => None
      end
  end
with statements (fuel : nat) (ws : list cword) : option (list stmt * list cword) :=
  match fuel with
  | O => None
  | S fuel =>
      match eat "}" ws with
      | Some r => Some ([], r)
      | None =>
          match statement fuel ws with
          | Some (a, r) => match statements fuel r with Some (l, r') => Some (a :: l, r') | None => None end
          | None => None
          end
      end
  end
with block (fuel : nat) (ws : list cword) : option (list stmt * list cword) :=
  match fuel with
  | O => None
  | S fuel =>
      match eat "{" ws with
      | Some r => statements fuel r
      | None => match statement fuel ws with Some (a, r) => Some ([a], r) | None => None end
      end
  end.

(** ** Files *)

(** A function returning [error]: its namespaces and name, its template
    parameters with their defaults (absent for a plain function), its
    parameters, and its body (absent when the parser cannot read it). *)
Record fn := Fn {
  f_space : string;
  f_name : string;
  f_template : option (list (string * option targ));
  f_params : list (string * ctype);
  f_body : option (list stmt) }.

Fixpoint last_name (ws : list cword) : string :=
  match ws with
  | [] => ""
  | CName n :: ws' => match last_name ws' with EmptyString => n | s => s end
  | _ :: ws' => last_name ws'
  end.

(** [int64_t max_size]; a pointer to an integer has the type of the integer. *)
Definition param_of (ws : list cword) : string * ctype :=
  (last_name ws, match type_at (snd (unqualified ws)) with Some (t, _) => t | None => TAny end).

(** [int address = 47]: the name and the default. *)
Definition template_param (ws : list cword) : option (string * option targ) :=
  match ws with
  | [CName _; CName n] => Some (n, None)
  | [CName _; CName n; CSym q; CNum _ v] => if String.eqb q "=" then Some (n, Some (ANum v)) else None
  | [CName _; CName n; CSym q; CName v] =>
      if String.eqb q "=" then
        if String.eqb v "true" then Some (n, Some (ATruth true)) else
        if String.eqb v "false" then Some (n, Some (ATruth false)) else None
      else None
  | _ => None
  end.

(** The namespaces, innermost first, as a prefix. *)
Fixpoint prefix_of (ns : list string) : string :=
  match ns with [] => "" | n :: ns' => (prefix_of ns' ++ n ++ "::")%string end.

(** The functions and the enumerators of a file. *)
Fixpoint functions (fuel : nat) (ns : list string) (ps : option (list (string * option targ))) (ws : list cword)
    : option (list fn * list (string * N)) :=
  match fuel with
  | O => None
  | S fuel =>
      match ws with
      | [] => match ns with [] => Some ([], []) | _ => None end
      | CSym s :: ws' =>
          if String.eqb s "{" then
            match until "{" "}" O ws' with Some (_, r) => functions fuel ns None r | None => None end
          else if String.eqb s "}" then
            match ns with _ :: ns' => functions fuel ns' None ws' | [] => None end
          else functions fuel ns ps ws'
      | CName n :: ws' =>
          if String.eqb n "namespace" then
            match ws' with
            | CName x :: CSym b :: r => if String.eqb b "{" then functions fuel (x :: ns) None r else None
            | _ => None
            end
          else if String.eqb n "template" then
            match eat "<" ws' with
            | Some r =>
                match until "<" ">" O r with
                | Some (p, r') =>
                    match all_some (map template_param (by_commas O p)) with
                    | Some l => functions fuel ns (Some l) r'
                    | None => None
                    end
                | None => None
                end
            | None => None
            end
          else if String.eqb n "enum" then
            match ws' with
            | CName _ :: CName x :: CSym b :: r =>
                match until "{" "}" O r with
                | Some (l, r') =>
                    match functions fuel ns None r' with
                    | Some (fs, es) =>
                        Some (fs, (fix number i l := match l with
                                                     | [CName v] :: l' => ((x ++ "::" ++ v)%string, i) :: number (i + 1) l'
                                                     | _ => []
                                                     end) 0 (by_commas O l) ++ es)
                    | None => None
                    end
                | None => None
                end
            | _ => None
            end
          else if String.eqb n "error" then
            match ws' with
            | CName f :: CSym o :: r =>
                if String.eqb o "(" then
                  match until "(" ")" O r with
                  | Some (l, CSym b :: r') =>
                      if String.eqb b "{" then
                        match until "{" "}" O r' with
                        | Some (body, r'') =>
                            match functions fuel ns None r'' with
                            | Some (fs, es) =>
                                Some (Fn (prefix_of ns) (prefix_of ns ++ f) ps (map param_of (by_commas O l))
                                        (match statements 2000 (body ++ [CSym "}"]) with
                                         | Some (ss, []) => Some ss
                                         | _ => None
                                         end) :: fs, es)
                            | None => None
                            end
                        | None => None
                        end
                      else functions fuel ns None r'
                  | _ => None
                  end
                else functions fuel ns ps ws'
            | _ => functions fuel ns ps ws'
            end
          else functions fuel ns ps ws'
      | _ :: ws' => functions fuel ns ps ws'
      end
  end.

(** Words with the macros of the file replaced. *)
Definition preprocess (ls : list string) : option (list cword) :=
  let (ds, ws) := directives None (map (lex (Word [])) ls) in
  expand (20 * List.length ws) (defines ds) ws.

Definition read_functions (ls : list string) : option (list fn * list (string * N)) :=
  match preprocess ls with Some ws => functions (S (List.length ws)) [] None ws | None => None end.

(** The bit-fields of a file with their widths: [uint32_t stall : 4;]. *)
Fixpoint bit_fields (ws : list cword) : list (string * N) :=
  match ws with
  | [] => []
  | _ :: ws' =>
      match ws with
      | CName t :: CName n :: CSym c :: CNum _ w :: CSym e :: _ =>
          if same_path [t; c; e] ["uint32_t"; ":"; ";"] then (n, w) :: bit_fields ws' else bit_fields ws'
      | _ => bit_fields ws'
      end
  end.
Definition read_bit_fields (ls : list string) : option (list (string * N)) :=
  match preprocess ls with Some ws => Some (bit_fields ws) | None => None end.

(** ** The table *)

(** The operands an INSN line names. *)
Fixpoint operand_refs (fuel : nat) (ws : list cword) : option (list targ * list cword) :=
  match fuel with
  | O => None
  | S fuel =>
      let rest a r :=
        match r with
        | CSym s :: r' =>
            if String.eqb s "," then match operand_refs fuel r' with Some (l, r'') => Some (a :: l, r'') | None => None end
            else if String.eqb s ")" then Some ([a], r') else None
        | _ => None
        end in
      match ws with
      | CName n :: r =>
          match eat "<" r with
          | Some r' => match targs fuel r' with Some (ts, r'') => rest (ARef n (Some ts)) r'' | None => None end
          | None => rest (ARef n None) r
          end
      | _ => None
      end
  end.

(** The words behind the third argument of INSN. *)
Fixpoint behind_mnemonic (ws : list cword) : option (list targ * list cword) :=
  match ws with
  | CText _ :: CSym s :: r =>
      if String.eqb s "," then operand_refs 1000 r else if String.eqb s ")" then Some ([], r) else None
  | CNum _ _ :: r | CSym _ :: r | CName _ :: r => behind_mnemonic r
  | _ => None
  end.

Fixpoint table_refs (fuel : nat) (ws : list cword) : option (list (list targ)) :=
  match fuel with
  | O => None
  | S fuel =>
      match ws with
      | CName n :: CSym _ :: r =>
          if String.eqb n "INSN" then
            match behind_mnemonic r with
            | Some (l, r') =>
                match eat "," r' with
                | Some r'' => match table_refs fuel r'' with Some ls => Some (l :: ls) | None => None end
                | None => match table_refs fuel r' with Some ls => Some (l :: ls) | None => None end
                end
            | None => None
            end
          else None
      | CSym s :: _ => if String.eqb s "}" then Some [] else None
      | _ => None
      end
  end.

(** Behind [const insn table[]{]. *)
Fixpoint to_table (ws : list cword) : list cword :=
  match ws with
  | CName a :: ((CSym p :: CSym q :: CSym b :: r) as ws') =>
      if same_path [a; p; q; b] ["table"; "["; "]"; "{"] then r else to_table ws'
  | _ :: ws' => to_table ws'
  | [] => []
  end.

Definition read_refs (ls : list string) : option (list (list targ)) :=
  let (_, ws) := directives None (map (lex (Word [])) ls) in table_refs 1000 (to_table ws).
