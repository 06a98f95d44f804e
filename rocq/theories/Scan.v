(** * Scan: reading the functions of context.cpp from their text.

    A lexer with character literals and a parser for the statements and
    expressions that the tokenizer and the search for labels are written in.
    Words the parser does not know make it fail; it never guesses.  This is
    separate from [Cxx], which reads the functions that return [error]. *)
From Verif Require Import Base.
Local Open Scope string_scope.
Local Open Scope list_scope.
Open Scope Z_scope.

(** ** Words *)

Inductive sword :=
| WName (s : string)
| WNum (z : Z)
| WChar (c : ascii)
| WText (s : text)
| WSym (s : string).

Definition char_in (a b c : ascii) : bool := (N_of_ascii a <=? N_of_ascii c)%N && (N_of_ascii c <=? N_of_ascii b)%N.
Definition digit_char (c : ascii) : bool := char_in "0" "9" c.
Definition name_char (c : ascii) : bool :=
  char_in "a" "z" c || char_in "A" "Z" c || Ascii.eqb c "_" || Ascii.eqb c ":".

(** The value of a digit of a hexadecimal or decimal number. *)
Definition figure (c : ascii) : Z :=
  let n := Z.of_N (N_of_ascii c) in
  if char_in "0" "9" c then n - 48 else if char_in "a" "f" c then n - 87 else n - 55.
Fixpoint figures (base acc : Z) (l : text) : Z :=
  match l with [] => acc | c :: l' => figures base (acc * base + figure c) l' end.

(** A finished run of letters, digits, _ and :, last character first.  A
    single : (of [case 'x':] or [default:]) is a symbol of its own. *)
Definition text_of (l : text) : string := string_of_list_ascii l.
Definition finished (w : text) : list sword :=
  match rev w with
  | [] => []
  | ":"%char :: [] => [WSym ":"]
  | "0"%char :: "x"%char :: l => [WNum (figures 16 0 l)]
  | c :: l => if digit_char c then [WNum (figures 10 0 (c :: l))] else
              match w with
              | ":"%char :: w' => [WName (text_of (rev w')); WSym ":"]
              | _ => [WName (text_of (c :: l))]
              end
  end.

(** Escapes: octal numbers of up to two digits, n, r, t, and a character for itself. *)
Definition octal_digit (c : ascii) : option N :=
  if char_in "0" "7" c then Some (N_of_ascii c - 48)%N else None.
Definition escape (c : ascii) : ascii :=
  if Ascii.eqb c "n" then ascii_of_N 10 else if Ascii.eqb c "r" then ascii_of_N 13 else
  if Ascii.eqb c "t" then ascii_of_N 9 else c.
Fixpoint unescaped (s : text) : text :=
  match s with
  | "\"%char :: c :: s' =>
      match octal_digit c with
      | Some a =>
          match s' with
          | d :: s'' => match octal_digit d with
                        | Some b => ascii_of_N (a * 8 + b) :: unescaped s''
                        | None => ascii_of_N a :: unescaped s'
                        end
          | [] => [ascii_of_N a]
          end
      | None => escape c :: unescaped s'
      end
  | c :: s' => c :: unescaped s'
  | [] => []
  end.

Definition double_chars : list string := ["<="; ">="; "=="; "!="; "&&"; "||"; "++"; "+="; "|="].

(** Where the lexer is: between or inside words, or inside a literal with the
    quote [q] that ends it ([true] behind a backslash). *)
Inductive lexing := InWord (w : text) | InQuotes (q : ascii) (escaped : bool) (w : text).

Definition quote_char : ascii := ascii_of_N 39.
Definition quoted (q : ascii) (w : text) : list sword :=
  if Ascii.eqb q quote_char then match unescaped (rev w) with [c] => [WChar c] | _ => [WSym "?"] end
  else [WText (unescaped (rev w))].

Fixpoint scan_line (m : lexing) (s : string) : list sword :=
  match s with
  | EmptyString => match m with InWord w => finished w | InQuotes _ _ _ => [WSym "?"] end
  | String c s' =>
      match m with
      | InQuotes q true w => scan_line (InQuotes q false (c :: w)) s'
      | InQuotes q false w =>
          if Ascii.eqb c q then quoted q w ++ scan_line (InWord []) s' else
          scan_line (InQuotes q (Ascii.eqb c "\") (c :: w)) s'
      | InWord w =>
          if name_char c || digit_char c then scan_line (InWord (c :: w)) s' else
          if Ascii.eqb c " " then finished w ++ scan_line (InWord []) s' else
          if Ascii.eqb c """" || Ascii.eqb c quote_char then finished w ++ scan_line (InQuotes c false []) s' else
          match s' with
          | EmptyString => finished w ++ [WSym (String c EmptyString)]
          | String d s'' =>
              let p := String c (String d EmptyString) in
              if String.eqb p "//" then finished w else
              if existsb (String.eqb p) double_chars
              then finished w ++ WSym p :: scan_line (InWord []) s''
              else finished w ++ WSym (String c EmptyString) :: scan_line (InWord []) s'
          end
      end
  end.

(** A file without its preprocessor lines. *)
Definition scan_lines (ls : list string) : list sword :=
  flat_map (fun l => match scan_line (InWord []) l with
                     | WSym s :: r => if String.eqb s "#" then [] else WSym s :: r
                     | r => r
                     end) ls.

(** ** Syntax trees *)

(** Names carry the members behind them: [token.data.regster].  [XSet] is an
    assignment, [XStep] is ++ in front of or behind its operand. *)
Inductive sexpr :=
| XNum (z : Z)
| XChar (c : ascii)
| XText (s : text)
| XName (s : string)
| XCall (f : string) (args : list sexpr)
| XMethod (x m : string) (args : list sexpr)
| XUn (op : string) (e : sexpr)
| XBin (op : string) (a b : sexpr)
| XIndex (a b : sexpr)
| XSet (x op : string) (e : sexpr)
| XStep (behind : bool) (x : string)
| XAddress (x : string)
| XCast (t : string) (e : sexpr)
| XBraces (args : list sexpr).

Inductive sstmt :=
| YExpr (e : sexpr)
| YDecl (t x : string) (e : option sexpr)
| YIf (c : sexpr) (a b : list sstmt)
| YWhile (c : sexpr) (l : list sstmt)
| YDo (l : list sstmt) (c : sexpr)
| YSwitch (e : sexpr) (l : list sstmt)
| YCase (c : ascii)
| YDefault
| YReturn (e : option sexpr)
| YBreak
| YContinue
| YLambda (x : string) (l : list sstmt).

(** ** Expressions *)

Definition takes (s : string) (ws : list sword) : option (list sword) :=
  match ws with WSym x :: r => if String.eqb x s then Some r else None | _ => None end.

(** Binary operators from loose to tight. *)
Definition ranks : list (list string) :=
  [["||"]; ["&&"]; ["=="; "!="]; ["<"; ">"; "<="; ">="]; ["+"; "-"]; ["%"]].

(** Neighbouring string literals are one. *)
Fixpoint literals (ws : list sword) : text * list sword :=
  match ws with
  | WText s :: r => let (s', r') := literals r in ((s ++ s')%list, r')
  | _ => ([], ws)
  end.

Fixpoint sexpression (fuel : nat) (ws : list sword) : option (sexpr * list sword) :=
  match fuel with
  | O => None
  | S fuel =>
      match ranked fuel ranks ws with
      | Some (XName x, WSym o :: r) =>
          if String.eqb o "=" || String.eqb o "+=" || String.eqb o "|=" then
            match sexpression fuel r with Some (e, r') => Some (XSet x o e, r') | None => None end
          else Some (XName x, WSym o :: r)
      | o => o
      end
  end
with ranked (fuel : nat) (os : list (list string)) (ws : list sword) : option (sexpr * list sword) :=
  match fuel with
  | O => None
  | S fuel =>
      match os with
      | [] => prefixed fuel ws
      | o :: os' => match ranked fuel os' ws with Some (a, r) => further fuel o os' a r | None => None end
      end
  end
with further (fuel : nat) (o : list string) (os : list (list string)) (a : sexpr) (ws : list sword)
  : option (sexpr * list sword) :=
  match fuel with
  | O => None
  | S fuel =>
      match ws with
      | WSym s :: r =>
          if existsb (String.eqb s) o then
            match ranked fuel os r with Some (b, r') => further fuel o os (XBin s a b) r' | None => None end
          else Some (a, ws)
      | _ => Some (a, ws)
      end
  end
with prefixed (fuel : nat) (ws : list sword) : option (sexpr * list sword) :=
  match fuel with
  | O => None
  | S fuel =>
      match ws with
      | WNum z :: r => Some (XNum z, r)
      | WChar c :: r => Some (XChar c, r)
      | WText _ :: _ => let (s, r) := literals ws in Some (XText s, r)
      | WName n :: r =>
          if String.eqb n "static_cast" then
            match r with
            | WSym _ :: WName t :: WSym _ :: r1 =>
                match takes "(" r1 with
                | Some r2 =>
                    match sexpression fuel r2 with
                    | Some (e, r3) => match takes ")" r3 with Some r4 => Some (XCast t e, r4) | None => None end
                    | None => None
                    end
                | None => None
                end
            | _ => None
            end
          else suffixed fuel (XName n) r
      | WSym s :: r =>
          if String.eqb s "!" || String.eqb s "*" || String.eqb s "-" then
            match prefixed fuel r with Some (e, r') => Some (XUn s e, r') | None => None end
          else if String.eqb s "++" then match r with WName x :: r' => Some (XStep false x, r') | _ => None end
          else if String.eqb s "&" then match r with WName x :: r' => Some (XAddress x, r') | _ => None end
          else if String.eqb s "{" then
            match sarguments fuel "}" r with Some (l, r') => Some (XBraces l, r') | None => None end
          else if String.eqb s "(" then
            match r with
            | WName t :: WSym c :: r' =>
                if String.eqb t "int" && String.eqb c ")" then
                  match prefixed fuel r' with Some (e, r'') => Some (XCast t e, r'') | None => None end
                else inside fuel r
            | _ => inside fuel r
            end
          else None
      | [] => None
      end
  end
with inside (fuel : nat) (ws : list sword) : option (sexpr * list sword) :=
  match fuel with
  | O => None
  | S fuel =>
      match sexpression fuel ws with
      | Some (e, r) => match takes ")" r with Some r' => suffixed fuel e r' | None => None end
      | None => None
      end
  end
with suffixed (fuel : nat) (a : sexpr) (ws : list sword) : option (sexpr * list sword) :=
  match fuel with
  | O => None
  | S fuel =>
      match ws with
      | WSym s :: r =>
          if String.eqb s "[" then
            match sexpression fuel r with
            | Some (e, r1) => match takes "]" r1 with Some r2 => suffixed fuel (XIndex a e) r2 | None => None end
            | None => None
            end
          else match a with
          | XName n =>
              if String.eqb s "." then
                match r with
                | WName m :: r1 =>
                    match takes "(" r1 with
                    | Some r2 => match sarguments fuel ")" r2 with Some (l, r3) => suffixed fuel (XMethod n m l) r3 | None => None end
                    | None => suffixed fuel (XName (n ++ "." ++ m)) r1
                    end
                | _ => None
                end
              else if String.eqb s "(" then
                match sarguments fuel ")" r with Some (l, r1) => suffixed fuel (XCall n l) r1 | None => None end
              else if String.eqb s "++" then suffixed fuel (XStep true n) r
              else Some (a, ws)
          | _ => Some (a, ws)
          end
      | _ => Some (a, ws)
      end
  end
with sarguments (fuel : nat) (close : string) (ws : list sword) : option (list sexpr * list sword) :=
  match fuel with
  | O => None
  | S fuel =>
      match takes close ws with
      | Some r => Some ([], r)
      | None =>
          match sexpression fuel ws with
          | Some (e, r) =>
              match takes close r with
              | Some r' => Some ([e], r')
              | None =>
                  match takes "," r with
                  | Some r' => match sarguments fuel close r' with Some (l, r'') => Some (e :: l, r'') | None => None end
                  | None => None
                  end
              end
          | None => None
          end
      end
  end.

(** ** Statements *)

Definition is_word (s : string) (w : sword) : bool := match w with WName x => String.eqb x s | _ => false end.
Fixpoint without_const (ws : list sword) : list sword :=
  match ws with w :: r => if is_word "const" w then without_const r else ws | [] => [] end.

(** The type of a declaration and what follows it. *)
Definition declared_type (ws : list sword) : option (string * list sword) :=
  match without_const ws with
  | WName t :: r =>
      if String.eqb t "char" then
        match takes "*" r with Some r' => Some ("char*", without_const r') | None => Some (t, r) end
      else if String.eqb t "bool" || String.eqb t "auto" || String.eqb t "std::string" || String.eqb t "token" then
        match r with WName _ :: _ => Some (t, r) | _ => None end
      else if String.eqb t "long" then match r with w :: r' => if is_word "long" w then Some ("int64_t", r') else None | [] => None end
      else if String.eqb t "std::optional" then
        match r with WSym _ :: WName i :: WSym _ :: r' => if String.eqb i "int" then Some ("optional", r') else None | _ => None end
      else None
  | _ => None
  end.

Fixpoint behind_bracket (ws : list sword) : list sword :=
  match ws with [] => [] | w :: r => match w with WSym s => if String.eqb s "]" then r else behind_bracket r | _ => behind_bracket r end end.

Fixpoint sstatement (fuel : nat) (ws : list sword) : option (sstmt * list sword) :=
  match fuel with
  | O => None
  | S fuel =>
      let condition r := match takes "(" r with
                         | Some r1 => match sexpression fuel r1 with
                                      | Some (e, r2) => match takes ")" r2 with Some r3 => Some (e, r3) | None => None end
                                      | None => None
                                      end
                         | None => None
                         end in
      let ended s r := match takes ";" r with Some r' => Some (s, r') | None => None end in
      let other :=
        match declared_type ws with
        | Some (t, WName x :: r) =>
            match takes "=" r with
            | Some r1 =>
                match takes "[" r1 with
                | Some r2 => match sblock fuel (behind_bracket r2) with Some (l, r3) => ended (YLambda x l) r3 | None => None end
                | None => match sexpression fuel r1 with Some (e, r2) => ended (YDecl t x (Some e)) r2 | None => None end
                end
            | None => ended (YDecl t x None) r
            end
        | Some _ => None
        | None => match sexpression fuel ws with Some (e, r) => ended (YExpr e) r | None => None end
        end in
      match ws with
      | WName n :: r =>
          if String.eqb n "if" then
            match condition r with
            | Some (c, r1) =>
                match sblock fuel r1 with
                | Some (a, WName e :: r2) =>
                    if String.eqb e "else" then
                      match takes "{" r2 with
                      | Some _ => match sblock fuel r2 with Some (b, r3) => Some (YIf c a b, r3) | None => None end
                      | None => match sstatement fuel r2 with Some (b, r3) => Some (YIf c a [b], r3) | None => None end
                      end
                    else Some (YIf c a [], WName e :: r2)
                | Some (a, r2) => Some (YIf c a [], r2)
                | None => None
                end
            | None => None
            end
          else if String.eqb n "while" then
            match condition r with
            | Some (c, r1) => match sblock fuel r1 with Some (l, r2) => Some (YWhile c l, r2) | None => None end
            | None => None
            end
          else if String.eqb n "do" then
            match sblock fuel r with
            | Some (l, WName w :: r1) =>
                if String.eqb w "while" then match condition r1 with Some (c, r2) => ended (YDo l c) r2 | None => None end
                else None
            | _ => None
            end
          else if String.eqb n "switch" then
            match condition r with
            | Some (e, r1) => match sblock fuel r1 with Some (l, r2) => Some (YSwitch e l, r2) | None => None end
            | None => None
            end
          else if String.eqb n "case" then
            match r with WChar c :: r1 => match takes ":" r1 with Some r2 => Some (YCase c, r2) | None => None end | _ => None end
          else if String.eqb n "default" then match takes ":" r with Some r1 => Some (YDefault, r1) | None => None end
          else if String.eqb n "return" then
            match takes ";" r with
            | Some r1 => Some (YReturn None, r1)
            | None => match sexpression fuel r with Some (e, r1) => ended (YReturn (Some e)) r1 | None => None end
            end
          else if String.eqb n "break" then ended YBreak r
          else if String.eqb n "continue" then ended YContinue r
          else other
      | _ => other
      end
  end
with sblock (fuel : nat) (ws : list sword) : option (list sstmt * list sword) :=
  match fuel with
  | O => None
  | S fuel => match takes "{" ws with Some r => sstatements fuel r | None => None end
  end
with sstatements (fuel : nat) (ws : list sword) : option (list sstmt * list sword) :=
  match fuel with
  | O => None
  | S fuel =>
      match takes "}" ws with
      | Some r => Some ([], r)
      | None =>
          match sstatement fuel ws with
          | Some (s, r) => match sstatements fuel r with Some (l, r') => Some (s :: l, r') | None => None end
          | None => None
          end
      end
  end.

(** ** Functions *)

Record sfn := Sfn { sf_name : string; sf_params : list string; sf_body : list sstmt }.

(** Parameters: the last word in front of each comma and of the closing bracket. *)
Fixpoint parameters (last : string) (ws : list sword) : option (list string * list sword) :=
  match ws with
  | WName n :: r => parameters n r
  | WSym s :: r =>
      if String.eqb s ")" then Some (if String.eqb last "" then [] else [last], r) else
      if String.eqb s "," then match parameters "" r with Some (l, r') => Some (last :: l, r') | None => None end
      else parameters last r
  | _ => None
  end.

Definition without_noexcept (ws : list sword) : list sword :=
  match ws with w :: r => if is_word "noexcept" w then r else ws | [] => [] end.

(** The function [f]: its name, parameters, and a body in braces. *)
Fixpoint find_function (f : string) (ws : list sword) : option sfn :=
  match ws with
  | [] => None
  | w :: r =>
      if is_word f w then
        match takes "(" r with
        | Some r1 =>
            match parameters "" r1 with
            | Some (ps, r2) =>
                let r3 := without_noexcept r2 in
                match takes "{" r3 with
                | Some _ => match sblock 2000 r3 with Some (l, _) => Some (Sfn f ps l) | None => None end
                | None => find_function f r
                end
            | None => find_function f r
            end
        | None => find_function f r
        end
      else find_function f r
  end.

Fixpoint read_all (fs : list string) (ws : list sword) : option (list sfn) :=
  match fs with
  | [] => Some []
  | f :: fs' =>
      match find_function f ws, read_all fs' ws with
      | Some x, Some l => Some (x :: l)
      | _, _ => None
      end
  end.

(** The functions [fs] of a file. *)
Definition read_named (fs : list string) (ls : list string) : option (list sfn) := read_all fs (scan_lines ls).
