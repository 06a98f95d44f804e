(** * Source: reading the C++ text of operand.h and table.h.

    A small reader for the part of C++ those two files are written in: it
    splits lines into words, collects the operands that operand.h defines and
    the INSN lines of table.h, and looks up every operand an INSN line names.
    Nothing here is taken from [Catalogue] or [Table]. *)
From Coq Require Import Ascii.
From Verif Require Import Base Lexer Operand Table.
Local Open Scope string_scope.
Local Open Scope list_scope.
Open Scope N_scope.

(** ** Words *)

(** The words of a C++ line: names, numbers, string literals, other
    characters, and (only in the texts of [Idioms]) places for anything. *)
Inductive word :=
| WName (s : string)
| WNumber (n : N)
| WString (s : string)
| WChar (c : ascii)
| WPlace (s : string).

Definition char_within (lo hi c : ascii) : bool :=
  if N.leb (N_of_ascii lo) (N_of_ascii c) then N.leb (N_of_ascii c) (N_of_ascii hi) else false.

Definition is_digit (c : ascii) : bool := char_within "0" "9" c.

Definition is_letter (c : ascii) : bool :=
  if char_within "a" "z" c then true else
  if char_within "A" "Z" c then true else
  if Ascii.eqb c "_" then true else Ascii.eqb c "$".

Definition hex_value (c : ascii) : option N :=
  if is_digit c then Some (N_of_ascii c - 48) else
  if char_within "a" "f" c then Some (N_of_ascii c - 87) else
  if char_within "A" "F" c then Some (N_of_ascii c - 55) else None.

(** The digits up to the first character that is none in this base: the
    suffixes U, L and ULL end a number. *)
Fixpoint number (base acc : N) (s : list ascii) : N :=
  match s with
  | [] => acc
  | c :: s' =>
      match hex_value c with
      | Some d => if N.ltb d base then number base (acc * base + d) s' else acc
      | None => acc
      end
  end.

Definition string_of (s : list ascii) : string := string_of_list_ascii s.

(** A finished run of letters and digits. *)
Definition finish (w : list ascii) : list word :=
  match rev w with
  | [] => []
  | c :: s =>
      if is_digit c then
        match s with
        | x :: s' =>
            if Ascii.eqb x "x" then [WNumber (number 16 0 s')] else
            if Ascii.eqb x "b" then [WNumber (number 2 0 s')] else
            [WNumber (number 10 0 (c :: s))]
        | [] => [WNumber (number 10 0 [c])]
        end
      else if Ascii.eqb c "$" then [WPlace (string_of s)]
      else [WName (string_of (c :: s))]
  end.

(** What the reader is inside of. *)
Inductive within := Word (w : list ascii) | Quoted (w : list ascii) | Escaped (w : list ascii).

Fixpoint split_line (m : within) (s : string) : list word :=
  match s with
  | EmptyString => match m with Word w => finish w | Quoted _ | Escaped _ => [] end
  | String c s' =>
      match m with
      | Quoted w =>
          if Ascii.eqb c """" then WString (string_of (rev w)) :: split_line (Word []) s' else
          if Ascii.eqb c "\" then split_line (Escaped (c :: w)) s' else
          split_line (Quoted (c :: w)) s'
      | Escaped w => split_line (Quoted (c :: w)) s'
      | Word w =>
          if (if is_letter c then true else is_digit c) then split_line (Word (c :: w)) s' else
          if Ascii.eqb c " " then finish w ++ split_line (Word []) s' else
          if Ascii.eqb c """" then finish w ++ split_line (Quoted []) s' else
          match c, s' with
          | "/"%char, String "/" _ => finish w
          | _, _ => finish w ++ WChar c :: split_line (Word []) s'
          end
      end
  end.

(** Lines that start with # belong to the preprocessor, together with the
    lines they are continued on. *)
Fixpoint last_char (s : string) : option ascii :=
  match s with
  | EmptyString => None
  | String c EmptyString => Some c
  | String _ s' => last_char s'
  end.

Definition continued (s : string) : bool :=
  match last_char s with Some c => Ascii.eqb c "\" | None => false end.

Fixpoint split_lines (skip : bool) (ls : list string) : list word :=
  match ls with
  | [] => []
  | l :: ls' =>
      match (if skip then true else match l with String "#" _ => true | _ => false end) with
      | true => split_lines (continued l) ls'
      | false => split_line (Word []) l ++ split_lines false ls'
      end
  end.

(** A comma before a closing brace means nothing. *)
Fixpoint drop_commas (ws : list word) : list word :=
  match ws with
  | [] => []
  | w :: ws' =>
      match w, ws' with
      | WChar ",", WChar "}" :: _ => drop_commas ws'
      | _, _ => w :: drop_commas ws'
      end
  end.

Definition words_in (ls : list string) : list word := drop_commas (split_lines false ls).

Definition same_word (a b : word) : bool :=
  match a, b with
  | WName x, WName y => String.eqb x y
  | WNumber x, WNumber y => N.eqb x y
  | WString x, WString y => String.eqb x y
  | WChar x, WChar y => Ascii.eqb x y
  | _, _ => false
  end.

(** ** Values *)

(** What a template argument or a place of an idiom can be. *)
Inductive cval :=
| VInt (z : Z)
| VBool (b : bool)
| VString (s : string)
| VStrings (l : list string)
| VOperand (o : opnd).

(** ** What operand.h defines *)

(** A definition: its namespaces and name, its template parameters with their
    defaults (none for a plain function), the macro that makes it, the other
    arguments of the macro, and the body in braces. *)
Record definition := Def {
  d_path : list string;
  d_params : option (list (string * option cval));
  d_macro : string;
  d_args : list (list word);
  d_body : list word }.

(** The words up to the bracket that closes [depth] open ones. *)
Fixpoint close (o c : ascii) (depth : nat) (ws : list word) : option (list word * list word) :=
  match ws with
  | [] => None
  | w :: ws' =>
      let go d := match close o c d ws' with Some (a, b) => Some (w :: a, b) | None => None end in
      match w with
      | WChar x =>
          if Ascii.eqb x o then go (S depth) else
          if Ascii.eqb x c then match depth with O => Some ([], ws') | S d => go d end else go depth
      | _ => go depth
      end
  end.

(** The arguments char_within commas outside parentheses. *)
Fixpoint arguments (depth : nat) (ws : list word) : list (list word) :=
  match ws with
  | [] => [[]]
  | w :: ws' =>
      let put d := match arguments d ws' with [] => [[w]] | a :: r => (w :: a) :: r end in
      match w with
      | WChar "(" => put (S depth)
      | WChar ")" => put (pred depth)
      | WChar "," => match depth with O => [] :: arguments O ws' | _ => put depth end
      | _ => put depth
      end
  end.

Definition literal (ws : list word) : option cval :=
  match ws with
  | [WNumber n] => Some (VInt (Z.of_N n))
  | [WName s] => if String.eqb s "true" then Some (VBool true) else
                 if String.eqb s "false" then Some (VBool false) else None
  | _ => None
  end.

(** [int address = 47] and the like. *)
Definition parameter (ws : list word) : option (string * option cval) :=
  match ws with
  | WName _ :: WName n :: [] => Some (n, None)
  | WName _ :: WName n :: WChar "=" :: v => match literal v with Some x => Some (n, Some x) | None => None end
  | _ => None
  end.

Fixpoint all_some {A} (l : list (option A)) : option (list A) :=
  match l with
  | [] => Some []
  | Some x :: l' => match all_some l' with Some r => Some (x :: r) | None => None end
  | None :: _ => None
  end.

Definition macros : list string := ["DEFINE_OPERAND"; "DEFINE_FLAG"; "DEFINE_UINT"; "DEFINE_INT"; "DEFINE_DOT_TABLE"].

Definition is_name (s : string) (w : word) : bool := same_word w (WName s).

(** Read the definitions: [ns] are the open namespaces, innermost first,
    [ps] the template parameters just read.  Anything else in braces is
    skipped. *)
Fixpoint definitions (fuel : nat) (ns : list string) (ps : option (list (string * option cval)))
    (ws : list word) : option (list definition) :=
  match fuel with
  | O => None
  | S fuel =>
      match ws with
      | [] => match ns with [] => Some [] | _ => None end
      | WChar "{" :: ws' =>
          match close "{" "}" O ws' with Some (_, r) => definitions fuel ns None r | None => None end
      | WChar "}" :: ws' => match ns with _ :: ns' => definitions fuel ns' None ws' | [] => None end
      | WName s :: ws' =>
          if String.eqb s "namespace" then
            match ws' with
            | WName n :: WChar "{" :: r => definitions fuel (n :: ns) None r
            | _ => None
            end
          else if String.eqb s "template" then
            match ws' with
            | WChar "<" :: r =>
                match close "<" ">" O r with
                | Some (p, r') =>
                    match all_some (map parameter (arguments O p)) with
                    | Some ps' => definitions fuel ns (Some ps') r'
                    | None => None
                    end
                | None => None
                end
            | _ => None
            end
          else if existsb (String.eqb s) macros then
            match ws' with
            | WChar "(" :: r =>
                match close "(" ")" O r with
                | Some (a, r') =>
                    match arguments O a with
                    | [WName n] :: args =>
                        let path := rev (n :: ns) in
                        if String.eqb s "DEFINE_OPERAND" then
                          match r' with
                          | WChar "{" :: r1 =>
                              match close "{" "}" O r1 with
                              | Some (body, r2) =>
                                  match definitions fuel ns None r2 with
                                  | Some ds => Some (Def path ps s args body :: ds)
                                  | None => None
                                  end
                              | None => None
                              end
                          | _ => None
                          end
                        else
                          match definitions fuel ns None r' with
                          | Some ds => Some (Def path ps s args [] :: ds)
                          | None => None
                          end
                    | _ => None
                    end
                | None => None
                end
            | _ => None
            end
          else definitions fuel ns ps ws'
      | _ :: ws' => definitions fuel ns ps ws'
      end
  end.

(** ** Idioms *)

(** A body that matches this text means this operand. *)
Record idiom := Idiom { m_text : list string; m_operand : list cval -> option opnd }.

(** [$list] stands for string literals char_within commas, any other place for
    one word. *)
Fixpoint strings (ws : list word) : list string * list word :=
  match ws with
  | WString s :: WChar "," :: ((WString _ :: _) as ws') => let (l, r) := strings ws' in (s :: l, r)
  | WString s :: ws' => ([s], ws')
  | _ => ([], ws)
  end.

Inductive filling := FWord (w : word) | FStrings (l : list string).

Fixpoint matching (pat ws : list word) : option (list filling) :=
  match pat with
  | [] => match ws with [] => Some [] | _ => None end
  | WPlace p :: pat' =>
      if String.eqb p "list" then
        let (l, r) := strings ws in
        match matching pat' r with Some f => Some (FStrings l :: f) | None => None end
      else
        match ws with
        | w :: ws' => match matching pat' ws' with Some f => Some (FWord w :: f) | None => None end
        | [] => None
        end
  | p :: pat' =>
      match ws with
      | w :: ws' => if same_word p w then matching pat' ws' else None
      | [] => None
      end
  end.

(** A definition with the idiom it matches and what fills its places. *)
Inductive reading :=
| RMacro (macro : string) (args : list (list word))
| RIdiom (f : list filling) (k : list cval -> option opnd).

Fixpoint find_idiom (is : list (list word * (list cval -> option opnd))) (body : list word) : option reading :=
  match is with
  | [] => None
  | (t, k) :: is' => match matching t body with Some f => Some (RIdiom f k) | None => find_idiom is' body end
  end.

Record entry := Entry { e_path : list string; e_params : option (list (string * option cval)); e_reading : reading }.

(** Definitions that match no idiom are left out: no line of the table may
    name them. *)
Fixpoint entries (is : list (list word * (list cval -> option opnd))) (ds : list definition) : list entry :=
  match ds with
  | [] => []
  | Def p ps m args body :: ds' =>
      if String.eqb m "DEFINE_OPERAND" then
        match find_idiom is body with
        | Some r => Entry p ps r :: entries is ds'
        | None => entries is ds'
        end
      else Entry p ps (RMacro m args) :: entries is ds'
  end.

(** ** Meaning of a definition for given template arguments *)

Fixpoint value_of (env : list (string * cval)) (n : string) : option cval :=
  match env with
  | [] => None
  | (x, v) :: env' => if String.eqb x n then Some v else value_of env' n
  end.

(** The constants of <cstdint> and max_bits of helper.h. *)
Definition integer (env : list (string * cval)) (ws : list word) : option Z :=
  match ws with
  | [WNumber n] => Some (Z.of_N n)
  | [WChar "-"; WNumber n] => Some (- Z.of_N n)%Z
  | [WName f; WChar "("; WName n; WChar ")"] =>
      if String.eqb f "max_bits" then
        match value_of env n with Some (VInt z) => Some (2 ^ z - 1)%Z | _ => None end
      else None
  | [WName n] =>
      match value_of env n with
      | Some (VInt z) => Some z
      | Some _ => None
      | None => if String.eqb n "UINT32_MAX" then Some (2 ^ 32 - 1)%Z else
                if String.eqb n "UINT16_MAX" then Some (2 ^ 16 - 1)%Z else None
      end
  | _ => None
  end.

Definition natural (env : list (string * cval)) (ws : list word) : option N :=
  match integer env ws with
  | Some z => if Z.leb 0 z then Some (Z.to_N z) else None
  | None => None
  end.

(** The macros of operand.h:15-46. *)
Definition macro_operand (m : string) (env : list (string * cval)) (args : list (list word)) : option opnd :=
  if String.eqb m "DEFINE_FLAG" then
    match args with
    | [[WString s]; a] => match natural env a with Some a => Some (OFlag s a) | None => None end
    | _ => None
    end
  else if String.eqb m "DEFINE_UINT" then
    match args with
    | [m; a] => match integer env m, natural env a with Some m, Some a => Some (OUint m a) | _, _ => None end
    | _ => None
    end
  else if String.eqb m "DEFINE_INT" then
    match args with
    | [b; a] => match natural env b, natural env a with Some b, Some a => Some (OInt b a) | _, _ => None end
    | _ => None
    end
  else if String.eqb m "DEFINE_DOT_TABLE" then
    match args with
    | d :: a :: l =>
        match integer env d, natural env a,
              all_some (map (fun w => match w with [WString s] => Some s | _ => None end) l) with
        | Some d, Some a, Some l => Some (ODotTable (if Z.ltb d 0 then None else Some (Z.to_N d)) a l)
        | _, _, _ => None
        end
    | _ => None
    end
  else None.

Definition filled (env : list (string * cval)) (f : filling) : option cval :=
  match f with
  | FStrings l => Some (VStrings l)
  | FWord (WString s) => Some (VString s)
  | FWord (WNumber n) => Some (VInt (Z.of_N n))
  | FWord (WName n) => value_of env n
  | FWord _ => None
  end.

Definition meaning (env : list (string * cval)) (r : reading) : option opnd :=
  match r with
  | RMacro m args => macro_operand m env args
  | RIdiom f k => match all_some (map (filled env) f) with Some vs => k vs | None => None end
  end.

Fixpoint bind_params (ps : list (string * option cval)) (vs : list cval) : option (list (string * cval)) :=
  match ps, vs with
  | [], [] => Some []
  | (n, _) :: ps', v :: vs' => match bind_params ps' vs' with Some e => Some ((n, v) :: e) | None => None end
  | (n, Some v) :: ps', [] => match bind_params ps' [] with Some e => Some ((n, v) :: e) | None => None end
  | _, _ => None
  end.

Fixpoint same_path (a b : list string) : bool :=
  match a, b with
  | [], [] => true
  | x :: a', y :: b' => if String.eqb x y then same_path a' b' else false
  | _, _ => false
  end.

(** A name with arguments means the template; a name without means the plain
    function, or else the template with all its defaults. *)
Fixpoint find_entry (template : bool) (es : list entry) (p : list string) : option entry :=
  match es with
  | [] => None
  | e :: es' =>
      if same_path (e_path e) p then
        if Bool.eqb template (match e_params e with Some _ => true | None => false end) then Some e
        else find_entry template es' p
      else find_entry template es' p
  end.

Definition instance (e : entry) (vs : list cval) : option opnd :=
  match bind_params (match e_params e with Some ps => ps | None => [] end) vs with
  | Some env => meaning env (e_reading e)
  | None => None
  end.

Definition named_operand (es : list entry) (p : list string) (args : option (list cval)) : option opnd :=
  match args with
  | Some vs => match find_entry true es p with Some e => instance e vs | None => None end
  | None =>
      match find_entry false es p with
      | Some e => instance e []
      | None => match find_entry true es p with Some e => instance e [] | None => None end
      end
  end.

(** ** The INSN lines of table.h *)

Fixpoint path_of (n : string) (ws : list word) : list string * list word :=
  match ws with
  | WChar ":" :: WChar ":" :: WName m :: ws' => let (p, r) := path_of m ws' in (n :: p, r)
  | _ => ([n], ws)
  end.

(** An argument: a number, true, false, or the name of an operand, perhaps
    with arguments of its own. *)
Fixpoint argument (fuel : nat) (es : list entry) (ws : list word) : option (cval * list word) :=
  match fuel with
  | O => None
  | S fuel =>
      match ws with
      | WNumber n :: r => Some (VInt (Z.of_N n), r)
      | WName n :: r =>
          if String.eqb n "true" then Some (VBool true, r) else
          if String.eqb n "false" then Some (VBool false, r) else
          let (p, r1) := path_of n r in
          match r1 with
          | WChar "<" :: r2 =>
              match argument_list fuel es ">" r2 with
              | Some (vs, r3) =>
                  match named_operand es p (Some vs) with Some o => Some (VOperand o, r3) | None => None end
              | None => None
              end
          | _ => match named_operand es p None with Some o => Some (VOperand o, r1) | None => None end
          end
      | _ => None
      end
  end
with argument_list (fuel : nat) (es : list entry) (stop : ascii) (ws : list word) : option (list cval * list word) :=
  match fuel with
  | O => None
  | S fuel =>
      match argument fuel es ws with
      | Some (v, WChar c :: r) =>
          if Ascii.eqb c stop then Some ([v], r) else
          if Ascii.eqb c "," then
            match argument_list fuel es stop r with Some (vs, r') => Some (v :: vs, r') | None => None end
          else None
      | _ => None
      end
  end.

(** [constexpr unsigned NO_PRED = 1;] *)
Fixpoint constants (ws : list word) : list (string * N) :=
  match ws with
  | [] => []
  | w :: ws' =>
      match w, ws' with
      | WName a, WName b :: WName n :: WChar "=" :: WNumber v :: _ =>
          if String.eqb a "constexpr" then (n, v) :: constants ws' else constants ws'
      | _, _ => constants ws'
      end
  end.

Fixpoint constant (cs : list (string * N)) (n : string) : option N :=
  match cs with
  | [] => None
  | (x, v) :: cs' => if String.eqb x n then Some v else constant cs' n
  end.

(** Flags: numbers and constants joined by |. *)
Fixpoint flags_of (cs : list (string * N)) (ws : list word) : option N :=
  match ws with
  | [WNumber n] => Some n
  | [WName s] => constant cs s
  | WName s :: WChar "|" :: ws' =>
      match constant cs s, flags_of cs ws' with Some a, Some b => Some (N.lor a b) | _, _ => None end
  | _ => None
  end.

Definition operands_of (vs : list cval) : option (list opnd) :=
  all_some (map (fun v => match v with VOperand o => Some o | _ => None end) vs).

(** The words up to the next comma. *)
Fixpoint to_comma (ws : list word) : list word * list word :=
  match ws with
  | [] => ([], [])
  | WChar "," :: ws' => ([], ws')
  | w :: ws' => let (a, b) := to_comma ws' in (w :: a, b)
  end.

(** One INSN line, after its opening parenthesis. *)
Definition insn_line (es : list entry) (cs : list (string * N)) (ws : list word) : option (insn * list word) :=
  match ws with
  | WNumber opcode :: WChar "," :: r =>
      let (f, r1) := to_comma r in
      match r1 with
      | WString m :: WChar "," :: r2 =>
          match flags_of cs f, argument_list 100 es ")" r2 with
          | Some f, Some (vs, r3) =>
              match operands_of vs with Some os => Some (Insn opcode f m os, r3) | None => None end
          | _, _ => None
          end
      | WString m :: WChar ")" :: r2 =>
          match flags_of cs f with Some f => Some (Insn opcode f m [], r2) | None => None end
      | _ => None
      end
  | _ => None
  end.

(** The lines up to the closing brace. *)
Fixpoint insn_lines (fuel : nat) (es : list entry) (cs : list (string * N)) (ws : list word) : option (list insn) :=
  match fuel with
  | O => None
  | S fuel =>
      match ws with
      | WName s :: WChar "(" :: r =>
          if String.eqb s "INSN" then
            match insn_line es cs r with
            | Some (i, WChar "," :: r') =>
                match insn_lines fuel es cs r' with Some is => Some (i :: is) | None => None end
            | Some (i, [WChar "}"; WChar ";"]) => Some [i]
            | _ => None
            end
          else None
      | _ => None
      end
  end.

(** Everything behind [const insn table[]{]. *)
Fixpoint table_words (ws : list word) : list word :=
  match ws with
  | [] => []
  | w :: ws' =>
      match w, ws' with
      | WName a, WChar "[" :: WChar "]" :: WChar "{" :: r => if String.eqb a "table" then r else table_words ws'
      | _, _ => table_words ws'
      end
  end.

(** The table that the two files define. *)
Definition read_table (is : list idiom) (operands table : list string) : option (list insn) :=
  let ows := words_in operands in
  let tws := words_in table in
  match definitions (S (List.length ows)) [] None ows with
  | Some ds =>
      let es := entries (map (fun i => (words_in (m_text i), m_operand i)) is) ds in
      insn_lines 1000 es (constants tws) (table_words tws)
  | None => None
  end.
