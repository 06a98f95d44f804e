(** * SpecTidy: one way to write every token, and tidy programs.

    Independent of the assembler: only the shapes of tokens (SpecLex.v), the
    values of binary32 patterns (SpecFloat.v) and the labels of a text (Spec.v)
    are used. *)
From Verif Require Import Base Float Lexer Operand Catalogue Table Spec SpecLex SpecFloat SpecOpts SpecProgram SpecWritable.
Local Open Scope char_scope.
Local Open Scope list_scope.
Open Scope Z_scope.

(** ** Tokens *)

(** The last [w] decimal digits of [v]. *)
Fixpoint figures (w : nat) (v : Z) : text :=
  match w with
  | O => []
  | S w => figures w (v / 10) ++ [nth (Z.to_nat (v mod 10)) decimals "0"]
  end.
Fixpoint trimmed (s : text) : text :=
  match s with
  | [] => []
  | ch :: s' => if Ascii.eqb ch "0" then trimmed s' else s
  end.
(** [v] without leading zeros, if it has at most [w] digits. *)
Definition whole (w : nat) (v : Z) : text :=
  match trimmed (figures w v) with [] => ["0"] | s => s end.
Definition sign_text (neg : bool) : text := if neg then ["-"] else [].

(** One way to write each token.  A binary32 is written out in full: it is a
    multiple of [2^-149], so that 149 digits behind the point give its value. *)
Definition spell (k : tkind) : text :=
  match k with
  | TNone => []
  | TIdent w => w
  | TReg r => if (r =? 255)%N then ["R"; "Z"] else "R" :: whole 3 (Z.of_N r)
  | TPred i neg => (if neg then ["!"] else []) ++ ["P"; if (i =? 7)%N then "T" else nth (N.to_nat i) decimals "0"]
  | TImm z => sign_text (z <? 0) ++ whole 19 (Z.abs z)
  | TFloat f =>
      let v := scaled 24 (Z.of_N (f mod 2 ^ 31)) * 5 ^ 149 in
      sign_text (N.testbit f 31) ++ whole 39 (v / 10 ^ 149) ++ "." :: figures 149 v
  | TPlus => ["+"] | TMinus => ["-"] | TTilde => ["~"] | TVbar => ["|"]
  | TLbrack => ["["] | TRbrack => ["]"] | TAt => ["@"] | TSemi => [";"] | TComma => [","]
  end.

(** What may follow a token spelled this way: the end or white space. *)
Definition apart_from (q : text) : Prop := q = [] \/ begins blanks q.
(** The tokens there are: 256 registers, the predicates, the 64-bit integers, all
    binary32 numbers and infinities, but no NaN, and the names that do not end
    with a colon. *)
Definition possible (k : tkind) : Prop :=
  match k with
  | TNone => False
  | TIdent w => name w /\ ~ colon_last w
  | TReg r => (r <= 255)%N
  | TPred i _ => (i <= 7)%N
  | TImm z => - 2 ^ 63 <= z < 2 ^ 63
  | TFloat f => (f < 2 ^ 32)%N /\ (f mod 2 ^ 31 <= 255 * 2 ^ 23)%N
  | _ => True
  end.

(** ** Words *)

(** The words of the language: mnemonics, modifiers and names of operands,
    annotations and options. *)
Definition vocabulary : list string :=
  flat_map (fun i => i_mnemonic i :: flat_map words_of (i_operands i)) table ++
  [".reuse"; "."; "WAIT"; "WB"; "RB"; "DEP"; "Y"; "YIELD"; ".type"; ".dksh"; ".workgroup_size"; ".shared_memory"; ".local_memory"]%string ++
  map fst type_names.

(** ** Programs *)

Definition letter_b (ch : ascii) : bool :=
  (((97 <=? N_of_ascii ch) && (N_of_ascii ch <=? 122)) || ((65 <=? N_of_ascii ch) && (N_of_ascii ch <=? 90)))%N.
Definition digit_b (ch : ascii) : bool := ((48 <=? N_of_ascii ch) && (N_of_ascii ch <=? 57))%N.
(** The characters of a name up to its colon; nothing if there is no colon. *)
Fixpoint upto_colon (s : text) : text :=
  match s with
  | [] => []
  | ch :: s' =>
      if Ascii.eqb ch ":" then [":"]
      else if letter_b ch || digit_b ch || Ascii.eqb ch "_" then match upto_colon s' with [] => [] | l => ch :: l end
      else []
  end.
(** The label definition at the beginning of a line.  Labels that start like the
    zero register are left out: no instruction can name them. *)
Definition label_here (s : text) : text :=
  match s with
  | "R" :: "Z" :: _ => []
  | ch :: _ => if letter_b ch then upto_colon s else []
  | [] => []
  end.
(** What is kept of the text between two tokens: the ends of lines and the labels
    defined there.  [b] tells whether the text starts at the beginning of a line. *)
Fixpoint bare (b : bool) (g : text) : text :=
  match g with
  | [] => []
  | ch :: g' => if Ascii.eqb ch "010" then "010" :: bare true g' else (if b then label_here g else []) ++ bare false g'
  end.
(** [tidies b code code']: [code'] is [code], tidied up.  There is one blank in
    front of every token, the tokens are spelled as above, and besides there are
    only ends of lines and the labels at their beginnings. *)
Inductive tidies : bool -> text -> text -> Prop :=
| tidies_end : forall b g, gap g [] -> tidies b g (bare b g)
| tidies_token : forall b g s k q r, gap g (s ++ q) -> lexeme s k q -> tidies false q r ->
    tidies b (g ++ s ++ q) (bare b g ++ " " :: spell k ++ r).
