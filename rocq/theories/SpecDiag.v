(** * SpecDiag: what a diagnostic may say.

    A description in terms of the printed text and of the token it points at.
    It mentions neither formats nor the code that reports errors; only the
    token kinds (src/token.h) and the token texts of [SpecLex] are used. *)
From Verif Require Import Base Lexer SpecLex.
Local Open Scope string_scope.
Local Open Scope list_scope.
Open Scope Z_scope.

(** ** Layout *)

(** Decimal numerals without leading zeros. *)
Definition natural (z : Z) (s : text) : Prop :=
  denotes 10 s z /\ s <> [] /\ (begins ["0"%char] s -> s = ["0"%char]).
Definition numeral (z : Z) (s : text) : Prop :=
  (0 <= z /\ natural z s) \/ (z < 0 /\ exists s', s = "-"%char :: s' /\ natural (- z) s').
(** What is shown of a text: the part before the first NUL. *)
Definition shown (w s : text) : Prop :=
  (s = w /\ ~ In "000"%char w) \/ (exists r, w = s ++ "000"%char :: r /\ ~ In "000"%char s).
(** The number in the low 32 bits of [v], in two's complement. *)
Definition low_half (v z : Z) : Prop := - 2 ^ 31 <= z < 2 ^ 31 /\ exists q, v = z + q * 2 ^ 32.

Definition escape (s : string) : text := "027"%char :: lit s.
Definition strong (s : text) : text := escape "[1m" ++ s ++ escape "[0m".
Definition red (s : text) : text := escape "[1;31m" ++ s ++ escape "[0m".
(** "file:line:column: "; lines and columns are counted from 1. *)
Definition place_text (file : text) (l c : Z) (s : text) : Prop :=
  exists f dl dc, shown file f /\ numeral (l + 1) dl /\ numeral (c + 1) dc /\
    s = escape "[1m" ++ f ++ lit ":" ++ escape "[1m" ++ dl ++ lit ":" ++ dc ++ lit ": ".
(** "error: ", the message and a newline. *)
Definition error_text (body : text) : text := red (lit "error:") ++ lit " " ++ body ++ ["010"%char].

(** ** What is said about a token *)

(** The name of a kind of token. *)
Definition described (k : tkind) : string :=
  match k with
  | TNone => "nothing" | TIdent _ => "identifier" | TReg _ => "register" | TPred _ _ => "predicate"
  | TImm _ => "immediate" | TFloat _ => "floating-point immediate" | TPlus => "plus" | TMinus => "minus"
  | TTilde => "tilde" | TVbar => "vertical bar" | TLbrack => "squared bracket left"
  | TRbrack => "squared bracket right" | TAt => "at" | TSemi => "semicolon" | TComma => "comma"
  end.
Definition descriptions : list string :=
  ["identifier"; "register"; "predicate"; "immediate"; "vertical bar"; "squared bracket left"; "squared bracket right"; "semicolon"; "comma"].
(** The word of an identifier; the other tokens are not quoted. *)
Definition quoted (k : tkind) : text := match k with TIdent w => w | _ => [] end.
Definition quotable (k : tkind) : bool := match k with TReg _ | TPred _ _ | TImm _ | TFloat _ => false | _ => true end.

(** Conditions on the token of a sentence. *)
Definition any (k : tkind) : bool := true.
Definition one_of (l : list string) (k : tkind) : bool :=
  match k with TIdent w => existsb (fun x => text_eqb w (lit x)) l | _ => false end.
Definition none_of (l : list string) (k : tkind) : bool := negb (one_of l k).
Definition number (k : tkind) : bool := match k with TImm _ => true | _ => false end.
Definition no_number (k : tkind) : bool := negb (number k).
Definition outside (lo hi : Z) (k : tkind) : bool := match k with TImm z => (z <? lo) || (hi <? z) | _ => false end.

(** The sentences without variable parts, and what holds of the token then. *)
Definition sentences : list (string * (tkind -> bool)) :=
  [ (* operands *)
    ("register cannot be reused", one_of [".reuse"]);
    ("expected floating-point literal, QNAN, or INF", none_of ["QNAN"; "INF"]);
    ("expected constant buffer", none_of ["c"]);
    ("immediate constant buffer access has to be aligned to 4 bytes", one_of ["c"]);
    ("expected label", fun k => match k with TIdent _ | TImm _ => false | _ => true end);
    ("label out of range", fun k => match k with TIdent _ | TImm _ => true | _ => false end);
    ("source register is not mirrored to destination register", any);
    ("predicate can't be negated", fun k => match k with TPred _ negated => negated | _ => false end);
    ("expected 'a'", none_of ["a"]);
    ("expected .S16 or .U16", none_of [".S16"; ".U16"]);
    ("expected .X, .Y or .Z after SR_CTAID", none_of [".X"; ".Y"; ".Z"]);
    ("expected 0", fun k => match k with TImm 0 => false | _ => true end);
    ("invalid RGBA swizzle", any);
    ("expected 1D, ARRAY_1D, 2D, ARRAY_2D, 3D, ARRAY_3D, CUBE, or ARRAY_CUBE",
      none_of ["1D"; "ARRAY_1D"; "2D"; "ARRAY_2D"; "3D"; "ARRAY_3D"; "CUBE"; "ARRAY_CUBE"]);
    ("expected 1D, 2D, ARRAY_2D, or 3D", none_of ["1D"; "2D"; "ARRAY_2D"; "3D"]);
    ("1D has no AOFFI", one_of ["1D"]); ("1D has no MS", one_of ["1D"]);
    ("AOFFI and MS can't be used at the same time", one_of ["2D"]);
    ("LL can't be used with MS in 2D", one_of ["2D"]);
    ("AOFFI can't be used in 3D", one_of ["3D"]); ("MS can't be used in 3D", one_of ["3D"]);
    ("AOFFI can't be used in ARRAY_2D", one_of ["ARRAY_2D"]); ("MS can't be used in ARRAY_2D", one_of ["ARRAY_2D"]);
    ("expected 1D, 2D, ARRAY_2D, 3D, or CUBE", none_of ["1D"; "2D"; "ARRAY_2D"; "3D"; "CUBE"]);
    ("1D is only valid with LZ and no-DC", one_of ["1D"]);
    ("DC ARRAY_2D is only valid with LZ", one_of ["ARRAY_2D"]); ("LL ARRAY_2D is illegal", one_of ["ARRAY_2D"]);
    ("3D cannot be DC", one_of ["3D"]); ("3D can only have the default lod or LZ", one_of ["3D"]);
    ("CUBE cannot be DC", one_of ["CUBE"]); ("CUBE can only have the default lod or LL", one_of ["CUBE"]);
    ("expected .AND, .OR or .XOR", none_of [".AND"; ".OR"; ".XOR"]);
    ("expected .P", none_of [".P"]); ("expected .PHYS", none_of [".PHYS"]);
    ("expected .WARP", none_of [".WARP"]); ("expected .RESULT", none_of [".RESULT"]);
    ("expected CC", none_of ["CC"]); ("expected .LUT", none_of [".LUT"]);
    ("expected .U16, .U32, .U64, .S16, .S32 or .S64", none_of [".U16"; ".U32"; ".U64"; ".S16"; ".S32"; ".S64"]);
    ("expected PR or CC", none_of ["PR"; "CC"]);
    ("expected .U8, .U16, .U32, .U64, .S8, .S16, .S32 or .S64",
      none_of [".U8"; ".U16"; ".U32"; ".U64"; ".S8"; ".S16"; ".S32"; ".S64"]);
    ("expected .U8, .U16, .U32, .S8, .S16 or .S32", none_of [".U8"; ".U16"; ".U32"; ".S8"; ".S16"; ".S32"]);
    ("expected .HI", none_of [".HI"]); ("expected .R", none_of [".R"]); ("expected .L", none_of [".L"]);
    ("expected .B", none_of [".B"]); ("expected .LOD", none_of [".LOD"]);
    ("invalid mode", none_of ["TEX_HEADER_DIMENSION"; "TEX_HEADER_TEXTURE_TYPE"; "TEX_HEADER_SAMPLER_POS"]);
    ("invalid identifier", any);
    (* these may point at a word they list *)
    ("expected .P or .B", any);
    ("expected .U8, .S8, .U16, .S16, .32, .64, .128 or .U.128", none_of [".128"]);
    ("expected .U32, .S32, .U64, .S64, .F32.FTZ.RN, .F16x2.RN or .S64", any);
    (* scheduling *)
    ("clocks to stall are already specified", one_of ["WAIT"]);
    ("number of waited clocks must be between 0 and 15 inclusively", outside 0 15);
    ("write barrier already specified", one_of ["WB"]); ("read barrier already specified", one_of ["RB"]);
    ("barrier index must be between 0 and 5 inclusively", outside 0 5);
    ("yield already specified", one_of ["Y"; "YIELD"]);
    ("dependency barrier index must be between 0 and 5 inclusively", outside 0 5);
    ("dependency barrier index 0 already specified", fun k => match k with TImm z => z =? 0 | _ => false end);
    ("dependency barrier index 1 already specified", fun k => match k with TImm z => z =? 1 | _ => false end);
    ("dependency barrier index 2 already specified", fun k => match k with TImm z => z =? 2 | _ => false end);
    ("dependency barrier index 3 already specified", fun k => match k with TImm z => z =? 3 | _ => false end);
    ("dependency barrier index 4 already specified", fun k => match k with TImm z => z =? 4 | _ => false end);
    ("dependency barrier index 5 already specified", fun k => match k with TImm z => z =? 5 | _ => false end);
    ("expected @WAIT, @WB, @RB, @DEP, or @YIELD/@Y", none_of ["WAIT"; "WB"; "RB"; "DEP"; "YIELD"; "Y"]);
    (* instructions *)
    ("PBK does not support predicated execution", any); ("SSY does not support predicated execution", any);
    ("CAL does not support predicated execution", any); ("PCNT does not support predicated execution", any);
    ("expected mnemonic", fun k => match k with TIdent _ => false | _ => true end);
    (* options *)
    ("unexpected new line in option", any);
    ("program type already specified", one_of [".type"; ".dksh"]);
    ("expected number of general purpose registers", number);
    ("expected workgroup sizes", no_number); ("expected shared memory size", no_number); ("expected local memory size", no_number);
    ("expected new line after option", any) ].

(** [says known defined k body]: [body] is said about a token [k]; [known] are the
    mnemonics, [defined] the labels of the program. *)
Inductive says (known defined : text -> Prop) : tkind -> text -> Prop :=
| says_sentence : forall k s p, In (s, p) sentences -> p k = true -> says known defined k (lit s)
| says_missing : forall ty, In ty descriptions -> says known defined TNone (lit "expected " ++ strong (lit ty))
| says_other : forall k ty w, In ty descriptions -> k <> TNone -> ty <> described k -> shown (quoted k) w ->
    says known defined k (lit "expected " ++ strong (lit ty) ++ lit " and got " ++ strong (lit (described k) ++ lit " " ++ w))
| says_range : forall v z lo hi dz dlo dhi, (v < lo \/ hi < v) -> low_half v z -> numeral z dz -> numeral lo dlo -> numeral hi dhi ->
    says known defined (TImm v) (lit "integer " ++ strong dz ++ lit " is out of range, expected to be from " ++ dlo ++ lit " to " ++ dhi ++ lit " inclusively")
| says_label : forall w s, ~ defined w -> shown w s -> says known defined (TIdent w) (lit "label " ++ strong s ++ lit " not defined")
| says_test : forall w s, shown w s -> says known defined (TIdent w) (lit "unexpected test " ++ s)
| says_system : forall k s, quotable k = true -> shown (quoted k) s -> says known defined k (lit "invalid system register " ++ strong s)
| says_type : forall k s, quotable k = true -> none_of ["vertex"; "tess_control"; "hull"; "tess_eval"; "domain"; "geometry"; "fragment"; "pixel"; "compute"] k = true ->
    shown (quoted k) s -> says known defined k (lit "invalid program type " ++ strong s)
| says_mnemonic : forall w s, ~ known w -> shown w s -> says known defined (TIdent w) (lit "unknown mnemonic " ++ strong s).

(** What is said about a text that is no token. *)
Definition number_chars : text := decimals ++ lit "+-abcdefABCDEFxX".
(** The characters of a number: those above, then a '.' and decimals. *)
Definition number_chunk (s : text) : Prop :=
  exists a b, s = a ++ b /\ Forall (fun ch => In ch number_chars) a /\
    (b = [] \/ exists f, b = "."%char :: f /\ Forall (fun ch => In ch decimals) f).
Inductive complains : text -> text -> Prop :=
| complains_bang : forall r, ~ begins (lit "Pp") r -> complains ("!"%char :: r) (lit "fatal: invalid usage of '!'" ++ ["010"%char])
| complains_predicate : forall s i neg r, predicate_name s i neg -> digit_name s -> (6 < i)%N -> ends r -> complains (s ++ r) (lit "out of range predicate")
| complains_hex : forall s r, number_start (s ++ r) -> number_chunk s -> (exists h, In h (lit "abcdefABCDEFxX") /\ In h s) -> begins ["."%char] r ->
    complains (s ++ r) (lit "floating point literal cannot have hex characters")
| complains_glued : forall s r, number_start (s ++ r) -> number_chunk s -> ~ ends r -> complains (s ++ r) (lit "no separator after immediate")
| complains_literal : forall s r, number_start (s ++ r) -> number_chunk s -> ends r -> complains (s ++ r) (lit "failed to parse literal " ++ red s)
| complains_zero : forall r, ~ ends r -> complains (lit "RZ" ++ r) (lit "no separator after register")
| complains_register : forall s n r, denotes 10 s n -> s <> [] -> 254 < n -> ends r ->
    complains ("R"%char :: s ++ r) (lit "register index " ++ red ("R"%char :: s) ++ lit " is out of range, expected to be from 0 to 254 inclusively")
| complains_lone : forall r, ends r -> numeric r -> complains ("R"%char :: r) (lit "invalid register index " ++ red (lit "R")).

(** The messages that print a number or the length of a word as the wrong type
    of the language: an [int] is printed, a wider type is given. *)
Fixpoint headed (p s : text) : bool :=
  match p, s with
  | [], _ => true
  | x :: p', y :: s' => if Ascii.eqb x y then headed p' s' else false
  | _ :: _, [] => false
  end.
Definition miscast (s : text) : bool :=
  existsb (fun p => headed p s) [lit "integer "; lit "label " ++ escape "[1m"; lit "unexpected test "; lit "unknown mnemonic "].

(** What is said about the program as a whole. *)
Definition program_sentences : list string :=
  ["no type provided, valid are types: vertex, tess_control, tess_eval, geometry, fragment, compute";
   "entrypoint ""main"" not found"; "entrypoint is not aligned"; "write_gfx_header is not implemented"].
(** What is said about the command line. *)
Definition command_sentences : list string :=
  ["command line output file already provided"; "expected command line syntax: ""-o"" <output file>";
   "command line input file already provided"; "no input file"; "no output file"].

(** ** What the sentences ask for *)

(** Sentences that name the tokens they want, and these tokens.  The sentences of
    the second list may be said about such a token nevertheless. *)
Definition named_words : list (string * list string) :=
  [("expected 'a'", ["a"]); ("expected .S16 or .U16", [".S16"; ".U16"]); ("expected .X, .Y or .Z after SR_CTAID", [".X"; ".Y"; ".Z"]);
   ("expected 1D, ARRAY_1D, 2D, ARRAY_2D, 3D, ARRAY_3D, CUBE, or ARRAY_CUBE", ["1D"; "ARRAY_1D"; "2D"; "ARRAY_2D"; "3D"; "ARRAY_3D"; "CUBE"; "ARRAY_CUBE"]);
   ("expected 1D, 2D, ARRAY_2D, or 3D", ["1D"; "2D"; "ARRAY_2D"; "3D"]);
   ("expected 1D, 2D, ARRAY_2D, 3D, or CUBE", ["1D"; "2D"; "ARRAY_2D"; "3D"; "CUBE"]);
   ("expected .AND, .OR or .XOR", [".AND"; ".OR"; ".XOR"]); ("expected .P", [".P"]); ("expected .PHYS", [".PHYS"]);
   ("expected .WARP", [".WARP"]); ("expected .RESULT", [".RESULT"]); ("expected CC", ["CC"]); ("expected .LUT", [".LUT"]);
   ("expected .U16, .U32, .U64, .S16, .S32 or .S64", [".U16"; ".U32"; ".U64"; ".S16"; ".S32"; ".S64"]);
   ("expected PR or CC", ["PR"; "CC"]);
   ("expected .U8, .U16, .U32, .U64, .S8, .S16, .S32 or .S64", [".U8"; ".U16"; ".U32"; ".U64"; ".S8"; ".S16"; ".S32"; ".S64"]);
   ("expected .U8, .U16, .U32, .S8, .S16 or .S32", [".U8"; ".U16"; ".U32"; ".S8"; ".S16"; ".S32"]);
   ("expected .HI", [".HI"]); ("expected .R", [".R"]); ("expected .L", [".L"]); ("expected .B", [".B"]); ("expected .LOD", [".LOD"]);
   ("expected @WAIT, @WB, @RB, @DEP, or @YIELD/@Y", ["WAIT"; "WB"; "RB"; "DEP"; "YIELD"; "Y"]);
   ("expected floating-point literal, QNAN, or INF", ["QNAN"; "INF"])].
Definition astray_words : list (string * list string) :=
  [("expected .P or .B", [".P"; ".B"]);
   ("expected .U8, .S8, .U16, .S16, .32, .64, .128 or .U.128", [".U8"; ".S8"; ".U16"; ".S16"; ".32"; ".64"; ".128"]);
   ("expected .U32, .S32, .U64, .S64, .F32.FTZ.RN, .F16x2.RN or .S64", [".U32"; ".S32"; ".U64"; ".S64"; ".F32"; ".F16x2"])].
(** The same for kinds of tokens. *)
Definition named_kinds : list (string * (tkind -> bool)) :=
  [("expected 0", fun k => match k with TImm z => z =? 0 | _ => false end);
   ("expected label", fun k => match k with TIdent _ => true | _ => false end);
   ("expected mnemonic", fun k => match k with TIdent _ => true | _ => false end);
   ("expected workgroup sizes", number); ("expected shared memory size", number); ("expected local memory size", number)].
Definition astray_kinds : list (string * (tkind -> bool)) :=
  [("expected number of general purpose registers", number);
   ("expected floating-point literal, QNAN, or INF", fun k => match k with TFloat _ => true | _ => false end)].
