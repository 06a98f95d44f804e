(** * SpecLex: what the characters of a token look like.

    A description of the tokens of the language that does not mention the
    tokenizer: sets of characters, numbers in positional notation and the shape of
    names.  Only the token kinds (src/token.h) are shared with the model. *)
From Verif Require Import Base Float Lexer.
Local Open Scope char_scope.
Local Open Scope list_scope.
Open Scope Z_scope.

(** ** Characters *)

Definition blanks : text := [" "; "009"; "013"; "010"].
Definition operators : list (ascii * tkind) :=
  [("+", TPlus); ("-", TMinus); ("~", TTilde); ("|", TVbar); ("[", TLbrack); ("]", TRbrack); ("@", TAt); (";", TSemi); (",", TComma)].
Definition separators : text := blanks ++ map fst operators ++ ["."; "000"].
(** A character of a name. *)
Definition inner (ch : ascii) : Prop := ~ In ch separators.
(** A text that starts with one of the characters of [set]. *)
Definition begins (set : text) (q : text) : Prop := exists ch q', q = ch :: q' /\ In ch set.
(** What may follow a token: the end of the text or a separator. *)
Definition ends (q : text) : Prop := q = [] \/ begins separators q.
Definition decimals : text := ["0"; "1"; "2"; "3"; "4"; "5"; "6"; "7"; "8"; "9"].

(** ** Numbers *)

Definition lower : text := decimals ++ ["a"; "b"; "c"; "d"; "e"; "f"].
Definition upper : text := decimals ++ ["A"; "B"; "C"; "D"; "E"; "F"].
(** [ch] is the digit [d] in base [b]. *)
Definition digit (b : Z) (ch : ascii) (d : Z) : Prop :=
  0 <= d < b /\ (nth_error lower (Z.to_nat d) = Some ch \/ nth_error upper (Z.to_nat d) = Some ch).
(** The number a text of digits denotes. *)
Inductive denotes (b : Z) : text -> Z -> Prop :=
| denotes_nil : denotes b [] 0
| denotes_snoc : forall s v ch d, denotes b s v -> digit b ch d -> denotes b (s ++ [ch]) (b * v + d).
(** Decimal, octal and hexadecimal integers. *)
Inductive magnitude : text -> Z -> Prop :=
| decimal_number : forall s v, denotes 10 s v -> s <> [] -> ~ begins ["0"] s -> magnitude s v
| octal_number : forall s v, denotes 8 s v -> magnitude ("0" :: s) v
| hexadecimal_number : forall x s v, In x ["x"; "X"] -> denotes 16 s v -> s <> [] -> magnitude ("0" :: x :: s) v.
Inductive sign : text -> bool -> Prop :=
| no_sign : sign [] false
| plus_sign : sign ["+"] false
| minus_sign : sign ["-"] true.
Definition signed (neg : bool) (v : Z) : Z := if neg then - v else v.
Definition integer (s : text) (v : Z) : Prop :=
  exists sg neg m w, s = sg ++ m /\ sign sg neg /\ magnitude m w /\ v = signed neg w.
(** The nearest 64-bit integer. *)
Definition saturate (v : Z) : Z := Z.max (- 2 ^ 63) (Z.min v (2 ^ 63 - 1)).
(** Digits with a decimal point: [v] scaled by [10 ^ k]. *)
Definition fraction (s : text) (neg : bool) (v k : Z) : Prop :=
  exists sg ip fp, s = sg ++ ip ++ "." :: fp /\ sign sg neg /\ ip <> [] /\ denotes 10 (ip ++ fp) v /\ k = Z.of_nat (List.length fp).
(** A '+', a '-' or a '.' right behind the digits belongs to the literal. *)
Definition number_ends (q : text) : Prop := ends q /\ ~ begins ["+"; "-"; "."] q.

(** ** Names *)

Definition bang (b : text) (neg : bool) : Prop := (b = [] /\ neg = false) \/ (b = ["!"] /\ neg = true).
(** [P3], [PT], [!p0] and so on, with [i] up to 9. *)
Definition predicate_name (s : text) (i : N) (neg : bool) : Prop :=
  exists b p x, s = b ++ [p; x] /\ bang b neg /\ In p ["P"; "p"] /\
    ((exists d, digit 10 x d /\ i = Z.to_N d) \/ (In x ["T"; "t"] /\ i = 7%N)).
(** The digit decides whether it is in range; [PT] always is. *)
Definition digit_name (s : text) : Prop := exists s' d, s = s' ++ [d] /\ In d decimals.

(** A name: at most its first character is a '.', and no character is another
    separator; it does not start like a number, except for the dimensions
    ("2D"); it is neither a predicate nor a register nor does it start with "RZ";
    a '!' needs a 'P'. *)
Definition word (w : text) : Prop :=
  exists h t, w = h :: t /\ Forall inner t /\ ~ In h blanks /\ h <> "000" /\ ~ In h (map fst operators) /\
    (In h decimals -> begins ["D"] t) /\
    (h = "!" -> begins ["P"; "p"] t) /\
    (forall b neg p t', bang b neg -> In p ["P"; "p"] -> w = b ++ p :: t' -> t' <> []) /\
    (forall i neg, ~ predicate_name w i neg) /\
    (h = "R" -> ~ begins ["Z"] t /\ exists x, In x t /\ ~ In x decimals).
(** A lone 'P' takes the separator behind it into the name. *)
Definition odd_word (w : text) : Prop :=
  exists b neg p x t, w = b ++ p :: x :: t /\ bang b neg /\ In p ["P"; "p"] /\ In x separators /\ Forall inner t.
Definition name (w : text) : Prop := word w \/ odd_word w.
Definition colon_last (w : text) : Prop := exists w', w = w' ++ [":"].

(** What [strtoll] would read as a number: white space, a sign, a digit. *)
Definition spaces : text := [" "; "009"; "010"; "011"; "012"; "013"].
Definition numeric (q : text) : Prop :=
  exists sp sg neg d q', q = sp ++ sg ++ d :: q' /\ Forall (fun ch => In ch spaces) sp /\ sign sg neg /\ In d decimals.

(** ** Tokens *)

(** [lexeme s k q]: the characters [s], followed by the text [q], are the token [k]. *)
Inductive lexeme : text -> tkind -> text -> Prop :=
| lexeme_operator : forall ch k q, In (ch, k) operators -> (In ch ["+"; "-"] -> ~ begins decimals q) -> lexeme [ch] k q
| lexeme_predicate : forall s i neg q, predicate_name s i neg -> (i <= 6)%N \/ ~ digit_name s -> ends q -> lexeme s (TPred i neg) q
| lexeme_integer : forall s v q, integer s v -> number_ends q -> lexeme s (TImm (saturate v)) q
| lexeme_float : forall s neg v k q, fraction s neg v k -> ends q -> lexeme s (TFloat (f32_of_ratio neg v (10 ^ k))) q
| lexeme_zero : forall q, ends q -> lexeme ["R"; "Z"] (TReg 255) q
| lexeme_register : forall s n q, denotes 10 s n -> s <> [] -> n <= 254 -> ends q -> lexeme ("R" :: s) (TReg (Z.to_N n)) q
| lexeme_lone_register : forall q, ends q -> ~ numeric q -> lexeme ["R"] (TReg 0) q
| lexeme_name : forall w q, name w -> ~ colon_last w -> ends q -> lexeme w (TIdent w) q.
(** A label definition. *)
Definition label_text (w q : text) : Prop := name w /\ colon_last w /\ ends q.
(** White space and label definitions in front of [q]. *)
Inductive gap : text -> text -> Prop :=
| gap_blank : forall ws q, Forall (fun ch => In ch blanks) ws -> gap ws q
| gap_label : forall ws w g q, Forall (fun ch => In ch blanks) ws -> label_text w (g ++ q) -> gap g q -> gap (ws ++ w ++ g) q.

(** Texts no token starts with: they are rejected. *)
Definition number_start (l : text) : Prop := exists sg neg ch l', l = sg ++ ch :: l' /\ sign sg neg /\ In ch decimals.
Inductive bad_text : text -> Prop :=
| bad_bang : forall r, ~ begins ["P"; "p"] r -> bad_text ("!" :: r)
| bad_predicate : forall s i neg r, predicate_name s i neg -> digit_name s -> (6 < i)%N -> ends r -> bad_text (s ++ r)
| bad_number : forall l, number_start l -> ~ (exists d r, l = d :: "D" :: r /\ In d decimals) ->
    (forall s v q, l = s ++ q -> integer s v -> ~ number_ends q) ->
    (forall s neg v k q, l = s ++ q -> fraction s neg v k -> ~ ends q) -> bad_text l
| bad_zero_register : forall r, ~ ends r -> bad_text ("R" :: "Z" :: r)
| bad_register : forall s n r, denotes 10 s n -> s <> [] -> 254 < n -> ends r -> bad_text ("R" :: s ++ r)
| bad_lone_register : forall r, ends r -> numeric r -> bad_text ("R" :: r).
