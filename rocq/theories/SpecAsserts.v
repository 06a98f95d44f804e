(** * SpecAsserts: what to keep out of a text so that no assert fails.

    Everything is said about the characters of the text and about the tokens
    read from its start; the parser is not mentioned. *)
From Verif Require Import Base Lexer Spec SpecOperand SpecInsn SpecLex SpecSafe.
Local Open Scope string_scope.
Local Open Scope list_scope.
Open Scope Z_scope.

(** Behind [.PO] these tokens would negate an operand; [.PO] has already set
    the two negation bits. *)
Definition negations : list (string * list tkind) :=
  [("IADD", [TMinus; id ".NEG"]); ("IADD32I", [TMinus]); ("ISCADD", [TMinus]); ("VMAD", [TMinus])].
Definition sums (code : text) : Prop :=
  forall m l ks k, In (m, l) negations -> inside code m ks k -> In (id ".PO") ks -> ~ In k l.
(** The largest immediate of [IADD3] reaches into the field behind it. *)
Definition immediates (code : text) : Prop :=
  forall ks, ~ inside code "IADD3" ks (TImm (2 ^ 20)).
(** [SUST.D] has the bit of [.BA] in its opcode. *)
Definition stores (code : text) : Prop :=
  forall ks, In (id ".D") ks -> ~ inside code "SUST" ks (id ".BA").
(** The upper bytes of a video operand reach into its format. *)
Definition bytes (code : text) : Prop :=
  forall m ks w, In m ["VMAD"; "VMNMX"; "VSETP"] -> In w [".B2"; ".B3"] -> ~ inside code m ks (id w).
(** The comparison of [VSETP] named by a single '.' reaches into the field of the
    logic operation. *)
Definition comparisons (code : text) : Prop :=
  forall ks, ~ inside code "VSETP" ks (id ".").
(** A lone 'P' takes the character behind it, which must not be a ';'.  A 'P' in front
    of a ';' is not alone if it is inside a name. *)
Definition ends_read (code : text) : Prop :=
  forall a p b, In p ["P"%char; "p"%char] -> code = a ++ p :: ";"%char :: b ->
    exists a' ch, a = a' ++ [ch] /\ inner ch /\ ch <> "!"%char.
(** Nothing behind a NUL is read, although its ';' are counted. *)
Definition all_text (code : text) : Prop := ~ In NUL code.

Definition assert_rules : list (text -> Prop) := [sums; immediates; stores; bytes; comparisons; ends_read; all_text].
Definition assert_free (code : text) : Prop := forall r, In r assert_rules -> r code.
