(** * SpecSafe: what to keep out of a text so that nothing undefined happens.

    Independent of the parser: everything is said about the characters of the
    text and about the tokens read from its start. *)
From Verif Require Import Base Lexer Spec SpecOperand SpecInsn.
Local Open Scope string_scope.
Local Open Scope list_scope.
Open Scope Z_scope.

(** The tokens [ks] are read one after the other somewhere in the text. *)
Definition occurs (code : text) (ks : list tkind) : Prop :=
  exists pre c, scan (Cursor code 0 0) (pre ++ ks) c.
(** The token [k] is read after the name [m] and the tokens [ks], none of which is ';'. *)
Definition inside (code : text) (m : string) (ks : list tkind) (k : tkind) : Prop :=
  occurs code (id m :: ks ++ [k]) /\ ~ In TSemi ks.

(** Not a register, a predicate or a number. *)
Definition textual (k : tkind) : Prop :=
  match k with TReg _ | TPred _ _ | TImm _ | TFloat _ => False | _ => True end.

Definition branch_names : list string := ["BRA"; "PBK"; "SSY"; "CAL"; "PCNT"].
Definition texture_names : list string := ["TEX"; "TLD4"; "TLD"; "TMML"; "TXD"].
Definition texture_types : list string :=
  ["1D"; "ARRAY_1D"; "2D"; "ARRAY_2D"; "3D"; "ARRAY_3D"; "CUBE"; "ARRAY_CUBE"].
Definition load_caches : list string := ["."; ".CG"; ".CI"; ".CV"].
Definition load_sizes : list string := [".U8"; ".S8"; ".U16"; ".S16"; ".32"; ".64"; ".128"; ".U"].

(** The last character is not one of a name. *)
Definition closed (code : text) : Prop :=
  forall p ch, code = p ++ [ch] -> ~ (letter ch \/ digit ch \/ ch = "_"%char).
(** The system register of [S2R] is not a register, predicate or number. *)
Definition system_registers (code : text) : Prop :=
  forall ks k, inside code "S2R" (ks ++ [TComma]) k -> textual k.
(** [LDG] has at most [.E], then at most one cache mode, then a size. *)
Definition loads (code : text) : Prop :=
  forall e c n, e = [] \/ e = [id ".E"] -> c = [] \/ (exists m, In m load_caches /\ c = [id m]) ->
    inside code "LDG" (e ++ c) (TIdent ("."%char :: n)) ->
    In ("."%char :: n) (map lit load_sizes) \/
    (c = [] /\ In ("."%char :: n) (map lit load_caches)) \/
    (e = [] /\ c = [] /\ "."%char :: n = lit ".E").
(** A name after a ',' in a texture instruction is a texture type. *)
Definition texture_operands (code : text) : Prop :=
  forall m ks n, In m texture_names -> inside code m (ks ++ [TComma]) (TIdent n) -> In n (map lit texture_types).
(** No number in a branch is far below zero. *)
Definition branch_numbers (code : text) : Prop :=
  forall m ks z, In m branch_names -> inside code m ks (TImm z) -> - 2 ^ 62 <= z.
(** The options. *)
Definition type_options (code : text) : Prop :=
  forall m k, In m [".type"; ".dksh"] -> occurs code [id m; k] -> textual k.
Definition gprs_options (code : text) : Prop :=
  forall k, occurs code [id ".num_gprs"; k] -> exists z, k = TImm z.
Definition local_options (code : text) : Prop :=
  forall z, occurs code [id ".local_memory"; TImm z] -> -67108879 <= z <= 67108784.

Definition rules : list (text -> Prop) :=
  [closed; system_registers; loads; texture_operands; branch_numbers; type_options; gprs_options; local_options].
Definition tame (code : text) : Prop := forall r, In r rules -> r code.
