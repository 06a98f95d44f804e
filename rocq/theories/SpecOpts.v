(** * SpecOpts: what the option lines of a program say. *)
From Verif Require Import Base Lexer SpecOperand.
Local Open Scope string_scope.
Local Open Scope list_scope.
Open Scope Z_scope.

(** One option.  [SType container ty] is [.type] or, for a container, [.dksh]. *)
Inductive setting :=
| SType (container : bool) (ty : N)
| SGroup (x y z : Z)
| SShared (z : Z)
| SLocal (z : Z)
| SIgnored (name : text).

Definition type_names : list (string * N) :=
  [("vertex", 0%N); ("tess_control", 1%N); ("hull", 1%N); ("tess_eval", 2%N); ("domain", 2%N);
   ("geometry", 3%N); ("fragment", 4%N); ("pixel", 4%N); ("compute", 5%N)].
Definition known_options : list string :=
  [".dksh"; ".type"; ".num_gprs"; ".workgroup_size"; ".shared_memory"; ".local_memory"].

(** How an option is written. *)
Inductive written : setting -> list tkind -> Prop :=
| W_type : forall n ty, In (n, ty) type_names -> written (SType false ty) [id ".type"; id n]
| W_dksh : forall n ty, In (n, ty) type_names -> written (SType true ty) [id ".dksh"; id n]
| W_group : forall x y z, written (SGroup x y z) [id ".workgroup_size"; TImm x; TImm y; TImm z]
| W_shared : forall z, written (SShared z) [id ".shared_memory"; TImm z]
| W_local : forall z, written (SLocal z) [id ".local_memory"; TImm z]
| W_ignored : forall name, ~ In ("."%char :: name) (map lit known_options) ->
    written (SIgnored name) [TIdent ("."%char :: name)].

(** Options whose arguments must be on the line of the option. *)
Definition one_line (s : setting) : Prop :=
  match s with SType _ _ | SGroup _ _ _ => True | _ => False end.

(** The tokens [ts] stand between [c] and [c']. *)
Inductive tokens : cursor -> list token -> cursor -> Prop :=
| tokens_nil : forall c, tokens c [] c
| tokens_cons : forall c t c1 ts c', tokenize c = Ok (t, c1) -> tokens c1 ts c' -> tokens c (t :: ts) c'.

(** The options [l] stand between [c] and [c'].  The token behind an option
    is on another line. *)
Inductive options_at : cursor -> list setting -> cursor -> Prop :=
| options_none : forall c, options_at c [] c
| options_one : forall c s t ts c1 t' c2 l c', tokens c (t :: ts) c1 -> written s (map kind (t :: ts)) ->
    (one_line s -> Forall (fun u => t_line u = t_line t) ts) ->
    tokenize c1 = Ok (t', c2) -> t_line t' <> t_line t ->
    options_at c1 l c' -> options_at c (s :: l) c'.

(** ** Meaning *)

Definition int32 (z : Z) : Z := (z + 2 ^ 31) mod 2 ^ 32 - 2 ^ 31.
Definition uint32 (z : Z) : N := Z.to_N (z mod 2 ^ 32).

Definition types (l : list setting) : list N :=
  flat_map (fun s => match s with SType _ ty => [ty] | _ => [] end) l.
Definition container (l : list setting) : Prop := exists ty, In (SType true ty) l.
(** The last value given, [d] if none is. *)
Definition latest {A} (pick : setting -> option A) (d : A) (l : list setting) : A :=
  fold_left (fun v s => match pick s with Some x => x | None => v end) l d.
Definition shared_of (s : setting) : option Z := match s with SShared z => Some z | _ => None end.
Definition local_of (s : setting) : option Z := match s with SLocal z => Some z | _ => None end.
Definition group_of (s : setting) : option (Z * Z * Z) := match s with SGroup x y z => Some (x, y, z) | _ => None end.

(** The options in front of the instructions that end where [ends] says. *)
Inductive options_before : cursor -> list cursor -> list (list setting) -> Prop :=
| before_end : forall c, options_before c [] []
| before_next : forall c s c1 c' ends ss, options_at c s c1 ->
    (forall t c2, tokenize c1 = Ok (t, c2) -> forall n, kind t <> TIdent ("."%char :: n)) ->
    options_before c' ends ss -> options_before c (c' :: ends) (s :: ss).
