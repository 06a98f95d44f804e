(** * SpecCli: argument vectors and files. *)
From Verif Require Import Base.
Local Open Scope string_scope.
Local Open Scope list_scope.

Definition dash_o : text := lit "-o".
(** [args] names exactly the input [i] and the output [o]. *)
Definition names (args : list text) (i o : text) : Prop :=
  i <> dash_o /\ (args = [i; dash_o; o] \/ args = [dash_o; o; i]).

(** What is wrong with the other argument vectors. *)
Inductive args_error : list text -> string -> Prop :=
| E_second_input : forall pre a rest, a <> dash_o ->
    (exists i, i <> dash_o /\ (pre = [i] \/ exists o, pre = [i; dash_o; o] \/ pre = [dash_o; o; i])) ->
    args_error (pre ++ a :: rest) "command line input file already provided"
| E_second_output : forall pre rest,
    (exists o, pre = [dash_o; o] \/ exists i, i <> dash_o /\ (pre = [i; dash_o; o] \/ pre = [dash_o; o; i])) ->
    args_error (pre ++ dash_o :: rest) "command line output file already provided"
| E_dangling : forall pre, pre = [] \/ (exists i, i <> dash_o /\ pre = [i]) ->
    args_error (pre ++ [dash_o]) "expected command line syntax: ""-o"" <output file>"
| E_no_input : forall args, args = [] \/ (exists o, args = [dash_o; o]) -> args_error args "no input file"
| E_no_output : forall i, i <> dash_o -> args_error [i] "no output file".

(** The text before the first NUL. *)
Definition before_nul (data p : text) : Prop :=
  ~ In NUL p /\ (data = p \/ exists q, data = p ++ NUL :: q).

(** Byte [j] of the little-endian representation of the words [l]. *)
Definition byte_of (l : list N) (j : nat) : ascii := ascii_of_N ((nth (j / 8) l 0 / 2 ^ (8 * N.of_nat (j mod 8))) mod 256)%N.
Definition little_endian (l : list N) (data : text) : Prop :=
  List.length data = (8 * List.length l)%nat /\ forall j, (j < List.length data)%nat -> nth j data NUL = byte_of l j.
