(** * SpecTester: which tests pass. *)
From Verif Require Import Base SpecLex.
Local Open Scope string_scope.
Local Open Scope list_scope.
Open Scope Z_scope.

(** The argument is "0x" and the digits of [n], with something else or nothing
    behind them. *)
Definition expects (s : text) (n : N) : Prop :=
  exists x ds more, s = "0"%char :: x :: ds ++ more /\ In x (lit "xX") /\ ds <> [] /\ denotes 16 ds (Z.of_N n) /\
    (n < 2 ^ 64)%N /\ ~ begins (lit "0123456789abcdefABCDEF") more.
(** The number in upper case digits, without needless zeros. *)
Definition upper_hex (n : N) (s : text) : Prop :=
  denotes 16 s (Z.of_N n) /\ s <> [] /\ Forall (fun ch => In ch (lit "0123456789ABCDEF")) s /\ (begins (lit "0") s -> s = lit "0").
