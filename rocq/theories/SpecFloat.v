(** * SpecFloat: rounding to nearest, ties to even, on bit patterns.

    A binary format has [p] bits of precision and the least positive number
    [2^emin]; the patterns of its non-negative numbers are [0 .. inf], in the
    order of their values.  Infinity takes part with the value the pattern
    would have if the exponent range went on, which is the IEEE 754 rule for
    overflow. *)
From Coq Require Import ZArith NArith Bool.
From Verif Require Import Base Lexer SpecLex.
Local Open Scope list_scope.
Open Scope Z_scope.

(** Value of the pattern [k] in units of [2^emin]. *)
Definition scaled (p k : Z) : Z :=
  if k <? 2 ^ (p - 1) then k else (2 ^ (p - 1) + k mod 2 ^ (p - 1)) * 2 ^ (k / 2 ^ (p - 1) - 1).
(** Distance between [num/den] and the pattern [k], times [den * 2^-emin]. *)
Definition apart (p emin num den k : Z) : Z := Z.abs (num * 2 ^ (- emin) - scaled p k * den).
Definition nearest (p emin inf num den k : Z) : Prop :=
  0 <= k <= inf /\
  forall k', 0 <= k' <= inf -> k' <> k ->
    apart p emin num den k < apart p emin num den k' \/
    (apart p emin num den k = apart p emin num den k' /\ Z.even k = true).

(** [f] is the binary32, binary64, binary16 nearest to [num/den], negated if [neg]. *)
Definition inf32 : Z := 255 * 2 ^ 23.
Definition inf64 : Z := 2047 * 2 ^ 52.
Definition inf16 : Z := 31 * 2 ^ 10.
Definition single_of (neg : bool) (num den : Z) (f : N) : Prop :=
  (f / 2 ^ 31 = if neg then 1 else 0)%N /\ nearest 24 (-149) inf32 num den (Z.of_N (f mod 2 ^ 31)).
Definition double_of (neg : bool) (num den : Z) (f : N) : Prop :=
  (f / 2 ^ 63 = if neg then 1 else 0)%N /\ nearest 53 (-1074) inf64 num den (Z.of_N (f mod 2 ^ 63)).
Definition half_of (neg : bool) (num den : Z) (h : N) : Prop :=
  (h / 2 ^ 15 = if neg then 1 else 0)%N /\ nearest 11 (-24) inf16 num den (Z.of_N (h mod 2 ^ 15)).

(** [d] is the binary64 with exactly the value of the binary32 [f]. *)
Definition widened (f d : N) : Prop :=
  (d / 2 ^ 63 = f / 2 ^ 31)%N /\
  (if (f mod 2 ^ 31 =? 255 * 2 ^ 23)%N then (d mod 2 ^ 63 = 2047 * 2 ^ 52)%N
   else Z.of_N (d mod 2 ^ 63) < inf64 /\ scaled 53 (Z.of_N (d mod 2 ^ 63)) = scaled 24 (Z.of_N (f mod 2 ^ 31)) * 2 ^ (1074 - 149)).

(** In the program [code] the tokens [ks] are a literal for [num/den],
    negated if [neg]. *)
Inductive number (code : text) : list tkind -> bool -> Z -> Z -> Prop :=
| number_fraction : forall p s q f neg v k, code = p ++ s ++ q -> fraction s neg v k -> ends q -> single_of neg v (10 ^ k) f ->
    number code [TFloat f] neg v (10 ^ k)
| number_integer : forall z, number code [TImm z] (z <? 0) (Z.abs z) 1.
