(** * Literals: the libc conversions taken apart. *)
From Verif Require Import Base Float Lexer.
From Coq Require Import Lia.
Local Open Scope char_scope.
Local Open Scope list_scope.
Open Scope Z_scope.

(** The sign and the prefix of a number. *)
Definition sign_part (l : text) : bool * text :=
  match l with
  | ch :: l' => if Ascii.eqb ch "-" then (true, l') else if Ascii.eqb ch "+" then (false, l') else (false, l)
  | [] => (false, l)
  end.
Definition base_part (base : Z) (l : text) : Z * text :=
  if base =? 0 then
    match l with
    | "0"%char :: x :: l' => if (Ascii.eqb x "x" || Ascii.eqb x "X") && starts_digit 16 l' then (16, l') else (8, l)
    | "0"%char :: [] => (8, l)
    | _ => (10, l)
    end
  else (base, l).
Lemma strtoll_eq : forall base nptr, strtoll base nptr =
  let sp := sign_part (skip_space nptr) in
  let bp := base_part base (snd sp) in
  if starts_digit (fst bp) (snd bp) then
    let d := digits (fst bp) 0 (snd bp) in (clamp64 (if fst sp then - fst d else fst d), snd d)
  else (0, nptr).
Proof.
  intros base nptr. unfold strtoll. fold (sign_part (skip_space nptr)).
  destruct (sign_part (skip_space nptr)) as (neg, l) eqn:E. cbn [fst snd]. fold (base_part base l).
  destruct (base_part base l) as (b, l2). cbn [fst snd]. destruct (starts_digit b l2); [|reflexivity].
  destruct (digits b 0 l2); reflexivity.
Qed.
Definition point_part (l : text) : option text := match l with ch :: l' => if Ascii.eqb ch "." then Some l' else None | [] => None end.
Lemma strtof_eq : forall nptr, strtof nptr =
  let sp := sign_part (skip_space nptr) in
  if starts_digit 10 (snd sp) then
    let d := digits 10 0 (snd sp) in
    match point_part (snd d) with
    | Some l2 => let f := digits 10 (fst d) l2 in
        (f32_of_ratio (fst sp) (fst f) (10 ^ Z.of_nat (List.length l2 - List.length (snd f))), snd f)
    | None => (f32_of_ratio (fst sp) (fst d) 1, snd d)
    end
  else (0%N, nptr).
Proof.
  intros nptr. unfold strtof. fold (sign_part (skip_space nptr)).
  destruct (sign_part (skip_space nptr)) as (neg, l) eqn:E. cbn [fst snd].
  destruct (starts_digit 10 l); [|reflexivity]. destruct (digits 10 0 l) as (ip, l1). cbn [fst snd]. unfold point_part.
  destruct l1 as [|ch l1]; [reflexivity|]. destruct (Ascii.eqb_spec ch ".") as [->|NC].
  - destruct (digits 10 ip l1); reflexivity.
  - destruct ch as [[] [] [] [] [] [] [] []]; try reflexivity. exfalso. apply NC. reflexivity.
Qed.
