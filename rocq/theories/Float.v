(** * Float: the floating-point conversions the assembler performs.

    Floats are modelled by their IEEE-754 bit patterns (as [N]).
    - [f32_of_ratio], [f64_of_ratio]: correctly rounded (to nearest, ties to
      even) conversion of a rational, which is what [std::strtof] and the
      integer-to-float conversions deliver in the default rounding mode.
      This is an assumption about libc and the compiler (see DESIGN.md).
    - [fp32_to_fp16]: /repo/src/fp16.h, bit for bit. *)
From Verif Require Import Base.
Open Scope Z_scope.

(** Round the non-negative rational [num/den] to a binary format with [p]
    bits of precision and least exponent [emin]; returns the bit pattern
    without sign (biased exponent above a (p-1)-bit fraction), or [inf_pat]
    when the rounded value is out of range. *)
Definition round_ratio (p emin inf_pat : Z) (num den : Z) : N :=
  if num =? 0 then 0%N else
  let e0 := Z.log2 num - Z.log2 den - p + 1 in
  (* num/den * 2^-e0 lies in (2^(p-2), 2^p) *)
  let small :=
    if 0 <=? e0 then num <? den * 2 ^ e0 * 2 ^ (p - 1)
    else num * 2 ^ (- e0) <? den * 2 ^ (p - 1) in
  let e := Z.max emin (if small then e0 - 1 else e0) in
  let a := if 0 <=? e then num else num * 2 ^ (- e) in
  let b := if 0 <=? e then den * 2 ^ e else den in
  let q := a / b in
  let r := a mod b in
  let up := (b <? 2 * r) || ((2 * r =? b) && Z.odd q) in
  let q' := if up then q + 1 else q in
  let pat := (e - emin) * 2 ^ (p - 1) + q' in
  if inf_pat <=? pat then Z.to_N inf_pat else Z.to_N pat.

Definition f32_inf : N := 0x7F800000.
Definition f64_inf : N := 0x7FF0000000000000.
Definition f32_qnan : N := 0x7FC00000.
Definition f64_qnan : N := 0x7FF8000000000000.
Definition f32_sign : N := 0x80000000.
Definition f64_sign : N := 0x8000000000000000.

Definition with_sign (neg : bool) (sign mag : N) : N :=
  if neg then N.lor sign mag else mag.

(** binary32: 24 bits of precision, least exponent -149. *)
Definition f32_of_ratio (neg : bool) (num den : Z) : N :=
  with_sign neg f32_sign (round_ratio 24 (-149) (Z.of_N f32_inf) num den).
(** binary64: 53 bits of precision, least exponent -1074. *)
Definition f64_of_ratio (neg : bool) (num den : Z) : N :=
  with_sign neg f64_sign (round_ratio 53 (-1074) (Z.of_N f64_inf) num den).

(** [static_cast<float>(int64_t)], [static_cast<double>(int64_t)]. *)
Definition f32_of_Z (z : Z) : N := f32_of_ratio (z <? 0) (Z.abs z) 1.
Definition f64_of_Z (z : Z) : N := f64_of_ratio (z <? 0) (Z.abs z) 1.

(** Fields of a binary32 pattern. *)
Definition f32_neg (x : N) : bool := N.testbit x 31.
Definition f32_exp (x : N) : N := N.land (N.shiftr x 23) 255.
Definition f32_man (x : N) : N := N.land x 0x7FFFFF.
Definition f32_is_nan (x : N) : bool :=
  N.eqb (f32_exp x) 255 && negb (N.eqb (f32_man x) 0).

(** float to double conversion (exact).  NaN never reaches it: the token's
    float comes from strtof on a literal starting with a digit or sign. *)
Definition f64_of_f32 (x : N) : N :=
  if N.eqb (f32_exp x) 255 then
    with_sign (f32_neg x) f64_sign
      (if N.eqb (f32_man x) 0 then f64_inf else f64_qnan)
  else
    let e := Z.of_N (f32_exp x) in
    let m := Z.of_N (f32_man x) in
    f64_of_ratio (f32_neg x) (if e =? 0 then m else (m + 2 ^ 23) * 2 ^ (e - 1)) (2 ^ 149).

(** [x < 0] on a float / double pattern: negative, not zero, not NaN. *)
Definition f32_lt0 (x : N) : bool :=
  f32_neg x && negb (N.eqb (N.land x 0x7FFFFFFF) 0) && negb (f32_is_nan x).
Definition f64_lt0 (x : N) : bool :=
  N.testbit x 63 && negb (N.eqb (N.land x 0x7FFFFFFFFFFFFFFF) 0)
  && negb (N.ltb f64_inf (N.land x 0x7FFFFFFFFFFFFFFF)).

(** [x != y] on two float patterns: NaN differs from everything, the two
    zeros are equal. *)
Definition f32_ne (x y : N) : bool :=
  f32_is_nan x || f32_is_nan y ||
  negb (N.eqb x y || (N.eqb (N.land x 0x7FFFFFFF) 0 && N.eqb (N.land y 0x7FFFFFFF) 0)).

(** src/fp16.h:27-72, instantiated at [std::round_to_nearest] (its default
    template argument, the only instance used).  [uint16_t] arithmetic:
    results are reduced mod 2^16. *)
Definition u16 (x : N) : N := N.modulo x 65536.
Definition fp32_to_fp16 (value_bits : N) : N :=
  let hbits := N.land (N.shiftr value_bits 16) 0x8000 in
  let bits := N.land value_bits 0x7FFFFFFF in
  let exp := N.shiftr bits 23 in
  if N.eqb exp 255 then
    u16 (N.lor (N.lor hbits 0x7C00)
               (if N.eqb (N.land bits 0x7FFFFF) 0 then 0 else 0x3FF))
  else if N.ltb 142 exp then
    u16 (N.lor hbits 0x7BFF + 1)
  else
    let '(hbits, g, s) :=
      if N.ltb 112 exp then
        (N.lor hbits (u16 (N.lor (N.shiftl (exp - 112) 10) (N.land (N.shiftr bits 13) 0x3FF))),
         N.land (N.shiftr bits 12) 1,
         if N.eqb (N.land bits 0xFFF) 0 then 0%N else 1%N)
      else if N.ltb 101 exp then
        let i := (125 - exp)%N in
        let bits := N.lor (N.land bits 0x7FFFFF) 0x800000 in
        (N.lor hbits (u16 (N.shiftr bits (i + 1))),
         N.land (N.shiftr bits i) 1,
         if N.eqb (N.land bits (N.shiftl 1 i - 1)) 0 then 0%N else 1%N)
      else
        (hbits, 0%N, if N.eqb bits 0 then 0%N else 1%N) in
    u16 (hbits + N.land g (N.lor s hbits)).
