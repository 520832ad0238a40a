(** * Comparing doubles *)
From Verif Require Import Base.
From Coq Require Import Floats.SpecFloat.
Local Open Scope Z_scope.

(** The value of a 64-bit pattern (IEEE 754 binary64), in the standard library's terms. *)
Definition decode64 (w : N) : spec_float :=
  let sign := N.testbit w 63 in
  let expo := Z.of_N ((w / 2 ^ 52) mod 2 ^ 11) in
  let mant := (w mod 2 ^ 52)%N in
  if expo =? 2047 then (if N.eqb mant 0 then S754_infinity sign else S754_nan)
  else if expo =? 0 then
    match mant with N0 => S754_zero sign | Npos p => S754_finite sign p (-1074) end
  else
    match (mant + 2 ^ 52)%N with N0 => S754_zero sign | Npos p => S754_finite sign p (expo - 1075) end.

(** C's [a < b] and [a > b] on doubles. *)
Definition dlt (a b : N) : bool := SFltb (decode64 a) (decode64 b).
Definition dgt (a b : N) : bool := SFltb (decode64 b) (decode64 a).
