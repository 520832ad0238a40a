(** * The order of doubles *)
From Verif Require Import Base.
Local Open Scope Z_scope.

(** The value of a 64-bit pattern (IEEE 754 binary64). Every finite double is a multiple of 2^-1074: [DFinite k] stands
    for k * 2^-1074. *)
Inductive dvalue := DNaN | DInf (negative : bool) | DFinite (k : Z).

Definition value64 (w : N) : dvalue :=
  let negative := N.testbit w 63 in
  let exponent := Z.of_N ((w / 2 ^ 52) mod 2 ^ 11) in
  let fraction := Z.of_N (w mod 2 ^ 52) in
  if exponent =? 2047 then (if fraction =? 0 then DInf negative else DNaN)
  else
    let magnitude := if exponent =? 0 then fraction else (2 ^ 52 + fraction) * 2 ^ (exponent - 1) in
    DFinite (if negative then - magnitude else magnitude).

(** The order of the extended reals; NaN is not comparable to anything. *)
Definition value_lt (a b : dvalue) : bool :=
  match a, b with
  | DNaN, _ | _, DNaN => false
  | DInf true, DInf true => false
  | DInf true, _ => true
  | _, DInf true => false
  | DInf false, _ => false
  | _, DInf false => true
  | DFinite j, DFinite k => j <? k
  end.

Definition double_lt (a b : N) : bool := value_lt (value64 a) (value64 b).
Definition is_nan (w : N) : bool := match value64 w with DNaN => true | _ => false end.
