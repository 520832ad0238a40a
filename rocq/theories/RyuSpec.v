(** * Decimal texts and the doubles they stand for *)
From Verif Require Import Base Text FloatSpec.
Local Open Scope Z_scope.

(** ** Texts *)

Definition is_digit (c : N) : Prop := (48 <= c <= 57)%N.
(** The number that digits denote. *)
Definition digits_value (ds : bytes) : Z := fold_left (fun a c => 10 * a + (Z.of_N c - 48)) ds 0.
Definition minus (negative : bool) : bytes := if negative then $"-" else [].

(** Digits before and after a point; without the latter, no point. The number: [digits_value (ints ++ frac) * 10^-(length frac)]. *)
Definition fixed_text (negative : bool) (ints frac : bytes) : bytes :=
  minus negative ++ ints ++ (match frac with [] => [] | _ => $"." ++ frac end).
(** ... with a decimal exponent. *)
Definition scientific_text (negative : bool) (ints frac : bytes) (negative_exponent : bool) (expo : bytes) : bytes :=
  fixed_text negative ints frac ++ $"e" ++ (if negative_exponent then $"-" else $"+") ++ expo.

(** No digit too many: "0" or no leading zero before the point, no trailing zero after it. *)
Definition canonical_digits (ints frac : bytes) : Prop :=
  Forall is_digit ints /\ Forall is_digit frac /\
  (ints = $"0" \/ exists c r, ints = c :: r /\ c <> 48%N) /\ (frac = [] \/ exists r c, frac = r ++ [c] /\ c <> 48%N).

(** ** Rounding *)

(** [r] is the integer nearest to [num / den]; of two nearest ones, the even one. *)
Definition nearest_even (num den r : Z) : Prop :=
  2 * Z.abs (r * den - num) <= den /\ (2 * Z.abs (r * den - num) = den -> Z.even r = true).

(** [r] is the number of units of 10^-p nearest to [m * 10^e]. *)
Definition rounds_at (p m e r : Z) : Prop :=
  nearest_even (m * 10 ^ Z.max 0 (e + p)) (10 ^ Z.max 0 (- (e + p))) r.

(** ** Doubles *)

(** The magnitude of the double with the exponent and fraction bits [n], in units of 2^-1074. That of the pattern after the largest
    finite one is 2^1024. *)
Definition magnitude (n : Z) : Z :=
  let exponent := n / 2 ^ 52 in
  let fraction := n mod 2 ^ 52 in
  if exponent =? 0 then fraction else (2 ^ 52 + fraction) * 2 ^ (exponent - 1).

(** The largest finite double, and the pattern for the sign. *)
Definition finite (n : Z) : Prop := 0 <= n < 2047 * 2 ^ 52.

(** Among the doubles, [n] is the one nearest to [m * 10^e]; of two nearest ones, the one with an even pattern. In other words,
    [m * 10^e] lies between the points half-way to the neighbours of [n], which belong to [n] when [n] is even. *)
Definition nearest_double (n m e : Z) : Prop :=
  let x := 2 * m * 2 ^ 1074 * 10 ^ Z.max 0 e in
  let low := (magnitude (n - 1) + magnitude n) * 10 ^ Z.max 0 (- e) in
  let high := (magnitude n + magnitude (n + 1)) * 10 ^ Z.max 0 (- e) in
  if Z.even n then low <= x <= high else low < x < high.

(** How far [m * 10^e] is from the double [n], in units that depend on [e] only. *)
Definition distance (n m e : Z) : Z := Z.abs (m * 2 ^ 1074 * 10 ^ Z.max 0 e - magnitude n * 10 ^ Z.max 0 (- e)).

(** Among the decimals to which [n] is the nearest double, [m * 10^e] is one with as few digits as possible: there is none that is a
    multiple of a larger power of ten. Of those that are multiples of 10^e, it is the one nearest to [n]; of two nearest ones, the even one. *)
Definition shortest_decimal (n m e : Z) : Prop :=
  nearest_double n m e /\
  (forall m', ~ nearest_double n m' (e + 1)) /\
  (forall m', nearest_double n m' e ->
     distance n m e <= distance n m' e /\ (distance n m e = distance n m' e -> m' = m \/ Z.even m = true)).

(** ** What texts denote *)

(** The sign, and [m] and [e] with the number [m * 10^e]. *)
Inductive denotes : bytes -> bool -> Z -> Z -> Prop :=
  | denotes_fixed negative ints frac : canonical_digits ints frac ->
      denotes (fixed_text negative ints frac) negative (digits_value (ints ++ frac)) (- Z.of_nat (length frac))
  | denotes_scientific negative ints frac negative_exponent expo : canonical_digits ints frac -> length ints = 1%nat ->
      Forall is_digit expo -> expo <> [] ->
      denotes (scientific_text negative ints frac negative_exponent expo) negative (digits_value (ints ++ frac))
        ((if negative_exponent then - digits_value expo else digits_value expo) - Z.of_nat (length frac)).

(** [text] is [m * 10^e], rounded to [p] digits after the point and without the zeros at the end. Zero has no sign. *)
Definition rounded_text (negative : bool) (p m e : Z) (text : bytes) : Prop :=
  exists ints frac r, text = fixed_text (negative && negb (r =? 0)) ints frac /\ canonical_digits ints frac /\
    Z.of_nat (length frac) <= p /\ rounds_at p m e r /\ digits_value (ints ++ frac) * 10 ^ (p - Z.of_nat (length frac)) = r.

(** The parts of a double: whether it is negative, and its exponent and fraction bits. *)
Definition is_negative (f : N) : bool := N.testbit f 63.
Definition unsigned (f : N) : Z := Z.of_N (f mod 2 ^ 63).

(** The text denotes a number to which no double is nearer than [f]: reading it with correct rounding gives [f]. *)
Definition reads_back (text : bytes) (f : N) : Prop :=
  exists m e, denotes text (is_negative f) m e /\ nearest_double (unsigned f) m e.

(** A parser that reads every number as the nearest double. Of numbers that no double is near to, of numbers other than zero to which zero
    is nearest, and of texts of 64 bytes and more, nothing is asked. *)
Definition correctly_rounding (parse : bytes -> option N) : Prop :=
  forall t f m e, (f < 2 ^ 64)%N -> denotes t (is_negative f) m e -> nearest_double (unsigned f) m e ->
    finite (unsigned f) -> (unsigned f = 0 -> m = 0) -> (length t < 64)%nat -> parse t = Some f.

(** Numbers of which [p] digits after the point are enough: zero, those of at least 10^(16-p), and integers below 2^53. *)
Definition keeps (p : Z) (f : N) : Prop :=
  (f < 2 ^ 64)%N /\
  (f = 0%N \/ exists k, value64 f = DFinite k /\
     (10 ^ (16 - p) * 2 ^ 1074 <= Z.abs k \/ exists v, 1 <= v < 2 ^ 53 /\ Z.abs k = v * 2 ^ 1074)).
