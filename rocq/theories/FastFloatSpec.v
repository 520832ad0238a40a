(** * Numbers as they are read *)
From Verif Require Import Base Text RyuSpec.
Local Open Scope Z_scope.

(** ** Texts of numbers *)

(** An exponent: nothing, or a letter, perhaps a sign, and digits. *)
Inductive exponent_text : bytes -> Z -> Prop :=
  | no_exponent : exponent_text [] 0
  | an_exponent letter sign digits : letter = $"e" \/ letter = $"E" -> sign = [] \/ sign = $"+" \/ sign = $"-" -> Forall is_digit digits ->
      digits <> [] -> exponent_text (letter ++ sign ++ digits) (match sign with [45%N] => - digits_value digits | _ => digits_value digits end).

(** A number: perhaps a minus sign, at least one digit, perhaps a point before, after or between the digits, perhaps an exponent.
    It is [m * 10^e], or [- m * 10^e]. *)
Inductive number_text : bytes -> bool -> Z -> Z -> Prop :=
  | a_number negative ints point frac expo x : Forall is_digit ints -> Forall is_digit frac -> ints ++ frac <> [] ->
      point = $"." \/ (point = [] /\ frac = []) -> exponent_text expo x ->
      number_text (minus negative ++ ints ++ point ++ frac ++ expo) negative (digits_value (ints ++ frac)) (x - Z.of_nat (length frac)).

(** [text] is the longest number with which [t] starts, and [rest] is what follows. *)
Definition longest_number (t text rest : bytes) (negative : bool) (m e : Z) : Prop :=
  t = text ++ rest /\ number_text text negative m e /\
  forall text' rest' negative' m' e', t = text' ++ rest' -> number_text text' negative' m' e' -> (length text' <= length text)%nat.
(** [t] does not start with a number. *)
Definition no_number (t : bytes) : Prop := forall text rest negative m e, t = text ++ rest -> ~ number_text text negative m e.

(** ** The doubles to be read *)

(** [f] is the double nearest to the number. *)
Definition rounded (negative : bool) (m e : Z) (f : N) : Prop :=
  (f < 2 ^ 64)%N /\ is_negative f = negative /\ finite (unsigned f) /\ nearest_double (unsigned f) m e.
(** The number is as near to 2^1024 as to the largest double, or nearer, or above. *)
Definition too_large (m e : Z) : Prop :=
  (magnitude (2047 * 2 ^ 52 - 1) + magnitude (2047 * 2 ^ 52)) * 10 ^ Z.max 0 (- e) <= 2 * m * 2 ^ 1074 * 10 ^ Z.max 0 e.
(** The number is not zero, but zero is the nearest double. *)
Definition too_small (m e : Z) : Prop := m <> 0 /\ nearest_double 0 m e.

(** ** Words *)

(** Letters, in either case *)
Fixpoint same_word (t word : bytes) : Prop :=
  match t, word with
  | [], [] => True
  | c :: t, w :: word => (c = w \/ (c + 32)%N = w) /\ same_word t word
  | _, _ => False
  end.
Definition is_word_char (c : N) : Prop := (97 <= c <= 122 \/ 65 <= c <= 90 \/ 48 <= c <= 57 \/ c = 95)%N.
(** Infinities and not-a-numbers, and what follows them *)
Inductive word_text : bytes -> bool -> N -> Prop :=
  | an_infinity negative word : same_word word $"inf" \/ same_word word $"infinity" -> word_text (minus negative ++ word) negative (2047 * 2 ^ 52)
  | not_a_number negative word : same_word word $"nan" -> word_text (minus negative ++ word) negative (2047 * 2 ^ 52 + 2 ^ 51)
  | not_a_number_with negative word chars : same_word word $"nan" -> Forall is_word_char chars ->
      word_text (minus negative ++ word ++ $"(" ++ chars ++ $")") negative (2047 * 2 ^ 52 + 2 ^ 51).
Definition longest_word (t text rest : bytes) (negative : bool) (bits : N) : Prop :=
  t = text ++ rest /\ word_text text negative bits /\
  forall text' rest' negative' bits', t = text' ++ rest' -> word_text text' negative' bits' -> (length text' <= length text)%nat.
Definition no_word (t : bytes) : Prop := forall text rest negative bits, t = text ++ rest -> ~ word_text text negative bits.

(** ** Arithmetic *)

(** Products of doubles that are doubles are exact, whatever the rounding mode. *)
Definition exact_products (mul : Z -> Z -> Z) : Prop :=
  forall a b n, finite a -> finite b -> finite n -> magnitude n * 2 ^ 1074 = magnitude a * magnitude b -> mul a b = n.
