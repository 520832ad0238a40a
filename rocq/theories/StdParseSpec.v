(** * What the C library is asked for *)
From Verif Require Import Base Text RyuSpec FastFloatSpec.
Local Open Scope Z_scope.

(** strtod as in C17 7.22.1.3 with the rounding of Annex F: it takes no more than there is and nothing of a text that starts with the
    letter E; a decimal number of fewer than 64 bytes is taken as a whole, with its sign, and is read as the nearest double if there is one. *)
Record strtod_ok (strtod : bytes -> N * nat) : Prop := {
  strtod_in_text : forall t, (snd (strtod t) <= length t)%nat;
  strtod_letter : forall t, snd (strtod (69%N :: t)) = 0%nat;
  strtod_number : forall t negative m e, number_text t negative m e -> (length t < 64)%nat ->
    snd (strtod t) = length t /\ (fst (strtod t) < 2 ^ 64)%N /\ is_negative (fst (strtod t)) = negative /\
    forall n, finite n -> nearest_double n m e -> unsigned (fst (strtod t)) = n
}.
