(** * What a bitmap holds *)
From Verif Require Import Base.
Local Open Scope Z_scope.

(** Bit [i] of a bitmap is bit [i mod 8], least significant first, of byte [i / 8] (Arrow columnar format). *)
Definition bit_of (m : bytes) (i : Z) : option bool :=
  if i <? 0 then None
  else option_map (fun b => N.testbit b (Z.to_N (i mod 8))) (nth_error m (Z.to_nat (i / 8))).

(** The bitmap starts with exactly these bits. *)
Definition holds_bits (m : bytes) (bits : list bool) : Prop :=
  forall i b, nth_error bits i = Some b -> bit_of m (Z.of_nat i) = Some b.

(** Number of bytes needed for [n] bits. *)
Definition bytes_needed (n : Z) : Z := (n + 7) / 8.

(** The bits appended by a list of runs. *)
Definition run_bits (runs : list (bool * Z)) : list bool := flat_map (fun r => repeat (fst r) (Z.to_nat (snd r))) runs.
