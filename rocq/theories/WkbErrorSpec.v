(** * What the messages of the WKB reader say *)
From Verif Require Import Base Text WktErrorSpec.
Local Open Scope N_scope.

(** Four bytes of [src] at [p] as a number, in the byte order that the byte [e] stands for. *)
Definition uint32_at (src : bytes) (p : N) (e : N) (n : N) : Prop :=
  exists before b0 b1 b2 b3 after, src = before ++ [b0; b1; b2; b3] ++ after /\ N.of_nat (length before) = p /\
    n = if e =? 1 then le_val [b0; b1; b2; b3] else le_val [b3; b2; b1; b0].
(** The geometry type in a type word: its low 16 bits without the thousands for the dimensions, of which there are at most three. *)
Definition type_in (w : N) : N := let g := w mod 2 ^ 16 in g - 1000 * N.min 3 (g / 1000).

(** A message about [src], and the code that is returned with it: what must be so if it is true. *)
Inductive complaint (src : bytes) : Z -> bytes -> Prop :=
| no_endian p d : p = N.of_nat (length src) -> decimal_of p d ->
    complaint src 22 ($"Expected endian byte but found end of buffer at byte " ++ d)
| no_uint32 p d : p <= N.of_nat (length src) < p + 4 -> decimal_of p d ->
    complaint src 22 ($"Expected uint32 but found end of buffer at byte " ++ d)
(** [n] coordinates with [k] ordinates each do not fit between [p] and the end. They are one point, or their number is before [p]. *)
| no_coordinates n k p needed found dn dneeded dfound dp :
    2 <= k <= 4 -> n = 1 \/ (exists e, uint32_at src (p - 4) e n) -> p <= N.of_nat (length src) < p + needed -> needed <= 8 * k * n ->
    decimal_of n dn -> decimal_of needed dneeded -> decimal_of found dfound -> decimal_of p dp ->
    (n * k < 2 ^ 32 -> needed = 8 * k * n) -> N.of_nat (length src) <= p + found < p + needed ->
    complaint src 22 ($"Expected coordinate sequence of " ++ dn ++ $" coords (" ++ dneeded ++ $" bytes) but found " ++ dfound ++ $" bytes remaining at byte " ++ dp)
(** A type that is none of the seven, in a type word at [p] after the byte for the byte order. *)
| bad_type before e after w p d dp : src = before ++ [e] ++ after -> N.of_nat (length before) + 1 = p -> uint32_at src p e w ->
    ~ (1 <= type_in w <= 7) -> decimal_of (type_in w) d -> decimal_of p dp ->
    complaint src 22 ($"Expected valid geometry type code but found " ++ d ++ $" at byte " ++ dp)
(** There is room for 256 headers with a byte order, a type and a number of parts. *)
| too_deep : 256 * 9 <= N.of_nat (length src) -> complaint src 95 $"WKBReader exceeded maximum recursion".
