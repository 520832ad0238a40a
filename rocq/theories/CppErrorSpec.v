(** * What the messages of exceptions about WKB say *)
From Verif Require Import Base Text GeomSpec WkbSpec CppWkbModel CppWkbSpec.

(** [before_header q]: after the bytes [q] the header of a geometry comes: at the start, and in a collection that has more members than those
    that have been encoded, where the next one begins or has been begun. *)
Inductive before_header : bytes -> Prop :=
| at_start : before_header []
| in_collection h k d n members q : header_ok h d (coll_code k) -> (n < 2 ^ 32)%N -> Forall tree_ok members ->
    (N.of_nat (length members) < n)%N -> before_header q ->
    before_header (header_bytes h ++ enc32 (h_endian h) n ++ flat_map tree_bytes members ++ q).

(** [cut r]: the bytes [r], where a geometry should be, end too early: before the end of the byte order and the type word; before the end of the
    SRID that the type word announces; or [r] is the beginning of an encoding that goes on. *)
Inductive cut (r : bytes) : Prop :=
| no_word : (length r < 5)%nat -> cut r
| no_srid e w rest : r = [endian_byte e] ++ enc32 e w ++ rest -> (w < 2 ^ 32)%N -> N.testbit w 29 = true -> (length rest < 4)%nat -> cut r
| not_finished t : tree_ok t -> strict_prefix r (tree_bytes t) -> cut r.

(** Names of the errors, and what must be so of the bytes if the error is as it is named: no encoding begins them, and they end too early; there
    are more bytes than those of an encoding; a header begins with a byte that is no byte order; a header has a type word that is of no type. *)
Inductive wkb_defect (b : bytes) : bytes -> Prop :=
| too_few q r : (forall t rest, tree_ok t -> b <> tree_bytes t ++ rest) -> before_header q -> b = q ++ r -> cut r -> wkb_defect b $"TOO_FEW_BYTES"
| too_many t rest : tree_ok t -> rest <> [] -> b = tree_bytes t ++ rest -> wkb_defect b $"TOO_MANY_BYTES"
| no_byte_order q x rest : before_header q -> b = q ++ x :: rest -> (forall e, x <> endian_byte e) -> wkb_defect b $"INVALID_ENDIAN"
| no_geometry_type q e w rest : before_header q -> b = q ++ [endian_byte e] ++ enc32 e w ++ rest -> (w < 2 ^ 32)%N ->
    (iso_code w mod 1000 = 0 \/ 7 < iso_code w mod 1000)%N -> wkb_defect b $"INVALID_GEOMETRY_TYPE".
