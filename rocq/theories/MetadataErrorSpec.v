(** * What the messages of the metadata reader say *)
From Verif Require Import Base Text.
Local Open Scope N_scope.

(** [q] is [t] up to its first NUL, if it has one. *)
Definition before_nul (t q : bytes) : Prop := ~ In 0 q /\ (t = q \/ exists r, t = q ++ [0] ++ r).

(** A message about the metadata [b]: what must be so if it is true. [accepted] are the metadata that are. *)
Inductive metadata_complaint (accepted : bytes -> Prop) (b : bytes) : bytes -> Prop :=
| not_metadata q : before_nul b q -> (forall a t, b = a ++ t -> a <> [] -> ~ accepted a) ->
    metadata_complaint accepted b ($"Expected valid GeoArrow JSON metadata but got '" ++ q ++ $"'")
| trailing a c t q : b = a ++ c :: t -> a <> [] -> accepted a -> ~ In c [32; 9; 10; 13] -> before_nul (c :: t) q ->
    metadata_complaint accepted b ($"Expected JSON object with no trailing characters but found trailing '" ++ q ++ $"'").
