(** * Node lists that end too early *)
From Verif Require Import Base NodesModel.

(** The list ends before the last ring of a polygon that is in it. *)
Definition ends_in_rings (nodes : list node) : Prop :=
  exists before poly after, nodes = before ++ poly :: after /\ nd_type poly = 3%N /\ (N.of_nat (length after) < nd_size poly)%N.
