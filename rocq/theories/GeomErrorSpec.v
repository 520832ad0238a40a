(** * What the messages about geometries say *)
From Verif Require Import Base Text NodesModel GeomSpec WktErrorSpec TruncatedSpec.
Local Open Scope N_scope.

(** The nodes of a geometry from its root to its last part, and none after that; the rings of a polygon are not looked at. *)
Inductive tree : list node -> Prop :=
| tree_sequence nd : In (nd_type nd) [1; 2] -> tree [nd]
| tree_polygon nd rings : nd_type nd = 3 -> nd_size nd = N.of_nat (length rings) -> tree (nd :: rings)
| tree_collection nd parts : In (nd_type nd) [4; 5; 6; 7] -> nd_size nd = N.of_nat (length parts) -> Forall tree parts ->
    tree (nd :: concat parts).

(** Messages about a list of nodes: what must be so if the message is true. *)
Inductive nodes_complaint (nodes : list node) : bytes -> Prop :=
| too_many_nodes geometry extra : nodes = geometry ++ extra -> tree geometry -> extra <> [] ->
    nodes_complaint nodes $"Too many nodes provided to GeoArrowGeometryVisit() for root geometry"
| invalid_type nd t : In nd nodes -> ~ (1 <= nd_type nd <= 7) -> decimal_of (nd_type nd) t ->
    nodes_complaint nodes ($"Invalid geometry_type: " ++ t).

(** Calls that begin and end something. *)
Definition begins (e : event) : bool := match e with EGeomStart _ _ | ERingStart => true | _ => false end.
Definition ends (e : event) : bool := match e with EGeomEnd | ERingEnd => true | _ => false end.
Definition how_many (p : event -> bool) (evs : list event) : nat := length (filter p evs).

(** Messages about the call [e] after the calls [past] of the same feature. *)
Inductive call_complaint (past : list event) : event -> bytes -> Prop :=
| ring_first : how_many begins past = 0%nat ->
    call_complaint past ERingStart $"Call to ring_start before geom_start in GeoArrowGeometry visitor"
| coords_first n cs : how_many begins past = 0%nat ->
    call_complaint past (ECoords n cs) $"Call to coords before geom_start in GeoArrowGeometry visitor"
| end_first : how_many begins past = 0%nat ->
    call_complaint past EFeatEnd $"Call to feat_end before geom_start in GeoArrowGeometry visitor"
| too_many_ends e : ends e = true -> how_many begins past = how_many ends past ->
    call_complaint past e $"Incorrect nesting in GeoArrowGeometry visitor (level < 0)"
| too_deep e : begins e = true -> how_many begins past = (how_many ends past + 31)%nat ->
    call_complaint past e $"Maximum recursion for GeoArrowGeometry visitor reached".
