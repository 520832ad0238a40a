(** * Geometries whose canonical text says everything about them *)
From Verif Require Import Base GeomSpec.

(** The ordinates of a geometry. *)
Definition ordinates (g : geom) : list N := flat_map snd (geom_coords g).

(** The members of a MULTIPOINT, MULTILINESTRING or MULTIPOLYGON have its dimensions (they carry no tag of their own). *)
Inductive uniform : geom -> Prop :=
| un_point d cs : uniform (GPoint d cs)
| un_line d cs : uniform (GLine d cs)
| un_poly d rings : uniform (GPoly d rings)
| un_coll k d parts : (k <> CCollection -> forall g, In g parts -> geom_dim g = d) -> Forall uniform parts -> uniform (GColl k d parts).

(** In the flat style no multipoint mixes empty points with others. *)
Definition empty_point (g : geom) : Prop := match g with GPoint _ cs => cs = [] | _ => False end.
Inductive readable (flat : bool) : geom -> Prop :=
| rd_point d cs : readable flat (GPoint d cs)
| rd_line d cs : readable flat (GLine d cs)
| rd_poly d rings : readable flat (GPoly d rings)
| rd_coll k d parts :
    (flat = true -> k = CMultipoint -> (forall g, In g parts -> empty_point g) \/ (forall g, In g parts -> ~ empty_point g)) ->
    Forall (readable flat) parts -> readable flat (GColl k d parts).
