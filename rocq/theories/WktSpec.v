(** * Well-known text *)
From Verif Require Import Base Text GeomSpec.
Local Open Scope Z_scope.

(** Members of a MULTIPOINT, MULTILINESTRING and MULTIPOLYGON are points, linestrings and polygons. *)
Definition member_of (k : coll) (g : geom) : Prop :=
  match k, g with
  | CMultipoint, GPoint _ _ | CMultilinestring, GLine _ _ | CMultipolygon, GPoly _ _ | CCollection, _ => True
  | _, _ => False
  end.
Inductive typed : geom -> Prop :=
| ty_point d cs : typed (GPoint d cs)
| ty_line d cs : typed (GLine d cs)
| ty_poly d rings : typed (GPoly d rings)
| ty_coll k d parts : Forall (member_of k) parts -> Forall typed parts -> typed (GColl k d parts).

Definition wkt_tag (g : geom) : bytes :=
  match g with
  | GPoint _ _ => $"POINT"
  | GLine _ _ => $"LINESTRING"
  | GPoly _ _ => $"POLYGON"
  | GColl CMultipoint _ _ => $"MULTIPOINT"
  | GColl CMultilinestring _ _ => $"MULTILINESTRING"
  | GColl CMultipolygon _ _ => $"MULTIPOLYGON"
  | GColl CCollection _ _ => $"GEOMETRYCOLLECTION"
  end.
Definition wkt_dim (d : dim) : bytes := match d with XY => [] | XYZ => $" Z" | XYM => $" M" | XYZM => $" ZM" end.

Section Text.
(** How ordinates are printed, and whether the members of a MULTIPOINT go without parentheses. *)
Variable print : N -> bytes.
Variable flat : bool.

(** "(part, part, ...)", or EMPTY without parts. *)
Definition wkt_list (ts : list bytes) : bytes := match ts with [] => $"EMPTY" | _ => $"(" ++ commas ts ++ $")" end.
(** "x y z" *)
Definition wkt_coord (c : coord) : bytes := spaced (map print c).
Definition wkt_seq (cs : list coord) : bytes := wkt_list (map wkt_coord cs).
(** A sequence without parentheses. *)
Definition wkt_bare (cs : list coord) : bytes := match cs with [] => $"EMPTY" | _ => commas (map wkt_coord cs) end.

(** The text after the tag, and the text of a geometry. *)
Fixpoint wkt_body (g : geom) : bytes :=
  match g with
  | GPoint _ cs | GLine _ cs => wkt_seq cs
  | GPoly _ rings => wkt_list (map wkt_seq rings)
  | GColl k _ parts =>
      wkt_list ((fix go gs :=
        match gs with
        | [] => []
        | g :: gs =>
            match k, g with
            | CCollection, _ => wkt_tag g ++ wkt_dim (geom_dim g) ++ $" " ++ wkt_body g
            | CMultipoint, GPoint _ cs => if flat then wkt_bare cs else wkt_seq cs
            | _, _ => wkt_body g
            end :: go gs
        end) parts)
  end.
Definition wkt (g : geom) : bytes := wkt_tag g ++ wkt_dim (geom_dim g) ++ $" " ++ wkt_body g.
End Text.
