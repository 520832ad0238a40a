(** * Vertices and edges of the elements of an array *)
From Verif Require Import Base TypesSpec GeomSpec ArrowModel NativeSpec CppWkbSpec.
Local Open Scope Z_scope.

(** The edges of a geometry: consecutive vertices of each linestring or ring; a point is an edge to itself. The vertices
    are [geom_coords]. *)
Fixpoint geom_edges (g : geom) : list ((dim * coord) * (dim * coord)) :=
  match g with
  | GPoint d cs => degenerate (map (pair d) cs)
  | GLine d cs => pairs (map (pair d) cs)
  | GPoly d rings => flat_map (fun cs => pairs (map (pair d) cs)) rings
  | GColl _ _ parts => flat_map geom_edges parts
  end.

(** Nulls have neither. *)
Definition elements_vertices (els : list (option geom)) : list (dim * coord) :=
  flat_map (fun e => match e with Some g => geom_coords g | None => [] end) els.
Definition elements_edges (els : list (option geom)) : list ((dim * coord) * (dim * coord)) :=
  flat_map (fun e => match e with Some g => geom_edges g | None => [] end) els.

(** A coordinate read as one of type [d]: its first ordinates. *)
Definition read_as (d : dim) (v : dim * coord) : dim * coord := (d, firstn (ndim d) (snd v)).

(** Element [i] of a box array: the lower bounds of all dimensions and the upper ones. *)
Definition box_bounds_at (d : dim) (a : arrow_array) (i : Z) (lo hi : coord) : Prop :=
  length lo = ndim d /\ length hi = ndim d /\
  forall j w, nth_error (lo ++ hi) j = Some w -> ordinate_at Separate d a i j = Some w.

(** ** Arrays of WKB *)

(** An element and the geometry it encodes. *)
Definition denotes_tree (e : option bytes) (t : option tree) : Prop :=
  match e, t with
  | Some b, Some t => tree_ok t /\ tree_bytes t = b
  | None, None => True
  | _, _ => False
  end.
Definition trees_vertices (ts : list (option tree)) : list (dim * coord) :=
  flat_map (fun t => match t with Some t => tree_vertices t | None => [] end) ts.
Definition trees_edges (ts : list (option tree)) : list ((dim * coord) * (dim * coord)) :=
  flat_map (fun t => match t with Some t => tree_edges t | None => [] end) ts.
