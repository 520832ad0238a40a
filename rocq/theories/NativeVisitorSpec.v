(** * What a native array holds of a geometry delivered through the writer's visitor *)
From Verif Require Import Base GeomSpec BuilderSpec NativeWriterSpec.
Local Open Scope Z_scope.

(** The coordinate sequences of a geometry in the dimensions of the array: those of its linestrings and the rings of its
    polygons; the points of a multipoint are one sequence, and so is a point. *)
Fixpoint sequences (d : dim) (g : geom) : list (list coord) :=
  match g with
  | GPoint s cs | GLine s cs => [map (convert_coord s d) cs]
  | GPoly s rings => map (map (convert_coord s d)) rings
  | GColl CMultipoint _ _ => [all_coords d g]
  | GColl _ _ parts => (fix go gs := match gs with [] => [] | g :: gs => sequences d g ++ go gs end) parts
  end.

(** Groups of sequences: those of each polygon and of each multilinestring; any other sequence is a group of its own. *)
Fixpoint groups (d : dim) (g : geom) : list (list (list coord)) :=
  match g with
  | GPoint _ _ | GLine _ _ | GPoly _ _ | GColl (CMultipoint | CMultilinestring) _ _ => [sequences d g]
  | GColl _ _ parts => (fix go gs := match gs with [] => [] | g :: gs => groups d g ++ go gs end) parts
  end.

Definition nonempty {A} (l : list A) : bool := match l with [] => false | _ => true end.

(** What an array of a kind keeps: the only coordinate; the only sequence; all sequences but the empty ones; all groups. *)
Definition visited (k : geometry_kind) (d : dim) (g : geom) : option (nest (n_lists k)) :=
  match k return option (nest (n_lists k)) with
  | KPoint => match all_coords d g with [] => Some (nan_coord d) | [c] => Some c | _ => None end
  | KLinestring | KMultipoint => match sequences d g with [] => Some [] | [cs] => Some cs | _ => None end
  | KPolygon | KMultilinestring => Some (filter nonempty (sequences d g))
  | KMultipolygon => Some (filter nonempty (map (filter nonempty) (groups d g)))
  | KBox => None
  end.

(** Geometries made of others by collections of some kinds. *)
Inductive made_of (leaf : geom -> Prop) (inner : coll -> Prop) : geom -> Prop :=
| mo_leaf g : leaf g -> made_of leaf inner g
| mo_coll c s parts : inner c -> (forall p, In p parts -> made_of leaf inner p) -> made_of leaf inner (GColl c s parts).

Definition is_point (g : geom) : Prop := match g with GPoint _ _ => True | _ => False end.
Definition is_line (g : geom) : Prop := match g with GLine _ _ => True | _ => False end.
Definition is_poly (g : geom) : Prop := match g with GPoly _ _ => True | _ => False end.
Definition multi_of (c : coll) (member : geom -> Prop) (g : geom) : Prop :=
  match g with GColl c' _ parts => c = c' /\ Forall member parts | _ => False end.

(** The features for which the visitor of a kind of array keeps sequences apart:
    - points: all;
    - linestrings, multipoints: points, and anything with no points outside multipoints;
    - polygons, multilinestrings: points, and anything with no points at all;
    - multipolygons: a point, linestring or multipoint, and anything made of polygons and multilinestrings. *)
Definition deliverable (k : geometry_kind) (g : geom) : Prop :=
  match k with
  | KPoint => True
  | KLinestring | KMultipoint =>
      is_point g \/ made_of (fun g => is_line g \/ is_poly g \/ multi_of CMultipoint is_point g) (fun c => c <> CMultipoint) g
  | KPolygon | KMultilinestring => is_point g \/ made_of (fun g => is_line g \/ is_poly g) (fun c => c <> CMultipoint) g
  | KMultipolygon =>
      is_point g \/ is_line g \/ multi_of CMultipoint is_point g \/
      made_of (fun g => is_poly g \/ multi_of CMultilinestring is_line g) (fun c => c = CMultipolygon \/ c = CCollection) g
  | KBox => False
  end.

(** What each feature is stored as. *)
Definition visited_as (k : geometry_kind) (d : dim) (gs : list (option geom)) (els : list (option (nest (n_lists k)))) : Prop :=
  Forall2 (fun g e => option_map (visited k d) g = option_map Some e) gs els.

(** The coordinates and the non-empty sequences of a list of features. *)
Definition feature_coords (d : dim) (gs : list (option geom)) : list coord :=
  flat_map (fun g => match g with Some g => all_coords d g | None => [] end) gs.
Definition feature_sequences (d : dim) (gs : list (option geom)) : list (list coord) :=
  flat_map (fun g => match g with Some g => filter nonempty (sequences d g) | None => [] end) gs.

(** Well-formed features for the visitor of a kind of array. *)
Definition feature_for (k : geometry_kind) (g : option geom) : Prop :=
  match g with Some g => deliverable k g /\ wf_geom g | None => True end.

(** Features an array has room for: at most 2^31 - 1 coordinates in fewer than 2^31 - 1 sequences. (Nothing is counted in
    an array of points.) *)
Definition has_room (k : geometry_kind) (d : dim) (gs : list (option geom)) : Prop :=
  k = KPoint \/ Z.of_nat (length (feature_coords d gs)) <= 2147483647 /\ Z.of_nat (length (feature_sequences d gs)) < 2147483647.
