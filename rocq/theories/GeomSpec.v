(** * Geometry trees and their events *)
From Verif Require Import Base.
From Verif Require Export TypesSpec.

(** A coordinate: the 64-bit patterns of its ordinates. *)
Definition coord := list N.

(** The four kinds of collections. *)
Inductive coll := CMultipoint | CMultilinestring | CMultipolygon | CCollection.

(** A geometry. Points and linestrings carry their coordinates (none: empty), polygons their rings, collections
    their members. Every (sub)geometry has its own dimensions. *)
Inductive geom :=
| GPoint (d : dim) (cs : list coord)
| GLine (d : dim) (cs : list coord)
| GPoly (d : dim) (rings : list (list coord))
| GColl (k : coll) (d : dim) (parts : list geom).

Definition geom_dim (g : geom) : dim :=
  match g with GPoint d _ | GLine d _ | GPoly d _ | GColl _ d _ => d end.

(** ISO geometry type codes. *)
Definition coll_code (k : coll) : N :=
  match k with CMultipoint => 4 | CMultilinestring => 5 | CMultipolygon => 6 | CCollection => 7 end%N.
Definition geom_code (g : geom) : N :=
  match g with GPoint _ _ => 1 | GLine _ _ => 2 | GPoly _ _ => 3 | GColl k _ _ => coll_code k end%N.

(** Dimension codes as unsigned numbers (1 to 4). *)
Definition dimN (d : dim) : N := match d with XY => 1 | XYZ => 2 | XYM => 3 | XYZM => 4 end%N.

(** A coordinate has one 64-bit word per dimension. *)
Definition wf_coord (d : dim) (c : coord) : Prop := length c = ndim d /\ Forall (fun w => (w < 2 ^ 64)%N) c.
Definition wf_seq (d : dim) (cs : list coord) : Prop := Forall (wf_coord d) cs.

Inductive wf_geom : geom -> Prop :=
| wf_point d cs : wf_seq d cs -> (length cs <= 1)%nat -> wf_geom (GPoint d cs)
| wf_line d cs : wf_seq d cs -> wf_geom (GLine d cs)
| wf_poly d rings : Forall (wf_seq d) rings -> wf_geom (GPoly d rings)
| wf_coll k d parts : wf_geoms parts -> wf_geom (GColl k d parts)
with wf_geoms : list geom -> Prop :=
| wf_nil : wf_geoms []
| wf_cons g gs : wf_geom g -> wf_geoms gs -> wf_geoms (g :: gs).

(** Nesting depth: 1 for points and linestrings, and for polygons (whose rings add one more level of nodes). *)
Fixpoint depth (g : geom) : nat :=
  match g with
  | GPoint _ _ | GLine _ _ => 1
  | GPoly _ _ => 1
  | GColl _ _ parts => S ((fix go gs := match gs with [] => 0 | g :: gs => Nat.max (depth g) (go gs) end) parts)
  end.
Definition depths (gs : list geom) : nat := fold_right (fun g n => Nat.max (depth g) n) 0%nat gs.

(** Number of levels of nodes: the rings of a polygon are one level below it, and there is always room for members
    below a collection. *)
Fixpoint levels (g : geom) : nat :=
  match g with
  | GPoint _ _ | GLine _ _ => 1
  | GPoly _ _ => 2
  | GColl _ _ parts => S ((fix go gs := match gs with [] => 1 | g :: gs => Nat.max (levels g) (go gs) end) parts)
  end.

(** How deeply the events of a geometry are nested: each (sub)geometry and each ring opens one level. *)
Fixpoint nesting (g : geom) : nat :=
  match g with
  | GPoint _ _ | GLine _ _ => 1
  | GPoly _ [] => 1
  | GPoly _ (_ :: _) => 2
  | GColl _ _ parts => S ((fix go gs := match gs with [] => 0 | g :: gs => Nat.max (nesting g) (go gs) end) parts)
  end.
Definition nestings (gs : list geom) : nat := fold_right (fun g n => Nat.max (nesting g) n) 0%nat gs.

(** The coordinates of a geometry in depth-first order. *)
Fixpoint geom_coords (g : geom) : list (dim * coord) :=
  match g with
  | GPoint d cs | GLine d cs => map (pair d) cs
  | GPoly d rings => map (pair d) (concat rings)
  | GColl _ _ parts => (fix go gs := match gs with [] => [] | g :: gs => geom_coords g ++ go gs end) parts
  end.

(** ** Visitor events (src/geoarrow/geoarrow_type.h lines 814-862, struct GeoArrowVisitor) *)
Inductive event :=
| EFeatStart
| ENullFeat
| EGeomStart (geometry_type dimensions : N)
| ERingStart
| ECoords (n_values : N) (cs : list coord)
| ERingEnd
| EGeomEnd
| EFeatEnd.

(** [seq_events d cs evs]: [evs] delivers the sequence [cs] in any number of batches (possibly empty ones). *)
Inductive seq_events (d : dim) : list coord -> list event -> Prop :=
| se_nil : seq_events d [] []
| se_batch b cs evs : seq_events d cs evs -> seq_events d (b ++ cs) (ECoords (N.of_nat (ndim d)) b :: evs).

(** [ring_events d rings evs]: the rings of a polygon. *)
Inductive ring_events (d : dim) : list (list coord) -> list event -> Prop :=
| re_nil : ring_events d [] []
| re_ring cs rings e1 e2 : seq_events d cs e1 -> ring_events d rings e2 ->
    ring_events d (cs :: rings) (ERingStart :: e1 ++ [ERingEnd] ++ e2).

(** [geom_events g evs]: [evs] is a correct delivery of the geometry [g]. *)
Inductive geom_events : geom -> list event -> Prop :=
| ge_point d cs e : seq_events d cs e ->
    geom_events (GPoint d cs) ([EGeomStart 1 (dimN d)] ++ e ++ [EGeomEnd])
| ge_line d cs e : seq_events d cs e ->
    geom_events (GLine d cs) ([EGeomStart 2 (dimN d)] ++ e ++ [EGeomEnd])
| ge_poly d rings e : ring_events d rings e ->
    geom_events (GPoly d rings) ([EGeomStart 3 (dimN d)] ++ e ++ [EGeomEnd])
| ge_coll k d parts e : parts_events parts e ->
    geom_events (GColl k d parts) ([EGeomStart (coll_code k) (dimN d)] ++ e ++ [EGeomEnd])
with parts_events : list geom -> list event -> Prop :=
| pe_nil : parts_events [] []
| pe_cons g gs e1 e2 : geom_events g e1 -> parts_events gs e2 -> parts_events (g :: gs) (e1 ++ e2).

(** A feature: a geometry or a null. *)
Inductive feature_events : option geom -> list event -> Prop :=
| fe_null : feature_events None [EFeatStart; ENullFeat; EFeatEnd]
| fe_geom g e : geom_events g e -> feature_events (Some g) ([EFeatStart] ++ e ++ [EFeatEnd]).

Inductive features_events : list (option geom) -> list event -> Prop :=
| fes_nil : features_events [] []
| fes_cons f fs e1 e2 : feature_events f e1 -> features_events fs e2 -> features_events (f :: fs) (e1 ++ e2).

(** The delivery with every sequence in a single batch. *)
Fixpoint canon_events (g : geom) : list event :=
  match g with
  | GPoint d cs => [EGeomStart 1 (dimN d); ECoords (N.of_nat (ndim d)) cs; EGeomEnd]
  | GLine d cs => [EGeomStart 2 (dimN d); ECoords (N.of_nat (ndim d)) cs; EGeomEnd]
  | GPoly d rings =>
      [EGeomStart 3 (dimN d)] ++
      flat_map (fun cs => [ERingStart; ECoords (N.of_nat (ndim d)) cs; ERingEnd]) rings ++ [EGeomEnd]
  | GColl k d parts =>
      [EGeomStart (coll_code k) (dimN d)] ++
      (fix go gs := match gs with [] => [] | g :: gs => canon_events g ++ go gs end) parts ++ [EGeomEnd]
  end.

(** The number of ordinates in a batch, and deliveries whose batches hold at most 384 ordinates (3072 bytes). *)
Definition batch_words (e : event) : N := match e with ECoords n cs => (n * N.of_nat (length cs))%N | _ => 0%N end.
Definition small_batches (evs : list event) : Prop := Forall (fun e => (batch_words e <= 384)%N) evs.
