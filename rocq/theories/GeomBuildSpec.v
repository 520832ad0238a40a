(** * Which geometries the building visitor reproduces, and histories of a GeoArrowGeometry *)
From Verif Require Import Base GeomSpec NodesModel VisitorModel VisitorSpec GeomBuildModel.

(** Counts of coordinates, rings and members fit in the 32 bits of a node's size. *)
Definition count32 {A} (l : list A) : Prop := (N.of_nat (length l) < 2 ^ 32)%N.
Inductive counts32 : geom -> Prop :=
| c32_point d cs : count32 cs -> counts32 (GPoint d cs)
| c32_line d cs : count32 cs -> counts32 (GLine d cs)
| c32_poly d rings : count32 rings -> Forall count32 rings -> counts32 (GPoly d rings)
| c32_coll k d parts : count32 parts -> Forall counts32 parts -> counts32 (GColl k d parts).

(** A geometry without rings or members. *)
Definition simple (g : geom) : Prop :=
  match g with GPoint _ _ | GLine _ _ | GPoly _ [] | GColl _ _ [] => True | _ => False end.

(** A history: sequences of calls, each made until the first one that fails. *)
Fixpoint feed_each {S} (v : visitor S) (s : S) (calls : list (list event)) : option S :=
  match calls with
  | [] => Some s
  | evs :: r => match feed v s evs with Some (s', _) => feed_each v s' r | None => None end
  end.

(** A geometry after GeoArrowGeometryInit and any history of visitor calls. *)
Definition g_reachable (s : gstate) : Prop := exists calls, feed_each geom_step g_init calls = Some s.

(** Calls with enumerators of GeoArrowGeometryType and GeoArrowDimensions (other than "unknown") and no null feature. *)
Definition plain_event (e : event) : Prop :=
  match e with
  | ENullFeat => False
  | EGeomStart t d => (t <= 7 \/ t = 990)%N /\ (1 <= d <= 4)%N
  | _ => True
  end.

(** No coordinate of the node list is stored byte-swapped. *)
Definition native_order (nodes : list node) : Prop := forall nd, In nd nodes -> nd_swap nd = false.

(** Coordinates stored one dimension after the other, or coordinate by coordinate, in native byte order. *)
Definition columns (d : dim) (cs : list coord) : bytes :=
  flat_map (fun j => flat_map (fun c : coord => le_bytes 8 (nth j c 0%N)) cs) (seq 0 (ndim d)).
Definition rows (cs : list coord) : bytes := flat_map (fun c : coord => flat_map (le_bytes 8) c) cs.

(** [bs] lies in memory at [p]. *)
Definition bytes_at (m : mem) (p : ptr) (bs : bytes) : Prop := load_bytes m p (length bs) = Some bs.
