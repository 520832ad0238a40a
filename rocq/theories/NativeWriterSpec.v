(** * What a native array holds of a geometry *)
From Verif Require Import Base TypesModel GeomSpec NodesModel NodesSpec CopyCoordsSpec ArrowModel NativeSpec BuilderSpec.
Local Open Scope Z_scope.

(** An element of an array with [n] levels of lists: a coordinate, a sequence of coordinates, a list of sequences, ... *)
Fixpoint nest (n : nat) : Type := match n with O => coord | S n' => list (nest n') end.

(** The geometry such an element stands for. (Boxes have no part in this.) *)
Definition nest_geom (k : geometry_kind) (d : dim) : nest (n_lists k) -> geom :=
  match k return nest (n_lists k) -> geom with
  | KPoint => fun c => GPoint d [c]
  | KLinestring => fun cs => GLine d cs
  | KPolygon => fun rings => GPoly d rings
  | KMultipoint => fun cs => GColl CMultipoint d (map (fun c => GPoint d [c]) cs)
  | KMultilinestring => fun lines => GColl CMultilinestring d (map (GLine d) lines)
  | KMultipolygon => fun polys => GColl CMultipolygon d (map (GPoly d) polys)
  | KBox => fun _ => GPoly d []
  end.

(** The empty element; an empty point has NaN ordinates. *)
Definition nan_coord (d : dim) : coord := repeat qnan (ndim d).
Definition nest_empty (k : geometry_kind) (d : dim) : nest (n_lists k) :=
  match k return nest (n_lists k) with
  | KPoint | KBox => nan_coord d
  | KLinestring | KMultipoint | KPolygon | KMultilinestring | KMultipolygon => []
  end.

(** ** Which geometries an array of a kind takes, and as what *)

Definition line_of (d : dim) (g : geom) : option (list coord) :=
  match g with GLine s cs => Some (map (convert_coord s d) cs) | _ => None end.
Definition poly_of (d : dim) (g : geom) : option (list (list coord)) :=
  match g with GPoly s rings => Some (map (map (convert_coord s d)) rings) | _ => None end.
Fixpoint all_some {A B} (f : A -> option B) (l : list A) : option (list B) :=
  match l with
  | [] => Some []
  | x :: r => match f x, all_some f r with Some y, Some ys => Some (y :: ys) | _, _ => None end
  end.
Definition all_coords (d : dim) (g : geom) : list coord := map (fun sc => convert_coord (fst sc) d (snd sc)) (geom_coords g).

(** A geometry without coordinates is stored as the empty element. Otherwise: one coordinate as a point; a linestring or
    polygon, or a multi-geometry with this as its only member; a multi-geometry or a single member of it. *)
Definition store (k : geometry_kind) (d : dim) (g : geom) : option (nest (n_lists k)) :=
  match geom_coords g with
  | [] => Some (nest_empty k d)
  | _ =>
      match k return option (nest (n_lists k)) with
      | KPoint => match all_coords d g with [c] => Some c | _ => None end
      | KLinestring =>
          match g with GLine _ _ => line_of d g | GColl CMultilinestring _ [p] => line_of d p | _ => None end
      | KPolygon =>
          match g with GPoly _ _ => poly_of d g | GColl CMultipolygon _ [p] => poly_of d p | _ => None end
      | KMultipoint =>
          match g with GPoint _ _ | GColl CMultipoint _ _ => Some (all_coords d g) | _ => None end
      | KMultilinestring =>
          match g with
          | GLine _ _ => all_some (line_of d) [g]
          | GColl CMultilinestring _ parts => all_some (line_of d) parts
          | _ => None
          end
      | KMultipolygon =>
          match g with
          | GPoly _ _ => all_some (poly_of d) [g]
          | GColl CMultipolygon _ parts => all_some (poly_of d) parts
          | _ => None
          end
      | KBox => None
      end
  end.

(** The members of a multi-geometry are of its kind. *)
Definition member_of (c : coll) (g : geom) : Prop :=
  match c, g with
  | CMultipoint, GPoint _ _ | CMultilinestring, GLine _ _ | CMultipolygon, GPoly _ _ | CCollection, _ => True
  | _, _ => False
  end.
Definition proper (g : geom) : Prop := match g with GColl c _ parts => Forall (member_of c) parts | _ => True end.

(** Every list in an element has fewer than 2^31 entries. *)
Fixpoint small (n : nat) : nest n -> Prop :=
  match n return nest n -> Prop with
  | O => fun _ => True
  | S n' => fun xs => Z.of_nat (length xs) < 2 ^ 31 /\ Forall (small n') xs
  end.

(** The number of entries at each level of lists, and of coordinates, of a sequence of elements: none reaches 2^31. *)
Fixpoint total_small (n : nat) : list (nest n) -> Prop :=
  match n return list (nest n) -> Prop with
  | O => fun _ => True
  | S n' => fun xs => Z.of_nat (length (concat xs)) < 2 ^ 31 /\ total_small n' (concat xs)
  end.

(** ** Offsets *)

(** In [n] levels of lists: the offsets start at 0, do not decrease, and end at the length of the child. *)
Fixpoint exact_offsets (n : nat) (a : arrow_array) : Prop :=
  match n with
  | O => True
  | S n' =>
      exists offs child, aa_buffers a = [hd None (aa_buffers a); Some offs] /\ aa_children a = [child] /\ aa_offset a = 0 /\
        int32_at offs 0 = Some 0 /\ int32_at offs (aa_length a) = Some (aa_length child) /\
        (forall i, 0 <= i < aa_length a -> exists x y, int32_at offs i = Some x /\ int32_at offs (i + 1) = Some y /\ x <= y) /\
        exact_offsets n' child
  end.

(** ** Histories *)

(** What each appended null or geometry is stored as. *)
Definition stored_as (k : geometry_kind) (d : dim) (gs : list (option geom)) (els : list (option (nest (n_lists k)))) : Prop :=
  Forall2 (fun g e => option_map (store k d) g = option_map Some e) gs els.
Definition element (k : geometry_kind) (d : dim) (e : option (nest (n_lists k))) : nest (n_lists k) :=
  match e with Some x => x | None => nest_empty k d end.
(** The geometries of an array. *)
Definition shown (k : geometry_kind) (d : dim) (els : list (option (nest (n_lists k)))) : list (option geom) := map (option_map (nest_geom k d)) els.
Definition null_count {A} (els : list (option A)) : Z := Z.of_nat (length (filter (fun e => match e with None => true | Some _ => false end) els)).

(** A node list in memory that denotes a geometry the array takes. *)
Record item_ok (d : dim) (m : mem) (nodes : list node) (g : geom) : Prop := {
  io_static : nth_error m 0 = Some empty_point_coords;
  io_repr : exists lvl, repr_geom m lvl nodes g;
  io_wf : wf_geom g;
  io_swapped : swapped_nodes_complete nodes d;
  io_count : Z.of_nat (length (geom_coords g)) < 2 ^ 32
}.

(** An appended item: nothing, or nodes that denote a geometry. *)
Definition denotes (d : dim) (i : option (mem * list node)) (g : option geom) : Prop :=
  match i, g with
  | Some (m, nodes), Some g => item_ok d m nodes g
  | None, None => True
  | _, _ => False
  end.

(** The array for a list of elements. *)
Definition array_of (k : geometry_kind) (l : layout) (d : dim) (els : list (option (nest (n_lists k)))) (a : arrow_array) : Prop :=
  native_ok k l d a /\ contents k l d a (shown k d els) /\ exact_offsets (n_lists k) a /\ aa_null_count a = null_count els.
