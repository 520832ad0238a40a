(** * Reading arrays of a native writer *)
From Verif Require Import Base TypesModel GeomSpec VisitorModel ArrowModel ArrayViewModel NativeSpec BuilderSpec NativeWriterSpec.
Local Open Scope Z_scope.

(** An array that every view of its type accepts, whatever it was used for before, and whose elements a visitor sees
    as exactly the geometries and nulls [els], in any window. *)
Definition reads_as (k : geometry_kind) (l : layout) (d : dim) (els : list (option geom)) (a : arrow_array) : Prop :=
  forall v, view_history (make_type (geometry_kind_code k) (dim_code d) (layout_code l)) v ->
    exists v', set_array v a = Ok v' /\
      forall o n, (o + n <= length els)%nat -> trace (visit_native v' (Z.of_nat o) (Z.of_nat n)) = (flat_map canon_feature (window els o n), Ok tt).

(** An element whose geometry has coordinates or is the empty element. *)
Definition unambiguous (k : geometry_kind) (d : dim) (x : nest (n_lists k)) : Prop :=
  geom_coords (nest_geom k d x) = [] -> x = nest_empty k d.
