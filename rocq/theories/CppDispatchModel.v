(** * Dispatching to array classes: hpp/geometry_type_traits.hpp *)
From Verif Require Import Base TypesModel TypesSpec GeomSpec ArrayViewModel CppCoordModel CppWkbModel CppArrayModel.
Local Open Scope Z_scope.

(** The array classes: those of lines 59-66, for each geometry type and coordinate type, and wkb_util::WKBArray<int32_t>. The kind is
    never that of boxes. *)
Inductive array_class := NativeClass (k : geometry_kind) (d : dim) | WkbClass.

(** Lines 135-158: _GEOARROW_DISPATCH_NATIVE_ARRAY_CALL_DIMENSIONS, with 19-42: DimensionTraits *)
Definition dispatch_dimensions {A} (k : geometry_kind) (dimensions : Z) (expr : array_class -> outcome A) : outcome A :=
  if dimensions =? DIM_XY then expr (NativeClass k XY)
  else if dimensions =? DIM_XYZ then expr (NativeClass k XYZ)
  else if dimensions =? DIM_XYM then expr (NativeClass k XYM)
  else if dimensions =? DIM_XYZM then expr (NativeClass k XYZM)
  else Err THROWN.

(** Lines 170-204: GEOARROW_DISPATCH_NATIVE_ARRAY_CALL *)
Definition dispatch_native {A} (type_id : Z) (expr : array_class -> outcome A) : outcome A :=
  let geometry_type := geometry_type_from_type type_id in
  let dimensions := dimensions_from_type type_id in
  if geometry_type =? GT_POINT then dispatch_dimensions KPoint dimensions expr
  else if geometry_type =? GT_LINESTRING then dispatch_dimensions KLinestring dimensions expr
  else if geometry_type =? GT_POLYGON then dispatch_dimensions KPolygon dimensions expr
  else if geometry_type =? GT_MULTIPOINT then dispatch_dimensions KMultipoint dimensions expr
  else if geometry_type =? GT_MULTILINESTRING then dispatch_dimensions KMultilinestring dimensions expr
  else if geometry_type =? GT_MULTIPOLYGON then dispatch_dimensions KMultipolygon dimensions expr
  else Err THROWN.

(** Lines 213-230: GEOARROW_DISPATCH_ARRAY_CALL *)
Definition dispatch_array {A} (type_id : Z) (expr : array_class -> outcome A) : outcome A :=
  if type_id =? TYPE_WKB then expr WkbClass
  else if (type_id =? TYPE_LARGE_WKB) || (type_id =? TYPE_WKT) || (type_id =? TYPE_LARGE_WKT) then Err THROWN
  else dispatch_native type_id expr.

(** Generic code as in geometry_type_traits_test.cc: the array is initialized from a view, and visited. An error of Init is thrown. *)
Definition init_and_visit_vertices (v : aview) (dst : dim) (class : array_class) : outcome (list coord) :=
  match class with
  | NativeClass k d => match array_init (coord_size d) (array_depth k) v with Ok arr => array_vertices d dst (array_depth k) arr | Err _ => Err THROWN | UB => UB | NoFuel => NoFuel end
  | WkbClass => wkb_array_vertices dst (wkb_array_init v)
  end.
(** Edges in the array's own dimensions *)
Definition init_and_visit_edges (v : aview) (class : array_class) : outcome (list (coord * coord)) :=
  match class with
  | NativeClass k d => match array_init (coord_size d) (array_depth k) v with Ok arr => kind_edges k d (array_depth k) arr | Err _ => Err THROWN | UB => UB | NoFuel => NoFuel end
  | WkbClass => wkb_array_edges XYZM (wkb_array_init v)
  end.
