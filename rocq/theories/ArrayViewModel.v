(** * Viewing and visiting native arrays: src/geoarrow/array_view.c *)
From Verif Require Import Base TypesModel GeomSpec VisitorModel BufferModel ArrowModel BitmapModel FloatModel.
Local Open Scope Z_scope.

(** src/geoarrow/geoarrow_type.h lines 664-682: struct GeoArrowCoordView *)
Record rcoords := RCoords { rc_values : list rptr; rc_n_coords : Z; rc_n_values : Z; rc_stride : Z }.

(** src/geoarrow/geoarrow_type.h lines 717-748: struct GeoArrowArrayView. [schema_view] is represented by its type,
    geometry_type, dimensions and coord_type; arrays of three or four entries are [quad]s. *)
Record aview := AView {
  av_type : Z;
  av_geom : Z;
  av_dims : Z;
  av_ctype : Z;
  av_offset : quad Z;
  av_length : quad Z;
  av_validity : rptr;
  av_n_offsets : Z;
  av_offsets : quad rptr;
  av_first : quad Z;
  av_last : quad Z;
  av_data : rptr;
  av_coords : rcoords
}.

(** array_view.c lines 11-31: n_offsets *)
Definition offsets_of_geometry (g : Z) : Z :=
  if (g =? GT_BOX) || (g =? GT_POINT) then 0
  else if (g =? GT_LINESTRING) || (g =? GT_MULTIPOINT) then 1
  else if (g =? GT_POLYGON) || (g =? GT_MULTILINESTRING) then 2
  else if g =? GT_MULTIPOLYGON then 3
  else 1.

(** array_view.c lines 45-60: coords.n_values, zero from the memset for any other value of dimensions *)
Definition values_of_dimensions (d : Z) : Z :=
  if d =? DIM_XY then 2
  else if (d =? DIM_XYZ) || (d =? DIM_XYM) then 3
  else if d =? DIM_XYZM then 4
  else 0.

(** geoarrow_type_inline.h lines 68-104: is GeoArrowExtensionNameFromType non-NULL? *)
Definition has_extension_name (t : Z) : bool :=
  (is_serialized_or_uninit t && negb (t =? TYPE_UNINITIALIZED)) ||
  let g := geometry_type_from_type t in
  (g =? GT_BOX) || ((1 <=? g) && (g <=? 6)).

(** array_view.c lines 82-87 and 10-80: GeoArrowArrayViewInitFromType (with schema_view.c lines 378-403,
    GeoArrowSchemaViewInitFromType) and GeoArrowArrayViewInitInternal *)
Definition array_view_init (t : Z) : outcome aview :=
  if negb (t =? TYPE_UNINITIALIZED) && negb (has_extension_name t) then Err EINVAL
  else
    let g := geometry_type_from_type t in
    let d := dimensions_from_type t in
    let c := coord_type_from_type t in
    let n_values := values_of_dimensions d in
    let n_values := if g =? GT_BOX then n_values * 2 else n_values in
    let stride := if c =? CT_SEPARATE then 1 else if c =? CT_INTERLEAVED then n_values else 0 in
    Ok {| av_type := t; av_geom := g; av_dims := d; av_ctype := c;
          av_offset := qconst 0; av_length := qconst 0; av_validity := RNull;
          av_n_offsets := offsets_of_geometry g;
          av_offsets := qconst RNull; av_first := qconst 0; av_last := qconst 0; av_data := RNull;
          av_coords := {| rc_values := repeat RNull 8; rc_n_coords := 0; rc_n_values := n_values; rc_stride := stride |} |}.

(** array_view->offset[level] = ...; array_view->length[level] = ... *)
Definition with_level (v : aview) (level : nat) (offset length : Z) : aview :=
  {| av_type := av_type v; av_geom := av_geom v; av_dims := av_dims v; av_ctype := av_ctype v;
     av_offset := qset (av_offset v) level offset; av_length := qset (av_length v) level length;
     av_validity := av_validity v; av_n_offsets := av_n_offsets v; av_offsets := av_offsets v;
     av_first := av_first v; av_last := av_last v; av_data := av_data v; av_coords := av_coords v |}.
Definition with_offsets (v : aview) (level : nat) (p : rptr) (first last : Z) : aview :=
  {| av_type := av_type v; av_geom := av_geom v; av_dims := av_dims v; av_ctype := av_ctype v;
     av_offset := av_offset v; av_length := av_length v;
     av_validity := av_validity v; av_n_offsets := av_n_offsets v; av_offsets := qset (av_offsets v) level p;
     av_first := qset (av_first v) level first; av_last := qset (av_last v) level last;
     av_data := av_data v; av_coords := av_coords v |}.
Definition with_coords (v : aview) (n_coords : Z) (values : list rptr) : aview :=
  {| av_type := av_type v; av_geom := av_geom v; av_dims := av_dims v; av_ctype := av_ctype v;
     av_offset := av_offset v; av_length := av_length v;
     av_validity := av_validity v; av_n_offsets := av_n_offsets v; av_offsets := av_offsets v;
     av_first := av_first v; av_last := av_last v; av_data := av_data v;
     av_coords := {| rc_values := values; rc_n_coords := n_coords; rc_n_values := rc_n_values (av_coords v);
                     rc_stride := rc_stride (av_coords v) |} |}.
Definition with_validity (v : aview) (p : rptr) : aview :=
  {| av_type := av_type v; av_geom := av_geom v; av_dims := av_dims v; av_ctype := av_ctype v;
     av_offset := av_offset v; av_length := av_length v;
     av_validity := p; av_n_offsets := av_n_offsets v; av_offsets := av_offsets v;
     av_first := av_first v; av_last := av_last v; av_data := av_data v; av_coords := av_coords v |}.
Definition with_data (v : aview) (p : rptr) : aview :=
  {| av_type := av_type v; av_geom := av_geom v; av_dims := av_dims v; av_ctype := av_ctype v;
     av_offset := av_offset v; av_length := av_length v;
     av_validity := av_validity v; av_n_offsets := av_n_offsets v; av_offsets := av_offsets v;
     av_first := av_first v; av_last := av_last v; av_data := p; av_coords := av_coords v |}.

(** array_view.c lines 127-138 and 232-242: the data buffer of each child, its offset applied; [n] children *)
Fixpoint child_values (n : nat) (children : list arrow_array) : outcome (list rptr) :=
  match n with
  | O => Ok []
  | S n' =>
      match children with
      | [] => UB
      | ch :: r =>
          if negb (Z.of_nat (length (aa_buffers ch)) =? 2) then Err EINVAL
          else
            do b <- or_ub (nth_error (aa_buffers ch) 1);
            do rest <- child_values n' r;
            Ok (rptr_add (rptr_of b) (8 * aa_offset ch) :: rest)
      end
  end.

(** array_view.c lines 108-114: coords.n_coords. The difference of two int32_t offsets overflows when it does not fit. *)
Definition coord_count (v : aview) (a : arrow_array) (level : nat) : outcome Z :=
  match level with
  | O => Ok (aa_length a)
  | S l =>
      do first <- or_ub (qget (av_first v) l);
      do last <- or_ub (qget (av_last v) l);
      let n := last - first in
      if (n <? - 2147483648) || (2147483647 <? n) then UB else Ok n
  end.

(** array_view.c lines 105-174: the coordinate array *)
Definition set_coord_array (v : aview) (a : arrow_array) (level : nat) : outcome aview :=
  do n_coords <- coord_count v a level;
  let n_values := Z.to_nat (rc_n_values (av_coords v)) in
  if av_ctype v =? CT_SEPARATE then
    if negb (Z.of_nat (length (aa_children a)) =? rc_n_values (av_coords v)) then Err EINVAL
    else
      do values <- child_values n_values (aa_children a);
      Ok (with_coords v n_coords (values ++ skipn n_values (rc_values (av_coords v))))
  else if av_ctype v =? CT_INTERLEAVED then
    match aa_children a with
    | [ch] =>
        if negb (Z.of_nat (length (aa_buffers ch)) =? 2) then Err EINVAL
        else
          do b <- or_ub (nth_error (aa_buffers ch) 1);
          Ok (with_coords v n_coords
                (map (fun i => rptr_add (rptr_of b) (8 * (aa_offset ch + Z.of_nat i))) (seq 0 n_values) ++
                 skipn n_values (rc_values (av_coords v))))
    | _ => Err EINVAL
    end
  else Err EINVAL.

(** array_view.c line 8: kZeroInt32 *)
Definition zero_int32 : bytes := [0; 0; 0; 0]%N.

(** array_view.c lines 98-204: GeoArrowArrayViewSetArrayInternal *)
Fixpoint set_array_internal (v : aview) (a : arrow_array) (level : nat) : outcome aview :=
  let '(ArrowArray length offset _ buffers children) := a in
  let v := with_level v level offset length in
  if Z.of_nat level =? av_n_offsets v then set_coord_array v a level
  else if negb (Z.of_nat (Datatypes.length buffers) =? 2) then Err EINVAL
  else
    match children with
    | [child] =>
        do v <-
          (if 0 <? length then
             do b <- or_ub (nth_error buffers 1);
             let p := rptr_of b in
             do first <- load_int32 p offset;
             do last <- load_int32 p (offset + length);
             Ok (with_offsets v level p first last)
           else Ok (with_offsets v level (RPtr zero_int32 0) 0 0));
        set_array_internal v child (S level)
    | _ => Err EINVAL
    end.

(** array_view.c lines 206-214: GeoArrowArrayViewSetArraySerialized *)
Definition set_array_serialized (v : aview) (a : arrow_array) : outcome aview :=
  let v := with_level v 0 (aa_offset a) (aa_length a) in
  do b1 <- or_ub (nth_error (aa_buffers a) 1);
  do b2 <- or_ub (nth_error (aa_buffers a) 2);
  Ok (with_data (with_offsets v 0 (rptr_of b1) (q0 (av_first v)) (q0 (av_last v))) (rptr_of b2)).

(** array_view.c lines 216-245: GeoArrowArrayViewSetArrayBox *)
Definition set_array_box (v : aview) (a : arrow_array) : outcome aview :=
  let v := with_level v 0 (aa_offset a) (aa_length a) in
  if negb (Z.of_nat (length (aa_children a)) =? rc_n_values (av_coords v)) then Err EINVAL
  else
    let n_values := Z.to_nat (rc_n_values (av_coords v)) in
    do values <- child_values n_values (aa_children a);
    Ok (with_coords v (aa_length a) (values ++ skipn n_values (rc_values (av_coords v)))).

(** array_view.c lines 247-269: GeoArrowArrayViewSetArray; 990, 1990, 2990 and 3990 are GEOARROW_TYPE_BOX, _BOX_Z, _BOX_M
    and _BOX_ZM *)
Definition set_array (v : aview) (a : arrow_array) : outcome aview :=
  do v <-
    (if (av_type v =? TYPE_WKT) || (av_type v =? TYPE_WKB) then set_array_serialized v a
     else if (av_type v =? 990) || (av_type v =? 1990) || (av_type v =? 2990) || (av_type v =? 3990)
     then set_array_box v a
     else set_array_internal v a 0);
  do b0 <- or_ub (nth_error (aa_buffers a) 0);
  Ok (with_validity v (rptr_of b0)).

(** geoarrow_type.h lines 709-710: GEOARROW_COORD_VIEW_VALUE(coords, row, col) *)
Definition view_value (c : rcoords) (row : Z) (col : nat) : outcome N :=
  do p <- or_ub (nth_error (rc_values c) col);
  load_double p (row * rc_stride c).

Fixpoint view_row (c : rcoords) (row : Z) (col k : nat) : outcome coord :=
  match k with
  | O => Ok []
  | S k' =>
      do w <- view_value c row col;
      do r <- view_row c row (S col) k';
      Ok (w :: r)
  end.
Fixpoint view_rows (c : rcoords) (row : Z) (n : nat) : outcome (list coord) :=
  match n with
  | O => Ok []
  | S n' =>
      do r <- view_row c row 0 (Z.to_nat (rc_n_values c));
      do rs <- view_rows c (row + 1) n';
      Ok (r :: rs)
  end.

(** array_view.c lines 271-278 (GeoArrowCoordViewUpdate) followed by [v->coords(v, &coords)]: the visitor gets [length]
    coordinates from [offset] on. Simplification: the coordinates are read here and not by the visitor; a negative
    length is [UB]. *)
Definition visit_coords (v : aview) (offset length : Z) : prog unit :=
  if length <? 0 then Ret UB
  else
    let! rows := Ret (view_rows (av_coords v) offset (Z.to_nat length)) in
    emit (ECoords (Z.to_N (rc_n_values (av_coords v))) rows).

(** [for (int64_t i = from; i < from + k; i++)] *)
Fixpoint for_each (k : nat) (i : Z) (body : Z -> prog unit) : prog unit :=
  match k with
  | O => Ret (Ok tt)
  | S k' => run! body i in for_each k' (i + 1) body
  end.

(** ! array_view->validity_bitmap || ArrowBitGet(array_view->validity_bitmap, i) *)
Definition is_valid_bit (v : aview) (i : Z) : outcome bool :=
  match av_validity v with
  | RNull => Ok true
  | RPtr b _ => bit_get b i
  end.

(** array_view.c lines 285-304, 316-334, 348-375, 387-410, 424-452, 468-507 and 539-579: the loop over the features,
    which is the same in all seven functions; [geometry i] visits the element at the physical index [i]. Simplification:
    lines 301-303 advance pointers that line 291 sets again before they are used. *)
Definition visit_features (v : aview) (offset length : Z) (geometry : Z -> prog unit) : prog unit :=
  for_each (Z.to_nat length) 0 (fun i =>
    run! emit EFeatStart in
    let! valid := Ret (is_valid_bit v (q0 (av_offset v) + offset + i)) in
    run! (if valid : bool then geometry (q0 (av_offset v) + offset + i) else emit ENullFeat) in
    emit EFeatEnd).

(** array_view->offsets[level][i] and the difference of the next one to it *)
Definition offsets_at (v : aview) (level : nat) (i : Z) : outcome (Z * Z) :=
  do p <- or_ub (qget (av_offsets v) level);
  do from <- load_int32 p i;
  do to <- load_int32 p (i + 1);
  Ok (from, to - from).

Definition start (v : aview) (g : Z) : prog unit := emit (EGeomStart (Z.to_N g) (Z.to_N (av_dims v))).

(** array_view.c lines 322-327, 361-365, 438-442, 490-494: the sequence at the physical index [i] of level [level] *)
Definition visit_seq (v : aview) (level : nat) (i : Z) : prog unit :=
  let! (coord_offset, n_coords) := Ret (offsets_at v level i) in
  let! o := Ret (or_ub (qget (av_offset v) (S level))) in
  visit_coords v (coord_offset + o) n_coords.

(** array_view.c lines 354-367, 484-496: the rings of the polygon at the physical index [i] of level [level] *)
Definition visit_rings (v : aview) (level : nat) (i : Z) : prog unit :=
  let! (ring_offset, n_rings) := Ret (offsets_at v level i) in
  let! o := Ret (or_ub (qget (av_offset v) (S level))) in
  for_each (Z.to_nat n_rings) 0 (fun j =>
    run! emit ERingStart in
    run! visit_seq v (S level) (ring_offset + o + j) in
    emit ERingEnd).

(** array_view.c lines 280-307: GeoArrowArrayViewVisitNativePoint *)
Definition visit_point (v : aview) (i : Z) : prog unit :=
  run! start v GT_POINT in
  run! visit_coords v i 1 in
  emit EGeomEnd.

(** array_view.c lines 309-337: GeoArrowArrayViewVisitNativeLinestring *)
Definition visit_linestring (v : aview) (i : Z) : prog unit :=
  run! start v GT_LINESTRING in
  run! visit_seq v 0 i in
  emit EGeomEnd.

(** array_view.c lines 339-378: GeoArrowArrayViewVisitNativePolygon *)
Definition visit_polygon (v : aview) (i : Z) : prog unit :=
  run! start v GT_POLYGON in
  run! visit_rings v 0 i in
  emit EGeomEnd.

(** array_view.c lines 380-413: GeoArrowArrayViewVisitNativeMultipoint *)
Definition visit_multipoint (v : aview) (i : Z) : prog unit :=
  run! start v GT_MULTIPOINT in
  let! (coord_offset, n_coords) := Ret (offsets_at v 0 i) in
  run! for_each (Z.to_nat n_coords) 0 (fun j =>
    run! start v GT_POINT in
    run! visit_coords v (coord_offset + q1 (av_offset v) + j) 1 in
    emit EGeomEnd) in
  emit EGeomEnd.

(** array_view.c lines 415-455: GeoArrowArrayViewVisitNativeMultilinestring *)
Definition visit_multilinestring (v : aview) (i : Z) : prog unit :=
  run! start v GT_MULTILINESTRING in
  let! (linestring_offset, n_linestrings) := Ret (offsets_at v 0 i) in
  run! for_each (Z.to_nat n_linestrings) 0 (fun j =>
    run! start v GT_LINESTRING in
    run! visit_seq v 1 (linestring_offset + q1 (av_offset v) + j) in
    emit EGeomEnd) in
  emit EGeomEnd.

(** array_view.c lines 457-510: GeoArrowArrayViewVisitNativeMultipolygon *)
Definition visit_multipolygon (v : aview) (i : Z) : prog unit :=
  run! start v GT_MULTIPOLYGON in
  let! (polygon_offset, n_polygons) := Ret (offsets_at v 0 i) in
  run! for_each (Z.to_nat n_polygons) 0 (fun j =>
    run! start v GT_POLYGON in
    run! visit_rings v 1 (polygon_offset + q1 (av_offset v) + j) in
    emit EGeomEnd) in
  emit EGeomEnd.

(** array_view.c lines 545-551: the number of dimensions whose minimum exceeds the maximum; [k] dimensions from [i] on *)
Fixpoint empty_dims (c : rcoords) (row : Z) (n_dim k i : nat) : outcome nat :=
  match k with
  | O => Ok 0%nat
  | S k' =>
      do dim_min <- view_value c row i;
      do dim_max <- view_value c row (n_dim + i);
      do n <- empty_dims c row n_dim k' (S i);
      Ok ((if dgt dim_min dim_max then 1 else 0) + n)%nat
  end.

(** array_view.c lines 559-565: the corners, by their columns *)
Fixpoint box_corners (c : rcoords) (row : Z) (cols : list (nat * nat)) : outcome (list coord) :=
  match cols with
  | [] => Ok []
  | (cx, cy) :: r =>
      do x <- view_value c row cx;
      do y <- view_value c row cy;
      do rest <- box_corners c row r;
      Ok ([x; y] :: rest)
  end.

(** array_view.c lines 512-582: GeoArrowArrayViewVisitNativeBox, one box *)
Definition visit_box (v : aview) (i : Z) : prog unit :=
  let n_dim := Z.to_nat (Z.quot (rc_n_values (av_coords v)) 2) in
  let! n_empty_dims := Ret (empty_dims (av_coords v) i n_dim n_dim 0) in
  run! start v GT_POLYGON in
  run! (if Nat.eqb n_empty_dims 0 then
          let! ring := Ret (box_corners (av_coords v) i
            [(0, 1); (n_dim, 1); (n_dim, n_dim + 1); (0, n_dim + 1); (0, 1)]%nat) in
          run! emit ERingStart in
          run! emit (ECoords (N.of_nat n_dim) ring) in
          emit ERingEnd
        else Ret (Ok tt)) in
  emit EGeomEnd.

(** array_view.c lines 584-605 (and 517-520): GeoArrowArrayViewVisitNative *)
Definition visit_native (v : aview) (offset length : Z) : prog unit :=
  if av_geom v =? GT_BOX then
    if negb (av_dims v =? DIM_XY) then Ret (Err ENOTSUP)
    else visit_features v offset length (visit_box v)
  else if av_geom v =? GT_POINT then visit_features v offset length (visit_point v)
  else if av_geom v =? GT_LINESTRING then visit_features v offset length (visit_linestring v)
  else if av_geom v =? GT_POLYGON then visit_features v offset length (visit_polygon v)
  else if av_geom v =? GT_MULTIPOINT then visit_features v offset length (visit_multipoint v)
  else if av_geom v =? GT_MULTILINESTRING then visit_features v offset length (visit_multilinestring v)
  else if av_geom v =? GT_MULTIPOLYGON then visit_features v offset length (visit_multipolygon v)
  else Ret (Err ENOTSUP).

(** A view after any history: initialised from a type and set to any number of arrays. *)
Inductive view_history (t : Z) : aview -> Prop :=
| vh_init v : array_view_init t = Ok v -> view_history t v
| vh_set v a v' : view_history t v -> set_array v a = Ok v' -> view_history t v'.
