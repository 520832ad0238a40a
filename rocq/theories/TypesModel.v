(** * Type identifiers, byte swapping and dimension maps *)
From Verif Require Import Base.
Local Open Scope Z_scope.

(** ** Enumerators: src/geoarrow/geoarrow_type.h lines 315-384 (enum GeoArrowType) *)
Definition TYPE_UNINITIALIZED : Z := 0.
Definition TYPE_WKB : Z := 100001.
Definition TYPE_LARGE_WKB : Z := 100002.
Definition TYPE_WKT : Z := 100003.
Definition TYPE_LARGE_WKT : Z := 100004.
Definition TYPE_WKB_VIEW : Z := 100005.
Definition TYPE_WKT_VIEW : Z := 100006.
Definition TYPE_POINT : Z := 1.
Definition TYPE_INTERLEAVED_POINT : Z := 10001.

(** src/geoarrow/geoarrow_type.h lines 392-402 (enum GeoArrowGeometryType) *)
Definition GT_GEOMETRY : Z := 0.
Definition GT_POINT : Z := 1.
Definition GT_LINESTRING : Z := 2.
Definition GT_POLYGON : Z := 3.
Definition GT_MULTIPOINT : Z := 4.
Definition GT_MULTILINESTRING : Z := 5.
Definition GT_MULTIPOLYGON : Z := 6.
Definition GT_GEOMETRYCOLLECTION : Z := 7.
Definition GT_BOX : Z := 990.

(** src/geoarrow/geoarrow_type.h lines 406-420 (enum GeoArrowDimensions, enum GeoArrowCoordType) *)
Definition DIM_UNKNOWN : Z := 0.
Definition DIM_XY : Z := 1.
Definition DIM_XYZ : Z := 2.
Definition DIM_XYM : Z := 3.
Definition DIM_XYZM : Z := 4.
Definition CT_UNKNOWN : Z := 0.
Definition CT_SEPARATE : Z := 1.
Definition CT_INTERLEAVED : Z := 2.

(** The seven non-native enumerators that open the switch statements of lines 38-50 and 184-196. *)
Definition is_serialized_or_uninit (t : Z) : bool :=
  (t =? TYPE_UNINITIALIZED) || (t =? TYPE_WKB) || (t =? TYPE_LARGE_WKB) || (t =? TYPE_WKT) ||
  (t =? TYPE_LARGE_WKT) || (t =? TYPE_WKB_VIEW) || (t =? TYPE_WKT_VIEW).

(** geoarrow_type_inline.h lines 36-65: GeoArrowGeometryTypeFromType. C's [%] is [Z.rem]. *)
Definition geometry_type_from_type (t : Z) : Z :=
  if is_serialized_or_uninit t then GT_GEOMETRY
  else
    let g := if TYPE_INTERLEAVED_POINT <=? t then t - 10000 else t in
    let g := Z.rem g 1000 in
    if g =? GT_BOX then GT_BOX
    else if (g <=? 6) && (1 <=? g) then g
    else GT_GEOMETRY.

(** geoarrow_type_inline.h lines 183-215: GeoArrowDimensionsFromType. C's [/] is [Z.quot]. *)
Definition dimensions_from_type (t : Z) : Z :=
  if is_serialized_or_uninit t then DIM_UNKNOWN
  else
    let i := if TYPE_INTERLEAVED_POINT <=? t then t - 10000 else t in
    let q := Z.quot i 1000 in
    if q =? 0 then DIM_XY
    else if q =? 1 then DIM_XYZ
    else if q =? 2 then DIM_XYM
    else if q =? 3 then DIM_XYZM
    else DIM_UNKNOWN.

(** geoarrow_type_inline.h lines 219-229: GeoArrowCoordTypeFromType *)
Definition coord_type_from_type (t : Z) : Z :=
  if TYPE_WKB <=? t then CT_UNKNOWN
  else if TYPE_INTERLEAVED_POINT <=? t then CT_INTERLEAVED
  else if TYPE_POINT <=? t then CT_SEPARATE
  else CT_UNKNOWN.

(** geoarrow_type_inline.h lines 234-250: GeoArrowMakeType *)
Definition make_type (g d c : Z) : Z :=
  if g =? GT_GEOMETRY then TYPE_UNINITIALIZED
  else if d =? DIM_UNKNOWN then TYPE_UNINITIALIZED
  else if c =? CT_UNKNOWN then TYPE_UNINITIALIZED
  else if (g =? GT_BOX) && negb (c =? CT_SEPARATE) then TYPE_UNINITIALIZED
  else (d - 1) * 1000 + (c - 1) * 10000 + g.

(** hpp/geometry_type_traits.hpp lines 82-85: GeometryTypeTraits::type_id *)
Definition traits_type_id (g d c : Z) : Z := (c - 1) * 10000 + (d - 1) * 1000 + g.

(** hpp/geometry_type_traits.hpp lines 91-97: TypeTraits::coord_type_id, dimensions, geometry_type *)
Definition traits_coord_type (t : Z) : Z := Z.quot t 10000 + 1.
Definition traits_dimensions (t : Z) : Z := Z.quot (Z.rem t 10000) 1000 + 1.
Definition traits_geometry_type (t : Z) : Z := Z.rem (Z.rem t 10000) 1000.

(** ** Byte swapping *)

(** geoarrow_type_inline.h lines 14-17: GeoArrowBSwap32 (argument below 2^32; no shift leaves 32 bits). *)
Definition bswap32 (x : N) : N :=
  N.lor (N.lor (N.lor (N.shiftl (N.land x 0xFF) 24)
                      (N.shiftl (N.land x 0xFF00) 8))
               (N.shiftr (N.land x 0xFF0000) 8))
        (N.shiftr (N.land x 0xFF000000) 24).

(** geoarrow_type_inline.h lines 19-24: GeoArrowBSwap64 (argument below 2^64). *)
Definition bswap64 (x : N) : N :=
  N.lor (N.lor (N.lor (N.lor (N.lor (N.lor (N.lor
    (N.shiftl (N.land x 0xFF) 56)
    (N.shiftl (N.land x 0xFF00) 40))
    (N.shiftl (N.land x 0xFF0000) 24))
    (N.shiftl (N.land x 0xFF000000) 8))
    (N.shiftr (N.land x 0xFF00000000) 8))
    (N.shiftr (N.land x 0xFF0000000000) 24))
    (N.shiftr (N.land x 0xFF000000000000) 40))
    (N.shiftr (N.land x 0xFF00000000000000) 56).

(** ** Dimensions *)

(** geoarrow_type_inline.h line 284: _GeoArrowkNumDimensions. An index outside the array is [None]. *)
Definition num_dimensions (d : Z) : option Z :=
  if d =? 0 then Some (-1) else if d =? 1 then Some 2 else if d =? 2 then Some 3
  else if d =? 3 then Some 3 else if d =? 4 then Some 4 else None.

(** geoarrow_type_inline.h lines 301-353: GeoArrowMapDimensions. The result is the array dim_map. *)
Definition map_dimensions (src_dim dst_dim : Z) : quad Z :=
  let base := Quad 0 1 (-1) (-1) in
  if dst_dim =? DIM_XYM then
    if src_dim =? DIM_XYM then qset base 2 2
    else if src_dim =? DIM_XYZM then qset base 2 3
    else base
  else if dst_dim =? DIM_XYZ then
    if (src_dim =? DIM_XYZ) || (src_dim =? DIM_XYZM) then qset base 2 2
    else base
  else if dst_dim =? DIM_XYZM then
    if src_dim =? DIM_XYZ then qset base 2 2
    else if src_dim =? DIM_XYM then qset base 3 2
    else if src_dim =? DIM_XYZM then qset (qset base 2 2) 3 3
    else base
  else base.

(** geoarrow_type_inline.h lines 362-366: _GeoArrowkEmptyPointCoords on a little-endian host, and the word each
    group of eight of its bytes denotes. *)
Definition empty_point_coords : bytes :=
  [0; 0; 0; 0; 0; 0; 0xf8; 0x7f; 0; 0; 0; 0; 0; 0; 0xf8; 0x7f;
   0; 0; 0; 0; 0; 0; 0xf8; 0x7f; 0; 0; 0; 0; 0; 0; 0xf8; 0x7f]%N.
Definition nan_word : N := 0x7ff8000000000000%N.
