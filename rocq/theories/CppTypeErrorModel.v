(** * Messages of exceptions of type objects: src/geoarrow/hpp/geometry_data_type.hpp *)
From Verif Require Import Base Text TypesModel SchemaModel CppDataTypeModel CppErrorModel.
Local Open Scope Z_scope.

(** geoarrow_type_inline.h lines 254-278: GeoArrowGeometryTypeString *)
Definition geometry_type_string (g : Z) : bytes :=
  if g =? GT_GEOMETRY then $"GEOMETRY"
  else if g =? GT_POINT then $"POINT"
  else if g =? GT_LINESTRING then $"LINESTRING"
  else if g =? GT_POLYGON then $"POLYGON"
  else if g =? GT_MULTIPOINT then $"MULTIPOINT"
  else if g =? GT_MULTILINESTRING then $"MULTILINESTRING"
  else if g =? GT_MULTIPOLYGON then $"MULTIPOLYGON"
  else if g =? 7 then $"GEOMETRYCOLLECTION"
  else if g =? GT_BOX then $"BOX"
  else $"<not valid>".

(** geoarrow_type_inline.h lines 126-137: GeoArrowCoordTypeString *)
Definition coord_type_string (c : Z) : bytes :=
  if c =? CT_UNKNOWN then $"unknown"
  else if c =? CT_SEPARATE then $"separate"
  else if c =? 2 then $"interleaved"
  else $"<not valid>".

(** geometry_data_type.hpp lines 73-83: the message of Make(type), without metadata; [Ok None]: nothing is thrown. Simplification: the function
    that is called only ends with [Ok] or [Err]. *)
Definition make_type_told (t : Z) : outcome (option bytes) :=
  if t =? TYPE_UNINITIALIZED then Ok (Some $"Can't construct GeometryDataType from GEOARROW_TYPE_UNINITIALIZED")
  else
    let code := match schema_view_init_from_type t with Ok _ => 0 | Err c => c | _ => 0 end in
    do e <- throw_not_ok None $"GeoArrowSchemaViewInitFromType(&schema_view, type)" code;
    Ok (option_map snd e).

(** lines 53-68: the message of Make(geometry_type, dimensions, coord_type), without metadata *)
Definition make_parts_told (g d c : Z) : outcome (option bytes) :=
  let t := make_type g d c in
  if t =? TYPE_UNINITIALIZED
  then Ok (Some ($"Combination of geometry type/dimensions/coord type not valid: " ++ geometry_type_string g ++ $"/" ++
                 dimensions_string d ++ $"/" ++ coord_type_string c))
  else make_type_told t.

(** lines 175-191: the message of Simple() of an object of geometry type [g]; [None]: WithGeometryType is called *)
Definition simple_told (g : Z) : option bytes :=
  if (g =? GT_POINT) || (g =? GT_MULTIPOINT) || (g =? GT_LINESTRING) || (g =? GT_MULTILINESTRING) || (g =? GT_POLYGON) || (g =? GT_MULTIPOLYGON)
  then None
  else Some ($"Can't make simple type from geometry type " ++ geometry_type_string g).
(** lines 193-209: Multi() *)
Definition multi_told (g : Z) : option bytes :=
  if (g =? GT_POINT) || (g =? GT_MULTIPOINT) || (g =? GT_LINESTRING) || (g =? GT_MULTILINESTRING) || (g =? GT_POLYGON) || (g =? GT_MULTIPOLYGON)
  then None
  else Some ($"Can't make multi type from geometry type " ++ geometry_type_string g).

(** lines 222-231: the message of extension_name() of an object of type [t] *)
Definition extension_name_told (t : Z) : option bytes :=
  match extension_name_from_type t with
  | None => Some ($"Extension name not available for type with id " ++ to_string t)
  | Some _ => None
  end.
