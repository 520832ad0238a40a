(** * The messages of GeoArrowNativeWriterAppend: src/geoarrow/native_writer.c *)
From Verif Require Import Base Text TypesModel VisitorModel ArrowModel NodesModel CopyCoordsModel BuilderModel NativeWriterModel NativeWriterRun.
Local Open Scope Z_scope.

(** geoarrow_type_inline.h lines 254-278: GeoArrowGeometryTypeString *)
Definition geometry_type_name (t : Z) : bytes :=
  if t =? GT_GEOMETRY then $"GEOMETRY"
  else if t =? GT_POINT then $"POINT"
  else if t =? GT_LINESTRING then $"LINESTRING"
  else if t =? GT_POLYGON then $"POLYGON"
  else if t =? GT_MULTIPOINT then $"MULTIPOINT"
  else if t =? GT_MULTILINESTRING then $"MULTILINESTRING"
  else if t =? GT_MULTIPOLYGON then $"MULTIPOLYGON"
  else if t =? GT_GEOMETRYCOLLECTION then $"GEOMETRYCOLLECTION"
  else if t =? GT_BOX then $"BOX"
  else $"<not valid>".

(** native_writer.c lines 302-417: the message for a geometry of [count] coordinates, more than none, with the root [root], in a
    builder of geometry type [g]; [None] where NativeWriterModel.append_offsets goes on *)
Definition refusal (g : Z) (root : node) (count : N) : option bytes :=
  let ty := Z.of_N (nd_type root) in
  let other (array : bytes) := Some ($"Can't append " ++ geometry_type_name ty ++ $" to array of type " ++ array) in
  if g =? GT_POINT then if (1 <? count)%N then Some $"Can't append geometry with coord count >1 to array of type POINT" else None
  else if g =? GT_LINESTRING then
    if ty =? GT_LINESTRING then None
    else if ty =? GT_MULTILINESTRING then
      if (1 <? nd_size root)%N then Some $"Can't append MULTILINESTRING with size >1 to array of type LINESTRING" else None
    else other $"LINESTRING"
  else if g =? GT_POLYGON then
    if ty =? GT_POLYGON then None
    else if ty =? GT_MULTIPOLYGON then
      if (1 <? nd_size root)%N then Some $"Can't append MULTIPOLYGON with size >1 to array of type POLYGON" else None
    else other $"POLYGON"
  else if g =? GT_MULTIPOINT then if (ty =? GT_POINT) || (ty =? GT_MULTIPOINT) then None else other $"MULTIPOINT"
  else if g =? GT_MULTILINESTRING then if (ty =? GT_LINESTRING) || (ty =? GT_MULTILINESTRING) then None else other $"MULTILINESTRING"
  else if g =? GT_MULTIPOLYGON then if (ty =? GT_POLYGON) || (ty =? GT_MULTIPOLYGON) then None else other $"MULTIPOLYGON"
  else Some $"Unexpected builder geometry type".

Section Junk.
  Variable junk : nat -> nat -> N.

  (** The message that a call sets when it returns [code]: lines 153-155, where alone EOVERFLOW comes from, and those above.
      GeoArrowNativeWriterAppendNull sets none. *)
  Definition said (w : nwriter) (i : option (mem * list node)) (code : Z) : option bytes :=
    match i with
    | None => None
    | Some (_, nodes) =>
        if code =? EOVERFLOW then Some $"Can't append geometry with size > INT32_MAX to GeoArrow native array"
        else
          let count := num_coords nodes in
          if (count =? 0)%N then None
          else match nodes with root :: _ => refusal (bd_geom (nw_builder w)) root count | [] => None end
    end.

  (** One call after the other, whatever they return: the codes, and the messages of the calls that fail. *)
  Fixpoint offer_items (w : nwriter) (items : list (option (mem * list node))) : outcome (nwriter * list (Z * option bytes)) :=
    match items with
    | [] => Ok (w, [])
    | i :: r =>
        match append_item junk w i with
        | VRet w' c =>
            do (w'', answers) <- offer_items w' r;
            Ok (w'', (c, if c =? 0 then None else said w i c) :: answers)
        | VUB => UB
        end
    end.
  (** One array after the other from the same writer. *)
  Fixpoint offer_arrays (w : nwriter) (batches : list (list (option (mem * list node)))) : outcome (list (list (Z * option bytes) * arrow_array)) :=
    match batches with
    | [] => Ok []
    | items :: r =>
        do (w, answers) <- offer_items w items;
        do (a, w) <- writer_finish junk w;
        do rest <- offer_arrays w r;
        Ok ((answers, a) :: rest)
    end.
End Junk.
