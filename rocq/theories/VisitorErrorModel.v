(** * Messages of the visitors that write: src/geoarrow/native_writer.c and src/geoarrow/wkt_writer.c *)
From Verif Require Import Base Text TypesModel GeomSpec VisitorModel BufferModel BufferModel NativeWriterModel WkbWriterModel WktWriterModel WktErrorModel.
Local Open Scope Z_scope.

(** The message is in v->error; [before] is what it was. The functions without GeoArrowErrorSet leave it alone: those of the builder
    and of the bitmap (geoarrow_type_inline.h, nanoarrow.h), which the visitors call, and the visitors of wkb_writer.c. *)

(** native_writer.c lines 487-509: feat_end_point; the other methods of lines 436-485 say nothing *)
Definition point_message (w : nwriter) (e : event) (before : bytes) : bytes :=
  match e with
  | EFeatEnd =>
      if size_at w 0 =? 0 then before
      else if negb (size_at w 0 =? 1) then snd (error_set $"Can't convert feature with >1 coordinate to POINT")
      else before
  | _ => before
  end.

(** native_writer.c lines 646-667: feat_end_multipoint; the other methods of lines 543-644 say nothing *)
Definition linestring_message (w : nwriter) (e : event) (before : bytes) : bytes :=
  match e with
  | EFeatEnd =>
      if size_at w 0 =? 0 then before
      else if negb (size_at w 0 =? 1) then snd (error_set $"Can't convert feature with >1 sequence to LINESTRING")
      else before
  | _ => before
  end.

(** native_writer.c lines 1036-1062: GeoArrowNativeWriterInitVisitor, which visitor is taken; the methods of lines 702-1034 say nothing *)
Definition native_message (g : Z) : nwriter -> event -> bytes -> bytes :=
  if g =? GT_POINT then point_message
  else if (g =? GT_MULTIPOINT) || (g =? GT_LINESTRING) then linestring_message
  else fun _ _ before => before.

(** wkt_writer.c lines 67-105: geom_start_wkt; the other methods say nothing *)
Definition wkt_message (s : kst) (e : event) (before : bytes) : bytes :=
  match e with
  | EGeomStart t d =>
      let s := kset_level s (k_level s + 1) in
      if negb (wkt_check_level s) then before
      else
        let l := k_level s in
        let tagged := if l =? 0 then true else match aget (k_gt s) (l - 1) with Some p => (p =? 7)%N | None => false end in
        if tagged then
          if ((t <? 1) || (7 <? t))%N then snd (error_set $"WKTWriter::geom_start(): Unexpected `geometry_type`")
          else match dimensions_tag d with
               | None => snd (error_set $"WKTWriter::geom_start(): Unexpected `dimensions`")
               | Some _ => before
               end
        else before
  | _ => before
  end.

(** The message after feeding events to a visitor until the first error, [before] being what it was. *)
Fixpoint feed_message {S} (v : visitor S) (message : S -> event -> bytes -> bytes) (s : S) (evs : list event) (before : bytes) : bytes :=
  match evs with
  | [] => before
  | e :: r =>
      let m := message s e before in
      match v s e with
      | VRet s' c => if c =? 0 then feed_message v message s' r m else m
      | VUB => m
      end
  end.
