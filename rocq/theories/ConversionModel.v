(** * The array writer, and the kernels that write arrays: src/geoarrow/array_writer.c, src/geoarrow/kernel.c *)
From Verif Require Import Base TypesModel GeomSpec VisitorModel BufferModel ArraySpec ArrowModel WkbWriterModel WktWriterModel BitmapModel BuilderModel
  NativeWriterModel WktReaderModel ArrayReaderModel KernelModel.
Local Open Scope Z_scope.

(** ** The memory of a binary or string array *)

(** src/vendor/nanoarrow/nanoarrow.h lines 2976-2987 (ArrowBitmapAppendUnsafe): bit i of a bitmap is bit i % 8 of byte i / 8. The
    bitmap of the WKB and WKT writers is modelled as a list of bits; [C43_appends] is about its memory. The bits after the last
    one are 0 here. *)
Fixpoint byte_of (bits : list bool) : N :=
  match bits with [] => 0 | b :: bits => (if b then 1 else 0) + 2 * byte_of bits end%N.
Fixpoint pack_bits (fuel : nat) (bits : list bool) : bytes :=
  match fuel, bits with
  | S fuel, _ :: _ => byte_of (firstn 8 bits) :: pack_bits fuel (skipn 8 bits)
  | _, _ => []
  end.

(** wkb_writer.c lines 217-238 and wkt_writer.c lines 325-345: the bitmap, the offsets and the data become the buffers of the
    array. nanoarrow.c lines 2753-2780 (ArrowArrayFinalizeBuffers): only the bitmap can be NULL. *)
Definition binary_memory (a : binary_array) : arrow_array :=
  ArrowArray (ba_length a) 0 (ba_null_count a)
    [option_map (fun bits => pack_bits (length bits) bits) (ba_validity a); Some (flat_map int32_bytes (ba_offsets a)); Some (ba_data a)] [].

(** ** The array writer *)

Section Writer.
  (** The number printer of the WKT writer, and the contents of freshly allocated memory. *)
  Variable print_double : N -> Z -> bytes.
  Variable junk : nat -> nat -> N.

  (** array_writer.c lines 8-13: struct GeoArrowArrayWriterPrivate. Only the writer of the type is ever used.
      [aw_precision], [aw_flat]: wkt_writer.precision, .use_flat_multipoint. *)
  Inductive awriter := AWkt (precision : Z) (flat : bool) (s : kst) | AWkb (s : wst) | ANative (t : Z) (w : nwriter).

  (** array_writer.c lines 15-53: GeoArrowArrayWriterInitFromType; wkt_writer.c lines 287-292: the settings of the WKT writer *)
  Definition array_writer_init (t : Z) : outcome awriter :=
    if (t =? TYPE_LARGE_WKT) || (t =? TYPE_LARGE_WKB) || (t =? TYPE_WKT_VIEW) || (t =? TYPE_WKB_VIEW) then Err ENOTSUP
    else if t =? TYPE_WKT then Ok (AWkt 16 true wkt_init)
    else if t =? TYPE_WKB then Ok (AWkb wkb_init)
    else do w <- writer_init junk t; Ok (ANative t w).

  (** array_writer.c lines 62-74: GeoArrowArrayWriterSetPrecision *)
  Definition set_precision (w : awriter) (precision : Z) : outcome awriter :=
    match w with AWkt _ flat s => Ok (AWkt precision flat s) | _ => Err EINVAL end.

  (** array_writer.c lines 76-88: GeoArrowArrayWriterSetFlatMultipoint *)
  Definition set_flat_multipoint (w : awriter) (flat : bool) : outcome awriter :=
    match w with AWkt precision _ s => Ok (AWkt precision flat s) | _ => Err EINVAL end.

  Definition vmap {A B} (f : A -> B) (r : vres A) : vres B := match r with VRet s c => VRet (f s) c | VUB => VUB end.

  (** array_writer.c lines 90-105: GeoArrowArrayWriterInitVisitor. The visitor of another writer's type is not used; the settings
      are those of the moment ([cfg]). native_writer.c lines 1036-1062: GeoArrowNativeWriterInitVisitor. *)
  Definition array_visitor (w : awriter) : outcome (visitor awriter) :=
    match w with
    | AWkt precision flat _ =>
        let cfg := wkt_config precision flat (-1) in
        Ok (fun w e => match w with AWkt p f s => vmap (AWkt p f) (wkt_step print_double cfg s e) | _ => VUB end)
    | AWkb _ => Ok (fun w e => match w with AWkb s => vmap AWkb (wkb_step s e) | _ => VUB end)
    | ANative t _ =>
        match native_visitor junk (geometry_type_from_type t) with
        | Some v => Ok (fun w e => match w with ANative t w => vmap (ANative t) (v w e) | _ => VUB end)
        | None => Err EINVAL
        end
    end.

  (** array_writer.c lines 107-121: GeoArrowArrayWriterFinish. Simplification: a native writer whose Finish fails is left as it
      was. *)
  Definition array_finish (w : awriter) : option (awriter * Z * option arrow_array) :=
    match w with
    | AWkt p f s => let '(s, c, a) := wkt_finish s in Some (AWkt p f s, c, option_map binary_memory a)
    | AWkb s => let '(s, c, a) := wkb_finish s in Some (AWkb s, c, option_map binary_memory a)
    | ANative t w =>
        match writer_finish junk w with
        | Ok (a, w) => Some (ANative t w, 0, Some a)
        | Err c => Some (ANative t w, c, None)
        | _ => None
        end
    end.

  (** ** Kernels *)

  (** kernel.c lines 306-347 and 697-702: the as_geoarrow kernel once it has been started for arrays of type [t] *)
  Definition as_geoarrow (t : Z) : outcome (kernel awriter arrow_array * awriter) :=
    do w <- array_writer_init t;
    do v <- array_visitor w;
    Ok ({| kn_visitor := v; kn_by_feature := false; kn_finish_push := array_finish; kn_finish := finish_void |}, w).

  (** kernel.c lines 273-304 and 693-696: the format_wkt kernel once it has been started with the options precision and
      max_element_size_bytes (16 and -1 when they are not given) *)
  Definition format_wkt (precision max : Z) : kernel kst arrow_array :=
    {| kn_visitor := wkt_step print_double (wkt_config precision true max); kn_by_feature := true;
       kn_finish_push := fun s => let '(s, c, a) := wkt_finish s in Some (s, c, option_map binary_memory a);
       kn_finish := finish_void |}.
End Writer.
