(** * Reading arrays of any type: src/geoarrow/array_reader.c *)
From Verif Require Import Base TypesModel GeomSpec VisitorModel BufferModel ArrowModel BitmapModel ArrayViewModel
  WkbReaderModel GeomVisitModel WktReaderModel.
Local Open Scope Z_scope.

(** ** Views of large and view-typed binary and string arrays: src/vendor/nanoarrow *)

(** ((const int64_t* )p)[i] *)
Definition load_int64 (p : rptr) (i : Z) : outcome Z :=
  match p with
  | RNull => UB
  | RPtr b o =>
      do bs <- or_ub (slice b (o + 8 * i) 8);
      let n := Z.of_N (le_val bs) in
      Ok (if n <? 2 ^ 63 then n else n - 2 ^ 64)
  end.

(** The bytes [p[from .. from + size)] a reader is given. Simplifications: an item outside its buffer is [UB] even if the
    reader would not look at it, and so is a negative size. *)
Definition item_bytes (p : rptr) (from size : Z) : outcome bytes :=
  if size <? 0 then UB
  else
    match p with
    | RNull => if size =? 0 then Ok [] else UB
    | RPtr b o => or_ub (slice b (o + from) (Z.to_nat size))
    end.

(** The storage types: NANOARROW_TYPE_LARGE_BINARY and _LARGE_STRING, NANOARROW_TYPE_BINARY_VIEW and _STRING_VIEW. *)
Inductive bstorage := SLarge | SView.

(** struct ArrowArrayView (nanoarrow.h lines 885-960), for these storage types: [bv_buffer1] and [bv_buffer2] are the
    pointers of buffer_views[1] and buffer_views[2], [bv_variadic] is variadic_buffers. *)
Record bview := BView {
  bv_storage : bstorage;
  bv_offset : Z;
  bv_validity : rptr;
  bv_buffer1 : rptr;
  bv_buffer2 : rptr;
  bv_variadic : list (option bytes)
}.

(** nanoarrow.c lines 2861-2866: ArrowArrayViewInitFromType *)
Definition bview_init (s : bstorage) : bview :=
  {| bv_storage := s; bv_offset := 0; bv_validity := RNull; bv_buffer1 := RNull; bv_buffer2 := RNull; bv_variadic := [] |}.

Definition reject (c : bool) : outcome unit := if c then Err EINVAL else Ok tt.

(** nanoarrow.c lines 3056-3140: ArrowArrayViewSetArrayInternal. The pointers are read before they are counted. *)
Definition bview_point (v : bview) (a : arrow_array) : outcome bview :=
  do b0 <- or_ub (nth_error (aa_buffers a) 0);
  do b1 <- or_ub (nth_error (aa_buffers a) 1);
  match bv_storage v with
  | SLarge =>
      do b2 <- or_ub (nth_error (aa_buffers a) 2);
      check reject (negb (Z.of_nat (length (aa_buffers a)) =? 3));
      check reject (negb (Z.of_nat (length (aa_children a)) =? 0));
      Ok {| bv_storage := SLarge; bv_offset := aa_offset a; bv_validity := rptr_of b0; bv_buffer1 := rptr_of b1;
            bv_buffer2 := rptr_of b2; bv_variadic := [] |}
  | SView =>
      check reject (negb (Z.of_nat (length (aa_children a)) =? 0));
      Ok {| bv_storage := SView; bv_offset := aa_offset a; bv_validity := rptr_of b0; bv_buffer1 := rptr_of b1;
            bv_buffer2 := bv_buffer2 v; bv_variadic := skipn 2 (aa_buffers a) |}
  end.

Definition is_null (p : rptr) : bool := match p with RNull => true | RPtr _ _ => false end.

(** nanoarrow.c lines 3142-3215: ArrowArrayViewValidateMinimal. The size of a non-NULL buffer is not known and is taken to
    be what is needed. *)
Definition bview_minimal (v : bview) (a : arrow_array) : outcome unit :=
  let total := aa_offset a + aa_length a in
  check reject (aa_length a <? 0);
  check reject (aa_offset a <? 0);
  check reject (2 ^ 63 <=? total);
  check reject (is_null (bv_validity v) && negb (aa_null_count a =? 0) && (0 <? bytes_for_bits total));
  reject (is_null (bv_buffer1 v) && negb (total =? 0)).

(** nanoarrow.c lines 3367-3379 and 3410-3441: ArrowArrayViewValidateDefault *)
Definition bview_default (v : bview) (a : arrow_array) : outcome unit :=
  let total := aa_offset a + aa_length a in
  check bview_minimal v a;
  match bv_storage v with
  | SView => Ok tt
  | SLarge =>
      if is_null (bv_buffer1 v) || (total =? 0) then Ok tt
      else
        do first <- load_int64 (bv_buffer1 v) (aa_offset a);
        check reject (first <? 0);
        do last <- load_int64 (bv_buffer1 v) total;
        check reject (last <? 0);
        reject (is_null (bv_buffer2 v) && (0 <? last))
  end.

(** nanoarrow.c lines 3568-3579: ArrowArrayViewSetArray *)
Definition bview_set_array (v : bview) (a : arrow_array) : outcome bview :=
  do v <- bview_point v a;
  check bview_default v a;
  Ok v.

(** nanoarrow.h lines 4129-4143: ! ArrowArrayViewIsNull(array_view, i) *)
Definition bview_valid (v : bview) (i : Z) : outcome bool :=
  match bv_validity v with
  | RNull => Ok true
  | RPtr b _ => bit_get b (i + bv_offset v)
  end.

(** nanoarrow.h lines 4336-4371 and 4377-4414 (ArrowArrayViewGetStringUnsafe and ArrowArrayViewGetBytesUnsafe, the same for
    these storage types) and 4218-4230 (ArrowArrayViewGetBytesFromViewArrayUnsafe). An entry of a view buffer (lines
    3610-3626) has 16 bytes: the size, then up to 12 bytes of data, or a prefix, the index of a buffer and an offset. *)
Definition bview_item (v : bview) (i : Z) : outcome bytes :=
  let i := i + bv_offset v in
  match bv_storage v with
  | SLarge =>
      do from <- load_int64 (bv_buffer1 v) i;
      do to <- load_int64 (bv_buffer1 v) (i + 1);
      item_bytes (bv_buffer2 v) from (to - from)
  | SView =>
      do size <- load_int32 (bv_buffer1 v) (4 * i);
      if size <=? 12 then item_bytes (bv_buffer1 v) (16 * i + 4) size
      else
        do index <- load_int32 (bv_buffer1 v) (4 * i + 2);
        do offset <- load_int32 (bv_buffer1 v) (4 * i + 3);
        if index <? 0 then UB
        else
          do b <- or_ub (nth_error (bv_variadic v) (Z.to_nat index));
          item_bytes (rptr_of b) offset size
  end.

(** ** The array reader *)

(** array_reader.c lines 6-9: union GeoArrowArrayReaderSrc *)
Inductive rsource := SrcGeoarrow (v : aview) | SrcArrow (v : bview).

(** array_reader.c lines 11-16: struct GeoArrowArrayReaderPrivate, without the two readers *)
Record areader := AReader { rd_type : Z; rd_src : rsource }.

(** array_reader.c lines 111-122, 224-227, 281-284: the types with an ArrowArrayView *)
Definition arrow_storage (t : Z) : option bstorage :=
  if (t =? TYPE_LARGE_WKB) || (t =? TYPE_LARGE_WKT) then Some SLarge
  else if (t =? TYPE_WKB_VIEW) || (t =? TYPE_WKT_VIEW) then Some SView
  else None.

(** array_reader.c lines 106-142 and 144-164: GeoArrowArrayReaderInitInternal and GeoArrowArrayReaderInitFromType *)
Definition reader_init (t : Z) : outcome areader :=
  match arrow_storage t with
  | Some s => Ok {| rd_type := t; rd_src := SrcArrow (bview_init s) |}
  | None => do v <- array_view_init t; Ok {| rd_type := t; rd_src := SrcGeoarrow v |}
  end.

(** array_reader.c lines 214-238: GeoArrowArrayReaderSetArray *)
Definition reader_set_array (r : areader) (a : arrow_array) : outcome areader :=
  match rd_src r with
  | SrcArrow v => do v <- bview_set_array v a; Ok {| rd_type := rd_type r; rd_src := SrcArrow v |}
  | SrcGeoarrow v => do v <- set_array v a; Ok {| rd_type := rd_type r; rd_src := SrcGeoarrow v |}
  end.

(** array_reader.c lines 273-290: GeoArrowArrayReaderArrayView *)
Definition reader_array_view (r : areader) : outcome aview :=
  match rd_src r with
  | SrcArrow _ => Err ENOTSUP
  | SrcGeoarrow v => Ok v
  end.

(** array_reader.c lines 24-35, 46-57, 68-79 and 90-101: the loop over the features, the same in all four functions *)
Definition visit_items (valid : Z -> outcome bool) (item : Z -> outcome bytes) (read : Z -> bytes -> prog unit) (length : Z) : prog unit :=
  for_each (Z.to_nat length) 0 (fun i =>
    let! is_valid := Ret (valid i) in
    if is_valid : bool then
      let! b := Ret (item i) in
      read i b
    else
      run! emit EFeatStart in
      run! emit ENullFeat in
      emit EFeatEnd).

Section Readers.
  (** The number parser of the WKT reader. *)
  Variable parse : bytes -> option N.
  (** The states in which the earlier features left the WKT reader and the WKB reader when feature [i] is read. Nothing is
      assumed about them: both readers are set up for each feature. *)
  Variable wkt_state : Z -> rst.
  Variable wkb_state : Z -> bool.

  Definition read_wkt (i : Z) (b : bytes) : prog unit := wkt_visit parse (wkt_state i) b.
  Definition read_wkb (i : Z) (b : bytes) : prog unit := wkb_visit b (wkb_state i).

  (** array_reader.c lines 18-38 and 62-82: GeoArrowArrayReaderVisitWKT, GeoArrowArrayReaderVisitWKB *)
  Definition visit_serialized (read : Z -> bytes -> prog unit) (v : aview) (offset length : Z) : prog unit :=
    visit_items
      (fun i => is_valid_bit v (q0 (av_offset v) + offset + i))
      (fun i => do (from, size) <- offsets_at v 0 (q0 (av_offset v) + offset + i); item_bytes (av_data v) from size)
      read length.

  (** array_reader.c lines 40-60 and 84-104: GeoArrowArrayReaderVisitWKTArrow, GeoArrowArrayReaderVisitWKBArrow *)
  Definition visit_arrow (read : Z -> bytes -> prog unit) (v : bview) (offset length : Z) : prog unit :=
    visit_items (fun i => bview_valid v (offset + i)) (fun i => bview_item v (offset + i)) read length.

  (** array_reader.c lines 240-271: GeoArrowArrayReaderVisit. Reading the union through its other member is [UB]. *)
  Definition reader_visit (r : areader) (offset length : Z) : prog unit :=
    let t := rd_type r in
    if length =? 0 then Ret (Ok tt)
    else
      match rd_src r with
      | SrcGeoarrow v =>
          if t =? TYPE_WKT then visit_serialized read_wkt v offset length
          else if t =? TYPE_WKB then visit_serialized read_wkb v offset length
          else visit_native v offset length
      | SrcArrow v =>
          if (t =? TYPE_LARGE_WKB) || (t =? TYPE_WKB_VIEW) then visit_arrow read_wkb v offset length
          else if (t =? TYPE_LARGE_WKT) || (t =? TYPE_WKT_VIEW) then visit_arrow read_wkt v offset length
          else Ret UB
      end.
End Readers.

(** A reader after any history: initialised for a type and given any number of arrays. *)
Inductive reader_history (t : Z) : areader -> Prop :=
| rh_init r : reader_init t = Ok r -> reader_history t r
| rh_set r a r' : reader_history t r -> reader_set_array r a = Ok r' -> reader_history t r'.
