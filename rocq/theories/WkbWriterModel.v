(** * The WKB writer: src/geoarrow/wkb_writer.c *)
From Verif Require Import Base TypesModel NodesModel GeomSpec VisitorModel GeomVisitModel BufferModel ArraySpec.
Local Open Scope Z_scope.

(** wkb_writer.c lines 9-22: struct WKBWriterPrivate. storage_type is constantly NANOARROW_TYPE_BINARY and left out.
    [w_validity] is the list of bits of the bitmap, [None] when its buffer is NULL (src/vendor/nanoarrow/nanoarrow.h lines
    2925-2990; the byte-level functions are modelled in BitmapModel.v). [w_offsets] lists the int32_t entries of the
    offsets buffer. [w_is_null] is feat_is_null, [None] until it is first written. *)
Record wst := WState {
  w_validity : option (list bool);
  w_offsets : list Z;
  w_values : buf;
  w_gt : arr32 N;
  w_dims : arr32 N;
  w_pos : arr32 Z;
  w_size : arr32 N;
  w_level : Z;
  w_length : Z;
  w_nulls : Z;
  w_is_null : option bool
}.

(** wkb_writer.c lines 183-200: GeoArrowWKBWriterInit. ArrowMalloc leaves the arrays and feat_is_null unset. *)
Definition wkb_init : wst :=
  {| w_validity := None; w_offsets := []; w_values := buf_init; w_gt := fun _ => None; w_dims := fun _ => None;
     w_pos := fun _ => None; w_size := fun _ => None; w_level := 0; w_length := 0; w_nulls := 0; w_is_null := None |}.

(** wkb_writer.c lines 35-41: WKBWriterCheckLevel *)
Definition wkb_check_level (s : wst) : bool := (0 <=? w_level s) && (w_level s <=? 30).

Definition set_values (s : wst) (b : buf) : wst :=
  {| w_validity := w_validity s; w_offsets := w_offsets s; w_values := b; w_gt := w_gt s; w_dims := w_dims s;
     w_pos := w_pos s; w_size := w_size s; w_level := w_level s; w_length := w_length s; w_nulls := w_nulls s;
     w_is_null := w_is_null s |}.
Definition set_level (s : wst) (l : Z) : wst :=
  {| w_validity := w_validity s; w_offsets := w_offsets s; w_values := w_values s; w_gt := w_gt s; w_dims := w_dims s;
     w_pos := w_pos s; w_size := w_size s; w_level := l; w_length := w_length s; w_nulls := w_nulls s;
     w_is_null := w_is_null s |}.
Definition set_size (s : wst) (a : arr32 N) : wst :=
  {| w_validity := w_validity s; w_offsets := w_offsets s; w_values := w_values s; w_gt := w_gt s; w_dims := w_dims s;
     w_pos := w_pos s; w_size := a; w_level := w_level s; w_length := w_length s; w_nulls := w_nulls s;
     w_is_null := w_is_null s |}.
Definition set_meta (s : wst) (gt dims : arr32 N) (pos : arr32 Z) : wst :=
  {| w_validity := w_validity s; w_offsets := w_offsets s; w_values := w_values s; w_gt := gt; w_dims := dims;
     w_pos := pos; w_size := w_size s; w_level := w_level s; w_length := w_length s; w_nulls := w_nulls s;
     w_is_null := w_is_null s |}.
Definition set_offsets (s : wst) (o : list Z) : wst :=
  {| w_validity := w_validity s; w_offsets := o; w_values := w_values s; w_gt := w_gt s; w_dims := w_dims s;
     w_pos := w_pos s; w_size := w_size s; w_level := w_level s; w_length := w_length s; w_nulls := w_nulls s;
     w_is_null := w_is_null s |}.
Definition set_book (s : wst) (v : option (list bool)) (len nulls : Z) : wst :=
  {| w_validity := v; w_offsets := w_offsets s; w_values := w_values s; w_gt := w_gt s; w_dims := w_dims s;
     w_pos := w_pos s; w_size := w_size s; w_level := w_level s; w_length := len; w_nulls := nulls;
     w_is_null := w_is_null s |}.
Definition set_is_null (s : wst) (b : bool) : wst :=
  {| w_validity := w_validity s; w_offsets := w_offsets s; w_values := w_values s; w_gt := w_gt s; w_dims := w_dims s;
     w_pos := w_pos s; w_size := w_size s; w_level := w_level s; w_length := w_length s; w_nulls := w_nulls s;
     w_is_null := Some b |}.

Definition vor_ub {A S} (o : option A) (k : A -> vres S) : vres S :=
  match o with Some a => k a | None => VUB end.
Notation "'got' x <- o ; k" := (vor_ub o (fun x => k)) (at level 200, x pattern, o at level 100, k at level 200).

Definition append_bytes (s : wst) (bs : bytes) : wst := set_values s (buf_append (w_values s) bs).

(** wkb_writer.c line 48 and others: private->size[private->level] += n, a uint32_t addition *)
Definition bump_size (s : wst) (n : N) : vres wst :=
  got x <- aget (w_size s) (w_level s);
  got a <- aset (w_size s) (w_level s) (wrap32 (x + n));
  VRet (set_size s a) 0.

(** wkb_writer.c lines 43-54: feat_start_wkb *)
Definition feat_start_wkb (s : wst) : vres wst :=
  got a <- aset (w_size s) 0 0%N;
  let s := set_is_null (set_book (set_size (set_level s 0) a) (w_validity s) (w_length s + 1) (w_nulls s)) false in
  if 2147483647 <? b_size (w_values s) then VRet s EOVERFLOW
  else VRet (set_offsets s (w_offsets s ++ [to_int32 (b_size (w_values s))])) 0.

(** wkb_writer.c lines 56-60: null_feat_wkb *)
Definition null_feat_wkb (s : wst) : vres wst := VRet (set_is_null s true) 0.

(** wkb_writer.c lines 62-83: geom_start_wkb. [geometry_type + ((dimensions - 1) * 1000)] is unsigned arithmetic. *)
Definition type_code (geometry_type dimensions : N) : N :=
  Z.to_N ((Z.of_N geometry_type + (Z.of_N dimensions - 1) * 1000) mod 4294967296).
Definition geom_start_wkb (s : wst) (t d : N) : vres wst :=
  if negb (wkb_check_level s) then VRet s EINVAL
  else
    match bump_size s 1 with
    | VUB => VUB
    | VRet s _ =>
        let s := set_level s (w_level s + 1) in
        got gt <- aset (w_gt s) (w_level s) t;
        got dims <- aset (w_dims s) (w_level s) d;
        got size <- aset (w_size s) (w_level s) 0%N;
        let s := set_size (set_meta s gt dims (w_pos s)) size in
        let s := append_bytes s [1%N] in
        let s := append_bytes s (le_bytes 4 (type_code t d)) in
        if negb (N.eqb t 1) then
          got pos <- aset (w_pos s) (w_level s) (b_size (w_values s));
          let s := set_meta s (w_gt s) (w_dims s) pos in
          VRet (append_bytes s (le_bytes 4 0)) 0
        else VRet s 0
    end.

(** wkb_writer.c lines 85-94: ring_start_wkb; GEOARROW_GEOMETRY_TYPE_GEOMETRY is 0 *)
Definition ring_start_wkb (s : wst) : vres wst :=
  if negb (wkb_check_level s) then VRet s EINVAL
  else
    match bump_size s 1 with
    | VUB => VUB
    | VRet s _ =>
        let s := set_level s (w_level s + 1) in
        got gt <- aset (w_gt s) (w_level s) 0%N;
        got pos <- aset (w_pos s) (w_level s) (b_size (w_values s));
        got size <- aset (w_size s) (w_level s) 0%N;
        let s := set_size (set_meta s gt (w_dims s) pos) size in
        VRet (append_bytes s (le_bytes 4 0)) 0
    end.

(** wkb_writer.c lines 96-114: coords_wkb. Simplification: the rows are appended in one step (the space was reserved
    before the loop), each row being the n_values ordinates of the coordinate. *)
Definition coords_wkb (s : wst) (cs : list coord) : vres wst :=
  if negb (wkb_check_level s) then VRet s EINVAL
  else
    match bump_size s (wrap32 (N.of_nat (length cs))) with
    | VUB => VUB
    | VRet s _ => VRet (append_bytes s (flat_map (flat_map (le_bytes 8)) cs)) 0
    end.

(** wkb_writer.c lines 122-123 and 136-137: memcpy of size[level] over the four bytes at size_pos[level] *)
Definition patch_size (s : wst) : option wst :=
  match aget (w_pos s) (w_level s), aget (w_size s) (w_level s) with
  | Some p, Some n =>
      match patch (b_data (w_values s)) p (le_bytes 4 n) with
      | Some bs => Some (set_values s {| b_data := bs; b_cap := b_cap (w_values s) |})
      | None => None
      end
  | _, _ => None
  end.

(** wkb_writer.c lines 116-126: ring_end_wkb. data is NULL exactly when nothing was ever allocated. *)
Definition ring_end_wkb (s : wst) : vres wst :=
  if negb (wkb_check_level s) then VRet s EINVAL
  else if b_cap (w_values s) =? 0 then VRet s EINVAL
  else
    got s <- patch_size s;
    VRet (set_level s (w_level s - 1)) 0.

(** wkb_writer.c lines 24-33: kWKBWriterEmptyPointCoords2, 3 and 4 *)
Definition wkb_nan_bytes : bytes := [0x00; 0x00; 0x00; 0x00; 0x00; 0x00; 0xf8; 0x7f]%N.

(** wkb_writer.c lines 128-163: geom_end_wkb *)
Definition geom_end_wkb (s : wst) : vres wst :=
  if negb (wkb_check_level s) then VRet s EINVAL
  else if b_cap (w_values s) =? 0 then VRet s EINVAL
  else
    got t <- aget (w_gt s) (w_level s);
    if negb (N.eqb t 1) then
      got s <- patch_size s;
      VRet (set_level s (w_level s - 1)) 0
    else
      got n <- aget (w_size s) (w_level s);
      if N.eqb n 0 then
        got d <- aget (w_dims s) (w_level s);
        if N.eqb d 1 then
          VRet (set_level (append_bytes s (wkb_nan_bytes ++ wkb_nan_bytes)) (w_level s - 1)) 0
        else if (N.eqb d 2 || N.eqb d 3)%bool then
          VRet (set_level (append_bytes s (wkb_nan_bytes ++ wkb_nan_bytes ++ wkb_nan_bytes)) (w_level s - 1)) 0
        else if N.eqb d 4 then
          VRet (set_level (append_bytes s (wkb_nan_bytes ++ wkb_nan_bytes ++ wkb_nan_bytes ++ wkb_nan_bytes))
                  (w_level s - 1)) 0
        else VRet s EINVAL
      else VRet (set_level s (w_level s - 1)) 0.

(** wkb_writer.c lines 168-178 and 255-266: one validity bit for the feature counted last. ArrowBitmapAppendUnsafe of
    length - 1 ones, then of the zero. *)
Definition push_null (s : wst) : wst :=
  let bits := match w_validity s with
              | None => repeat true (Z.to_nat (w_length s - 1))
              | Some bits => bits
              end in
  set_book s (Some (bits ++ [false])) (w_length s) (w_nulls s + 1).
Definition push_valid (s : wst) : wst :=
  match w_validity s with
  | Some bits => set_book s (Some (bits ++ [true])) (w_length s) (w_nulls s)
  | None => s
  end.

(** wkb_writer.c lines 165-181: feat_end_wkb *)
Definition feat_end_wkb (s : wst) : vres wst :=
  got is_null <- w_is_null s;
  if (is_null : bool) then VRet (push_null s) 0 else VRet (push_valid s) 0.

(** wkb_writer.c lines 202-215: GeoArrowWKBWriterInitVisitor *)
Definition wkb_step : visitor wst := fun s e =>
  match e with
  | EFeatStart => feat_start_wkb s
  | ENullFeat => null_feat_wkb s
  | EGeomStart t d => geom_start_wkb s t d
  | ERingStart => ring_start_wkb s
  | ECoords _ cs => coords_wkb s cs
  | ERingEnd => ring_end_wkb s
  | EGeomEnd => geom_end_wkb s
  | EFeatEnd => feat_end_wkb s
  end.

(** ** Finish *)

(** src/vendor/nanoarrow/nanoarrow.c lines 3142-3215 and 3367-3413: what ArrowArrayViewValidate checks of a binary array
    (offset 0, no children) *)
Definition bytes_for_bits (n : Z) : Z := n / 8 + (if n mod 8 =? 0 then 0 else 1).
Definition validate_binary (a : binary_array) : bool :=
  let validity_bytes := match ba_validity a with Some bits => bytes_for_bits (Z.of_nat (length bits)) | None => 0 end in
  let offset_bytes := 4 * Z.of_nat (length (ba_offsets a)) in
  (0 <=? ba_length a) &&
  (((ba_null_count a =? 0) && (validity_bytes =? 0)) || (bytes_for_bits (ba_length a) <=? validity_bytes)) &&
  ((if ba_length a =? 0 then 0 else 4 * (ba_length a + 1)) <=? offset_bytes) &&
  (match ba_offsets a with
   | [] => true
   | first :: _ =>
       (0 <=? first) &&
       match nth_error (ba_offsets a) (Z.to_nat (ba_length a)) with
       | Some last => (0 <=? last) && (last <=? Z.of_nat (length (ba_data a)))
       | None => false
       end
   end).

(** wkb_writer.c lines 217-238: GeoArrowWKBWriterFinish. The buffers move into the array, so the writer's are empty
    afterwards (ArrowBufferMove, nanoarrow.h lines 2521-2525); level, feat_is_null and the arrays keep their values.
    The result: new state, code, and the array (meaningful when the code is 0). *)
Definition wkb_finish (s : wst) : wst * Z * option binary_array :=
  if 2147483647 <? b_size (w_values s) then (s, EOVERFLOW, None)
  else
    let a := {| ba_length := w_length s; ba_null_count := w_nulls s; ba_validity := w_validity s;
                ba_offsets := w_offsets s ++ [to_int32 (b_size (w_values s))]; ba_data := b_data (w_values s) |} in
    let s' := set_book (set_values (set_offsets s []) buf_init) None 0 0 in
    (s', if validate_binary a then 0 else EINVAL, Some a).

(** ** Append *)

(** wkb_writer.c lines 249-269: GeoArrowWKBWriterAppendValidity *)
Definition append_validity (s : wst) (is_valid : bool) : wst :=
  let s := set_book s (w_validity s) (w_length s + 1) (w_nulls s) in
  if is_valid then push_valid s else push_null s.

(** wkb_writer.c lines 271-277: GeoArrowWKBWriterAppendNull *)
Definition wkb_append_null (s : wst) : vres wst :=
  VRet (append_validity (set_offsets s (w_offsets s ++ [to_int32 (b_size (w_values s))])) false) 0.

(** wkb_writer.c lines 279-293: GeoArrowWKBWriterAppendSequence; the recursive call after ArrowBufferReserve is the last
    one because then everything fits ([fuel] is 2). The words are stored in the host's (little-endian) byte order. *)
Fixpoint append_sequence (fuel : nat) (m : mem) (values : buf) (nd : node) : outcome buf :=
  match fuel with
  | O => NoFuel
  | S f =>
      let dst_size := b_cap values - b_size values in
      do (bytes_required, written) <- write_sequence m nd dst_size;
      if bytes_required <=? dst_size then
        do words <- or_ub written;
        Ok {| b_data := b_data values ++ firstn (Z.to_nat bytes_required) (flat_map (le_bytes 8) words);
              b_cap := b_cap values |}
      else append_sequence f m (buf_reserve values bytes_required) nd
  end.

(** wkb_writer.c lines 295-352: GeoArrowWKBWriterAppendBuffer. [rings] is remaining_rings. The result is the buffer, which
    is modified even when an error is returned, and the outcome. [_GeoArrowkEmptyPointCoords] has four entries. *)
Fixpoint append_buffer (m : mem) (nodes : list node) (rings : N) (values : buf) : buf * outcome unit :=
  match nodes with
  | [] => (values, Ok tt)
  | nd :: rest =>
      if (0 <? rings)%N then
        let values := buf_append values (le_bytes 4 (nd_size nd)) in
        match append_sequence 2 m values nd with
        | Ok values => append_buffer m rest (rings - 1) values
        | Err c => (values, Err c)
        | UB => (values, UB)
        | NoFuel => (values, NoFuel)
        end
      else
        let header := buf_append (buf_append values [1%N]) (le_bytes 4 (type_code (nd_type nd) (nd_dims nd))) in
        let counted := buf_append header (le_bytes 4 (nd_size nd)) in
        if N.eqb (nd_type nd) 1 then
          if N.eqb (nd_size nd) 0 then
            match num_dimensions (Z.of_N (nd_dims nd)) with
            | Some n =>
                if (0 <=? n) && (n <=? 4)
                then append_buffer m rest 0 (buf_append header (firstn (Z.to_nat (n * 8)) empty_point_coords))
                else (header, UB)
            | None => (header, UB)
            end
          else
            match append_sequence 2 m header nd with
            | Ok values => append_buffer m rest 0 values
            | Err c => (header, Err c)
            | UB => (header, UB)
            | NoFuel => (header, NoFuel)
            end
        else if N.eqb (nd_type nd) 2 then
          match append_sequence 2 m counted nd with
          | Ok values => append_buffer m rest 0 values
          | Err c => (counted, Err c)
          | UB => (counted, UB)
          | NoFuel => (counted, NoFuel)
          end
        else if N.eqb (nd_type nd) 3 then append_buffer m rest (nd_size nd) counted
        else if (N.eqb (nd_type nd) 4 || N.eqb (nd_type nd) 5 || N.eqb (nd_type nd) 6 || N.eqb (nd_type nd) 7)%bool then
          append_buffer m rest 0 counted
        else (values, Err EINVAL)
  end.

(** wkb_writer.c lines 354-362: GeoArrowWKBWriterAppend *)
Definition wkb_append (m : mem) (nodes : list node) (s : wst) : vres wst :=
  let s := set_offsets s (w_offsets s ++ [to_int32 (b_size (w_values s))]) in
  match append_buffer m nodes 0 (w_values s) with
  | (values, Ok _) => VRet (append_validity (set_values s values) true) 0
  | (values, Err c) => VRet (set_values s values) c
  | (_, UB) | (_, NoFuel) => VUB
  end.
