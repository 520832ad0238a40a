(** * Writing native arrays: src/geoarrow/native_writer.c *)
From Verif Require Import Base TypesModel GeomSpec VisitorModel CoordsModel BufferModel BitmapModel NodesModel CopyCoordsModel
  ArrowModel ArrayViewModel BuilderModel.
Local Open Scope Z_scope.

(** native_writer.c lines 13-31: struct GeoArrowNativeWriterPrivate. [output_initialized] is 1 between calls;
    [empty_coord] is constant; of the 32 entries of [size] the first three are used. *)
Record nwriter := NWriter {
  nw_builder : builder;
  nw_validity : bitmap;
  nw_null_count : Z;
  nw_length : Z;
  nw_last : quad Z;
  nw_is_null : bool;
  nw_nesting : Z;
  nw_dims : Z;
  nw_size : quad Z;
  nw_level : Z
}.

Definition with_builder (w : nwriter) (b : builder) : nwriter :=
  {| nw_builder := b; nw_validity := nw_validity w; nw_null_count := nw_null_count w; nw_length := nw_length w;
     nw_last := nw_last w; nw_is_null := nw_is_null w; nw_nesting := nw_nesting w; nw_dims := nw_dims w;
     nw_size := nw_size w; nw_level := nw_level w |}.
Definition with_nulls (w : nwriter) (v : bitmap) (null_count : Z) : nwriter :=
  {| nw_builder := nw_builder w; nw_validity := v; nw_null_count := null_count; nw_length := nw_length w;
     nw_last := nw_last w; nw_is_null := nw_is_null w; nw_nesting := nw_nesting w; nw_dims := nw_dims w;
     nw_size := nw_size w; nw_level := nw_level w |}.
Definition with_counts (w : nwriter) (length : Z) (last : quad Z) : nwriter :=
  {| nw_builder := nw_builder w; nw_validity := nw_validity w; nw_null_count := nw_null_count w; nw_length := length;
     nw_last := last; nw_is_null := nw_is_null w; nw_nesting := nw_nesting w; nw_dims := nw_dims w;
     nw_size := nw_size w; nw_level := nw_level w |}.
Definition with_state (w : nwriter) (is_null : bool) (nesting dims : Z) (size : quad Z) (level : Z) : nwriter :=
  {| nw_builder := nw_builder w; nw_validity := nw_validity w; nw_null_count := nw_null_count w; nw_length := nw_length w;
     nw_last := nw_last w; nw_is_null := is_null; nw_nesting := nesting; nw_dims := dims;
     nw_size := size; nw_level := level |}.
Definition with_size (w : nwriter) (size : quad Z) : nwriter :=
  with_state w (nw_is_null w) (nw_nesting w) (nw_dims w) size (nw_level w).
Definition with_nw_level (w : nwriter) (level : Z) : nwriter :=
  with_state w (nw_is_null w) (nw_nesting w) (nw_dims w) (nw_size w) level.

(** NANOARROW_RETURN_NOT_OK(m); k. The writer keeps what was done before an error. *)
Definition wthen (m : vres nwriter) (k : nwriter -> vres nwriter) : vres nwriter :=
  match m with
  | VRet w c => if c =? 0 then k w else VRet w c
  | VUB => VUB
  end.
Notation "'then!' w <- m ; k" := (wthen m (fun w => k)) (at level 60, w name, m at level 200, k at level 200, right associativity).

(** An operation on the builder or on the bitmap as one on the writer. *)
Definition on_builder (w : nwriter) (o : outcome builder) : vres nwriter :=
  match o with
  | Ok b => VRet (with_builder w b) 0
  | Err c => VRet w c
  | _ => VUB
  end.
Definition on_validity (w : nwriter) (o : outcome bitmap) : vres nwriter :=
  match o with
  | Ok v => VRet (with_nulls w v (nw_null_count w)) 0
  | Err c => VRet w c
  | _ => VUB
  end.

Definition int32_max : Z := 2147483647.

(** native_writer.c lines 7-11 and 54-61: empty_coord *)
Definition empty_coord_values : list N := [nan_word; nan_word; nan_word; nan_word].
Definition empty_coord (n_values : Z) : cview :=
  {| cv_values := Quad (source_block, 0) (source_block, 1) (source_block, 2) (source_block, 3);
     cv_n_values := n_values; cv_stride := 1 |}.

Section Junk.
  (** The contents of freshly allocated memory: of block [i] of the builder, and (block 0) of the bitmap. *)
  Variable junk : nat -> nat -> N.

  (** native_writer.c lines 93-96: the loop over the offset buffers *)
  Fixpoint append_zeros (k : nat) (b : builder) (i : Z) : outcome builder :=
    match k with
    | O => Ok b
    | S k' => do b <- offset_append junk b i 0; append_zeros k' b (i + 1)
    end.

  (** native_writer.c lines 84-110: GeoArrowNativeWriterEnsureOutputInitialized, when output_initialized is 0 *)
  Definition ensure_output (w : nwriter) : outcome nwriter :=
    do b <- append_zeros (Z.to_nat (bd_n_offsets (nw_builder w))) (nw_builder w) 0;
    let b := with_coord_view b (bd_values b) 0 0 in
    Ok {| nw_builder := b; nw_validity := bitmap_clear (nw_validity w); nw_null_count := 0; nw_length := 0;
          nw_last := qconst 0; nw_is_null := nw_is_null w; nw_nesting := nw_nesting w; nw_dims := nw_dims w;
          nw_size := nw_size w; nw_level := nw_level w |}.

  (** native_writer.c lines 36-74: GeoArrowNativeWriterInit *)
  Definition writer_init (t : Z) : outcome nwriter :=
    do b <- builder_init t;
    ensure_output
      {| nw_builder := b; nw_validity := bitmap_init; nw_null_count := 0; nw_length := 0; nw_last := qconst 0;
         nw_is_null := false; nw_nesting := 0; nw_dims := 0; nw_size := qconst 0; nw_level := 0 |}.

  (** native_writer.c lines 112-142: GeoArrowNativeWriterFinish *)
  Definition writer_finish (w : nwriter) : outcome (arrow_array * nwriter) :=
    let vb := bm_buffer (nw_validity w) in
    do b <- (if 0 <? w_size vb then
               do bs <- or_ub (slice (w_mem vb) 0 (Z.to_nat (w_size vb)));
               append_buffer junk (nw_builder w) 0 bs
             else Ok (nw_builder w));
    do (a, b) <- builder_finish b;
    do w' <- ensure_output (with_builder w b);
    Ok (with_null_count a (nw_null_count w), w').

  (** ** Appending geometries *)

  (** native_writer.c lines 144-165: GeoArrowNativeWriterAppendSize. The addition is done in uint32_t and converted back
      to int32_t. *)
  Definition append_size (w : nwriter) (offset : nat) (size : N) : vres nwriter :=
    if (Z.to_N int32_max <? size)%N then VRet w EOVERFLOW
    else
      match qget (nw_last w) offset with
      | None => VUB
      | Some last =>
          let last := to_int32 (last + Z.of_N size) in
          let w := with_counts w (nw_length w) (qset (nw_last w) offset last) in
          on_builder w (offset_append junk (nw_builder w) (Z.of_nat offset) last)
      end.

  (** native_writer.c lines 167-191: GeoArrowNativeWriterAppendEmpty *)
  Definition append_empty (w : nwriter) : vres nwriter :=
    let b := nw_builder w in
    let g := bd_geom b in
    if g =? GT_POINT then on_builder w (coords_append junk b empty_coord_values (empty_coord 4) (bd_dims b) 0 1)
    else if (2 <=? g) && (g <=? 7) then append_size w 0 0
    else VRet w EINVAL.

  (** [data != NULL] *)
  Definition has_validity (w : nwriter) : bool := negb (w_null (bm_buffer (nw_validity w))).

  (** native_writer.c lines 261-272, also 507-517, 666-677, 813-824 and 992-1003: the bit of the element that makes the
      array [current_length] long *)
  Definition append_bit (w : nwriter) (is_valid : bool) (current_length : Z) : vres nwriter :=
    if is_valid then
      if has_validity w then on_validity w (bitmap_append (junk 0) (nw_validity w) true 1) else VRet w 0
    else
      then! w <- (if has_validity w then VRet w 0
                  else on_validity w
                         (do bm <- bitmap_reserve (junk 0) (nw_validity w) current_length;
                          bitmap_append_unsafe bm true (current_length - 1)));
      on_validity (with_nulls w (nw_validity w) (nw_null_count w + 1)) (bitmap_append (junk 0) (nw_validity w) false 1).

  (** native_writer.c lines 254-276: GeoArrowNativeWriterAppendValidity *)
  Definition append_validity (w : nwriter) (is_valid : bool) : vres nwriter :=
    let w := with_counts w (nw_length w + 1) (nw_last w) in
    append_bit w is_valid (nw_length w).

  (** native_writer.c lines 278-282: GeoArrowNativeWriterAppendNull *)
  Definition append_null (w : nwriter) : vres nwriter :=
    then! w <- append_empty w; append_validity w false.

  (** native_writer.c lines 211-221: GeoArrowNativeWriterAppendLinestringOffsets; the nodes from [node] on *)
  Fixpoint append_linestring_offsets (n : nat) (w : nwriter) (nodes : list node) (offset : nat) : vres nwriter :=
    match n with
    | O => VRet w 0
    | S n' =>
        match nodes with
        | [] => VUB
        | nd :: r => then! w <- append_size w offset (nd_size nd); append_linestring_offsets n' w r offset
        end
    end.

  (** native_writer.c lines 223-236: GeoArrowNativeWriterAppendPolygonOffsets *)
  Fixpoint append_polygon_offsets (n : nat) (w : nwriter) (nodes : list node) (offset : nat) : vres nwriter :=
    match n with
    | O => VRet w 0
    | S n' =>
        match nodes with
        | [] => VUB
        | nd :: r =>
            then! w <- append_size w offset (nd_size nd);
            then! w <- append_linestring_offsets (N.to_nat (nd_size nd)) w r (S offset);
            append_polygon_offsets n' w (skipn (N.to_nat (nd_size nd)) r) offset
        end
    end.

  (** native_writer.c lines 238-252: GeoArrowNativeWriterAppendMultiPolygonOffsets; the loop is the one of
      GeoArrowNativeWriterAppendPolygonOffsets with offset 1 *)
  Definition append_multipolygon_offsets (w : nwriter) (nodes : list node) : vres nwriter :=
    match nodes with
    | [] => VUB
    | nd :: r => then! w <- append_size w 0 (nd_size nd); append_polygon_offsets (N.to_nat (nd_size nd)) w r 1
    end.

  (** native_writer.c lines 302-417: the offsets of a non-empty geometry of [count] coordinates *)
  Definition append_offsets (w : nwriter) (nodes : list node) (count : N) : vres nwriter :=
    match nodes with
    | [] => VUB
    | root :: parts =>
        let g := bd_geom (nw_builder w) in
        let ty := Z.of_N (nd_type root) in
        if g =? GT_POINT then if (1 <? count)%N then VRet w EINVAL else VRet w 0
        else if g =? GT_LINESTRING then
          if ty =? GT_LINESTRING then append_linestring_offsets 1 w nodes 0
          else if ty =? GT_MULTILINESTRING then
            if (1 <? nd_size root)%N then VRet w EINVAL else append_linestring_offsets 1 w parts 0
          else VRet w EINVAL
        else if g =? GT_POLYGON then
          if ty =? GT_POLYGON then append_polygon_offsets 1 w nodes 0
          else if ty =? GT_MULTIPOLYGON then
            if (1 <? nd_size root)%N then VRet w EINVAL else append_polygon_offsets 1 w parts 0
          else VRet w EINVAL
        else if g =? GT_MULTIPOINT then
          if (ty =? GT_POINT) || (ty =? GT_MULTIPOINT) then append_size w 0 count else VRet w EINVAL
        else if g =? GT_MULTILINESTRING then
          if ty =? GT_LINESTRING then then! w <- append_size w 0 1; append_linestring_offsets 1 w nodes 1
          else if ty =? GT_MULTILINESTRING then append_polygon_offsets 1 w nodes 0
          else VRet w EINVAL
        else if g =? GT_MULTIPOLYGON then
          if ty =? GT_POLYGON then then! w <- append_size w 0 1; append_polygon_offsets 1 w nodes 1
          else if ty =? GT_MULTIPOLYGON then append_multipolygon_offsets w nodes
          else VRet w EINVAL
        else VRet w EINVAL
    end.

  (** native_writer.c lines 193-209: GeoArrowNativeWriterAppendCoordsUnsafe; strides in units of sizeof(double) *)
  Definition append_coords_unsafe (b : builder) (m : mem) (nodes : list node) : outcome builder :=
    let at_end := fun p : daddr => (fst p, snd p + bd_stride b * bd_size b) in
    let q := quad_of (bd_values b) in
    do dm <- copy_coords_generic m nodes (Quad (at_end (q0 q)) (at_end (q1 q)) (at_end (q2 q)) (at_end (q3 q)))
               (qconst (bd_stride b)) (bd_dims b) (builder_dmem b []);
    Ok (write_back b dm).

  (** native_writer.c lines 284-434: GeoArrowNativeWriterAppend; the geometry view is its nodes and the memory they point
      into *)
  Definition append_geom (w : nwriter) (m : mem) (nodes : list node) : vres nwriter :=
    let count := num_coords nodes in
    if (count =? 0)%N then then! w <- append_empty w; append_validity w true
    else
      then! w <- append_offsets w nodes count;
      then! w <- on_builder w (coords_reserve junk (nw_builder w) (Z.of_N count));
      then! w <- on_builder w (append_coords_unsafe (nw_builder w) m nodes);
      let b := nw_builder w in
      let w := with_builder w (with_coord_view b (bd_values b) (bd_size b + Z.of_N count) (bd_cap b)) in
      append_validity w true.

  (** ** The visitors *)

  (** The view a visitor's coords method is given for [ECoords n cs]: interleaved values, NULL beyond the [n]-th. *)
  Definition source_view (n : N) : cview :=
    let col := fun j => if (N.of_nat j <? n)%N then (source_block, Z.of_nat j) else null_daddr in
    {| cv_values := Quad (col 0%nat) (col 1%nat) (col 2%nat) (col 3%nat); cv_n_values := Z.of_N n; cv_stride := Z.of_N n |}.

  (** GeoArrowBuilderCoordsAppend(&private_data->builder, coords, private_data->last_dimensions, 0, coords->n_coords) *)
  Definition visit_coords (w : nwriter) (n : N) (cs : list coord) : vres nwriter :=
    on_builder w (coords_append junk (nw_builder w) (concat cs) (source_view n) (nw_dims w) 0 (Z.of_nat (length cs))).

  (** Members [size[i]] *)
  Definition size_at (w : nwriter) (i : nat) : Z := match qget (nw_size w) i with Some s => s | None => 0 end.
  Definition add_size (w : nwriter) (i : nat) (n : Z) : nwriter := with_size w (qset (nw_size w) i (size_at w i + n)).
  Definition zero_size (w : nwriter) (i : nat) : nwriter := with_size w (qset (nw_size w) i 0).

  (** native_writer.c lines 601-606 and in many other places: EOVERFLOW, or the number of coordinates as an offset *)
  Definition append_coord_offset (w : nwriter) (i : Z) : vres nwriter :=
    let n := bd_size (nw_builder w) in
    if int32_max <? n then VRet w EOVERFLOW else on_builder w (offset_append junk (nw_builder w) i n).

  (** The number of offsets in buffer [i], minus one, as in line 798 *)
  Definition offset_count (w : nwriter) (i : Z) : outcome Z :=
    do c <- get_buf (nw_builder w) i; Ok (w_size (bf c) / 4 - 1).
  (** native_writer.c lines 795-799, 932-937, 970-973 and 978-981: the length of level [i + 1] as an offset of level [i].
      The subtraction of 1 is done after the conversion to int32_t. *)
  Definition append_count_offset (w : nwriter) (i : Z) : vres nwriter :=
    match get_buf (nw_builder w) (i + 2) with
    | Ok c =>
        let n := to_int32 (w_size (bf c) / 4) in
        if n =? - 2147483648 then VUB else on_builder w (offset_append junk (nw_builder w) i (n - 1))
    | _ => VUB
    end.
  (** The bit of a feature; the length of the array is the number of offsets in its first offset buffer minus one. *)
  Definition append_feature_bit (w : nwriter) : vres nwriter :=
    match offset_count w 1 with
    | Ok n => append_bit w (negb (nw_is_null w)) n
    | _ => VUB
    end.

  (** native_writer.c lines 436-541: the visitor for points *)
  Definition point_visitor (w : nwriter) (e : event) : vres nwriter :=
    match e with
    | EFeatStart => VRet (with_state w false (nw_nesting w) (nw_dims w) (qset (nw_size w) 0 0) 0) 0
    | ENullFeat => VRet (with_state w true (nw_nesting w) (nw_dims w) (nw_size w) (nw_level w)) 0
    | EGeomStart _ d => VRet (with_state w (nw_is_null w) (nw_nesting w) (Z.of_N d) (nw_size w) (nw_level w)) 0
    | ECoords n cs => visit_coords (add_size w 0 (Z.of_nat (length cs))) n cs
    | ERingStart | ERingEnd | EGeomEnd => VRet w 0
    | EFeatEnd =>
        then! w <- (if size_at w 0 =? 0 then
                      match num_dimensions (bd_dims (nw_builder w)) with
                      | None => VUB
                      | Some n_dim =>
                          let w := add_size w 0 1 in
                          on_builder w (coords_append junk (nw_builder w) empty_coord_values (empty_coord n_dim) (nw_dims w) 0 1)
                      end
                    else if size_at w 0 =? 1 then VRet w 0
                    else VRet w EINVAL);
        append_bit w (negb (nw_is_null w)) (bd_size (nw_builder w))
    end.

  (** native_writer.c lines 543-700: the visitor for linestrings and multipoints *)
  Definition linestring_visitor (w : nwriter) (e : event) : vres nwriter :=
    match e with
    | EFeatStart => VRet (with_state w false 0 (nw_dims w) (qset (qset (nw_size w) 0 0) 1 0) 0) 0
    | ENullFeat => VRet (with_state w true (nw_nesting w) (nw_dims w) (nw_size w) (nw_level w)) 0
    | EGeomStart t d =>
        let ty := Z.of_N t in
        let set := with_state w (nw_is_null w) in
        VRet (if ty =? GT_LINESTRING then set (nw_nesting w) (Z.of_N d) (nw_size w) (nw_level w + 1)
              else if ty =? GT_MULTIPOINT then set 1 (Z.of_N d) (nw_size w) (nw_level w + 1)
              else if (ty =? GT_POINT) && negb (nw_nesting w =? 0) then
                set (nw_nesting w + 1) (Z.of_N d) (nw_size w) (nw_level w)
              else set (nw_nesting w) (Z.of_N d) (nw_size w) (nw_level w)) 0
    | ERingStart => VRet (with_nw_level w (nw_level w + 1)) 0
    | ECoords n cs => visit_coords (add_size w 1 (Z.of_nat (length cs))) n cs
    | ERingEnd => append_coord_offset (add_size (with_nw_level w (nw_level w - 1)) 0 1) 0
    | EGeomEnd =>
        if nw_nesting w =? 2 then VRet (with_state w (nw_is_null w) 1 (nw_dims w) (nw_size w) (nw_level w)) 0
        else if nw_level w =? 1 then append_coord_offset (with_nw_level (add_size w 0 1) (nw_level w - 1)) 0
        else VRet w 0
    | EFeatEnd =>
        then! w <- (if size_at w 0 =? 0 then append_coord_offset w 0
                    else if size_at w 0 =? 1 then VRet w 0
                    else VRet w EINVAL);
        append_feature_bit w
    end.

  (** native_writer.c lines 755-766 and 779-788: the end of a sequence, unless it is empty *)
  Definition end_sequence (w : nwriter) (level : nat) : vres nwriter :=
    if 0 <? size_at w (S level) then
      then! w <- append_coord_offset w (Z.of_nat (S level));
      VRet (zero_size (add_size w level 1) (S level)) 0
    else VRet w 0.

  (** native_writer.c lines 702-855: the visitor for polygons and multilinestrings *)
  Definition polygon_visitor (w : nwriter) (e : event) : vres nwriter :=
    match e with
    | EFeatStart => VRet (with_state w false (nw_nesting w) (nw_dims w) (qset (qset (nw_size w) 0 0) 1 0) 0) 0
    | ENullFeat => VRet (with_state w true (nw_nesting w) (nw_dims w) (nw_size w) (nw_level w)) 0
    | EGeomStart t d =>
        let ty := Z.of_N t in
        let up := if (ty =? GT_LINESTRING) || (ty =? GT_MULTIPOINT) then 1 else 0 in
        VRet (with_state w (nw_is_null w) (nw_nesting w) (Z.of_N d) (nw_size w) (nw_level w + up)) 0
    | ERingStart => VRet (with_nw_level w (nw_level w + 1)) 0
    | ECoords n cs => visit_coords (add_size w 1 (Z.of_nat (length cs))) n cs
    | ERingEnd => end_sequence (with_nw_level w (nw_level w - 1)) 0
    | EGeomEnd => if nw_level w =? 1 then end_sequence (with_nw_level w (nw_level w - 1)) 0 else VRet w 0
    | EFeatEnd =>
        then! w <- (if 0 <? size_at w 1 then append_coord_offset w 1 else VRet w 0);
        then! w <- append_count_offset w 0;
        append_feature_bit w
    end.

  (** native_writer.c lines 857-1034: the visitor for multipolygons *)
  Definition multipolygon_visitor (w : nwriter) (e : event) : vres nwriter :=
    match e with
    | EFeatStart =>
        VRet (with_state w false (nw_nesting w) (nw_dims w) (qset (qset (qset (nw_size w) 0 0) 1 0) 2 0) 0) 0
    | ENullFeat => VRet (with_state w true (nw_nesting w) (nw_dims w) (nw_size w) (nw_level w)) 0
    | EGeomStart t d =>
        let ty := Z.of_N t in
        let up := if (ty =? GT_MULTILINESTRING) || (ty =? GT_POLYGON) || (ty =? GT_LINESTRING) || (ty =? GT_MULTIPOINT)
                  then 1 else 0 in
        VRet (with_state w (nw_is_null w) (nw_nesting w) (Z.of_N d) (nw_size w) (nw_level w + up)) 0
    | ERingStart => VRet (with_nw_level w (nw_level w + 1)) 0
    | ECoords n cs => visit_coords (add_size w 2 (Z.of_nat (length cs))) n cs
    | ERingEnd => end_sequence (with_nw_level w (nw_level w - 1)) 1
    | EGeomEnd =>
        if nw_level w =? 2 then end_sequence (with_nw_level w (nw_level w - 1)) 1
        else if nw_level w =? 1 then
          let w := with_nw_level w (nw_level w - 1) in
          if 0 <? size_at w 1 then
            then! w <- append_count_offset w 1;
            VRet (zero_size (add_size w 0 1) 1) 0
          else VRet w 0
        else VRet w 0
    | EFeatEnd =>
        then! w <- (if 0 <? size_at w 2 then
                      then! w <- append_coord_offset w 2; VRet (add_size w 1 1) 0
                    else VRet w 0);
        then! w <- (if 0 <? size_at w 1 then append_count_offset w 1 else VRet w 0);
        then! w <- append_count_offset w 0;
        append_feature_bit w
    end.

  (** native_writer.c lines 1036-1062: GeoArrowNativeWriterInitVisitor; [None] is EINVAL *)
  Definition native_visitor (g : Z) : option (visitor nwriter) :=
    if g =? GT_POINT then Some point_visitor
    else if (g =? GT_MULTIPOINT) || (g =? GT_LINESTRING) then Some linestring_visitor
    else if (g =? GT_MULTILINESTRING) || (g =? GT_POLYGON) then Some polygon_visitor
    else if g =? GT_MULTIPOLYGON then Some multipolygon_visitor
    else None.
End Junk.
