(** * Which memory the objects of the library hold: their init, reset and finish functions, and the buffers that grow in between

    Only memory is modelled: which blocks are allocated, and which are freed or used. What the other models compute with the contents is
    not repeated: a call that appends is the list of its appends to buffers, and says for each whether there is room ([false]) or the
    buffer must grow; a call that can be refused for another reason says whether it is. *)
From Verif Require Import Base TypesModel BufferModel BuilderModel OwnedModel.
Local Open Scope Z_scope.

(** Blocks have numbers; none is used twice. *)
Record heap := Heap { h_next : nat; h_live : list nat }.
Definition no_memory : heap := Heap 0 [].

(** What memory is allocated for: the private data of an object of the library (ArrowMalloc in this library's files), a buffer
    (ArrowRealloc, nanoarrow.c lines 219-228), a schema, an array. *)
Inductive purpose := ForObject | ForBuffer | ForSchema | ForArray.

Section Alloc.
  (** Which allocations fail: the purpose, and the number of the allocation *)
  Variable fails : purpose -> nat -> bool.

  (** nanoarrow.c lines 215-219: ArrowMalloc and ArrowFree *)
  Definition alloc (p : purpose) (h : heap) : option nat * heap :=
    if fails p (h_next h) then (None, Heap (S (h_next h)) (h_live h))
    else (Some (h_next h), Heap (S (h_next h)) (h_next h :: h_live h)).
  Definition is_live (b : nat) (h : heap) : bool := existsb (Nat.eqb b) (h_live h).
  Definition free (b : nat) (h : heap) : outcome heap :=
    if is_live b h then Ok (Heap (h_next h) (remove Nat.eq_dec b (h_live h))) else UB.
  Fixpoint free_all (bs : list nat) (h : heap) : outcome heap :=
    match bs with [] => Ok h | b :: bs => do h <- free b h; free_all bs h end.
  (** Using memory *)
  Definition use (p : option nat) (h : heap) : outcome heap :=
    match p with Some b => if is_live b h then Ok h else UB | None => UB end.

  (** ** Buffers of nanoarrow: the block at [data] *)
  Definition blocks (p : option nat) : list nat := match p with Some b => [b] | None => [] end.

  (** nanoarrow.h lines 2554-2575 (ArrowBufferReserve) and 2527-2552 (ArrowBufferResize): the old block stays when realloc fails, but
      [data] is NULL. *)
  Definition grow (p : option nat) (h : heap) : outcome (option nat * Z * heap) :=
    match alloc ForBuffer h with
    | (None, h) => Ok (None, ENOMEM, h)
    | (Some b, h) => do h <- free_all (blocks p) h; Ok (Some b, 0, h)
    end.
  (** nanoarrow.h lines 2586-2592: ArrowBufferAppend *)
  Definition append (p : option nat) (full : bool) (h : heap) : outcome (option nat * Z * heap) :=
    if full || (match p with None => true | _ => false end) then grow p h
    else do h <- use p h; Ok (p, 0, h).
  Definition append_at (ps : list (option nat)) (i : nat) (full : bool) (h : heap) : outcome (list (option nat) * Z * heap) :=
    do (p, code, h) <- append (nth i ps None) full h; Ok (set_nth i p ps, code, h).
  (** The appends of a call, until one fails *)
  Fixpoint appends (ps : list (option nat)) (ops : list (nat * bool)) (h : heap) : outcome (list (option nat) * Z * heap) :=
    match ops with
    | [] => Ok (ps, 0, h)
    | (i, full) :: ops =>
        if Nat.ltb i (length ps) then
          do (ps, code, h) <- append_at ps i full h;
          if code =? 0 then appends ps ops h else Ok (ps, code, h)
        else Ok (ps, EINVAL, h)
    end.

  (** ** Arrays and schemas *)

  (** An array: the memory of its structures (counted as one block; nanoarrow.c lines 2436-2547 free the rest when some part fails), and
      its buffers, the bitmap first *)
  Record array_mem := ArrayMem { am_block : nat; am_bufs : list (option nat) }.
  Definition array_blocks (a : array_mem) : list nat := am_block a :: flat_map blocks (am_bufs a).
  Definition new_array (n : nat) (h : heap) : option array_mem * heap :=
    match alloc ForArray h with (Some b, h) => (Some (ArrayMem b (repeat None n)), h) | (None, h) => (None, h) end.

  (** nanoarrow.c lines 2753-2780: ArrowArrayFinalizeBuffers, for the buffers after the bitmap *)
  Fixpoint finalize (ps : list (option nat)) (h : heap) : outcome (list (option nat) * Z * heap) :=
    match ps with
    | [] => Ok ([], 0, h)
    | Some b :: ps => do (ps, code, h) <- finalize ps h; Ok (Some b :: ps, code, h)
    | None :: ps =>
        do (p, code, h) <- grow None h;
        if code =? 0 then do (ps, code, h) <- finalize ps h; Ok (p :: ps, code, h)
        else Ok (p :: ps, code, h)
    end.
  Definition finalize_array (a : array_mem) (h : heap) : outcome (array_mem * Z * heap) :=
    match am_bufs a with
    | [] => Ok (a, 0, h)
    | bitmap :: ps => do (ps, code, h) <- finalize ps h; Ok (ArrayMem (am_block a) (bitmap :: ps), code, h)
    end.

  (** A schema is made with [n] allocations. If one fails, the functions of nanoarrow release the schema; those of this library do not:
      schema.c lines 8-95 (the parts that are there stay in it), 238-240 (ArrowSchemaSetMetadata); kernel.c lines 484-486. The caller of
      a function that failed does not look at the schema, so that its memory is lost. *)
  Fixpoint make_schema (clean : bool) (n : nat) (made : list nat) (h : heap) : outcome (option (list nat) * heap) :=
    match n with
    | O => Ok (Some made, h)
    | S n =>
        match alloc ForSchema h with
        | (Some b, h) => make_schema clean n (b :: made) h
        | (None, h) => if clean then do h <- free_all made h; Ok (None, h) else Ok (None, h)
        end
    end.

  (** ** Readers *)

  (** geometry.c lines 6-13, and geom->root: the private data, the buffers, where [root] points *)
  Record geom_mem := GeomMem { gm_private : nat; gm_nodes : option nat; gm_coords : option nat; gm_root : option nat;
                               gm_points : option nat }.
  Definition geom_blocks (g : geom_mem) : list nat := gm_private g :: blocks (gm_nodes g) ++ blocks (gm_coords g).

  (** geometry.c lines 15-33: GeoArrowGeometryInit *)
  Definition geometry_init (h : heap) : option geom_mem * heap :=
    match alloc ForObject h with (Some b, h) => (Some (GeomMem b None None None None), h) | (None, h) => (None, h) end.
  (** geometry.c lines 45-52: GeoArrowGeometryReset *)
  Definition geometry_reset (g : geom_mem) (h : heap) : outcome heap :=
    do h <- free_all (blocks (gm_coords g)) h;
    do h <- free_all (blocks (gm_nodes g)) h;
    free (gm_private g) h.
  (** geoarrow_type_inline.h lines 428-442 and geometry.c lines 85-94: GeoArrowGeometryAppendNode. [root] is set again if the buffer could
      grow. *)
  Definition geometry_append_node (g : geom_mem) (full : bool) (h : heap) : outcome (geom_mem * Z * heap) :=
    if full || (match gm_root g with None => true | _ => false end) then
      do (p, code, h) <- grow (gm_nodes g) h;
      Ok (GeomMem (gm_private g) p (gm_coords g) (if code =? 0 then p else gm_root g) (gm_points g), code, h)
    else do h <- use (gm_root g) h; Ok (g, 0, h).
  Fixpoint geometry_append_nodes (g : geom_mem) (fulls : list bool) (h : heap) : outcome (geom_mem * Z * heap) :=
    match fulls with
    | [] => Ok (g, 0, h)
    | full :: fulls =>
        do (g, code, h) <- geometry_append_node g full h;
        if code =? 0 then geometry_append_nodes g fulls h else Ok (g, code, h)
    end.
  (** geometry.c lines 189-213: GeoArrowGeometryReserveCoords, for a sequence or a part of one; the coordinates of the geometry are in
      the buffer afterwards *)
  Definition geometry_reserve_coords (g : geom_mem) (full : bool) (h : heap) : outcome (geom_mem * Z * heap) :=
    if full || (match gm_coords g with None => true | _ => false end) then
      do (p, code, h) <- grow None h;
      if code =? 0 then
        do h <- (match gm_coords g with Some _ => use (gm_coords g) h | None => Ok h end);
        do h <- free_all (blocks (gm_coords g)) h;
        Ok (GeomMem (gm_private g) (gm_nodes g) p (gm_root g) p, 0, h)
      else do h <- free_all (blocks p) h; Ok (g, code, h)
    else do h <- use (gm_coords g) h; Ok (GeomMem (gm_private g) (gm_nodes g) (gm_coords g) (gm_root g) (gm_coords g), 0, h).
  (** geometry.c lines 75-83 (ResizeNodes) and 96-151 (GeoArrowGeometryDeepCopy) of a geometry with nodes and coordinates:
      [full_coords] and [full_nodes] say whether the buffers must grow *)
  Definition geometry_deep_copy (g : geom_mem) (full_coords full_nodes : bool) (h : heap) : outcome (geom_mem * Z * heap) :=
    do (coords, code, h) <- append (gm_coords g) full_coords h;
    let g := GeomMem (gm_private g) (gm_nodes g) coords (gm_root g) (gm_points g) in
    if code =? 0 then
      do (nodes, code, h) <- append (gm_nodes g) full_nodes h;
      if code =? 0 then Ok (GeomMem (gm_private g) nodes coords nodes coords, 0, h)
      else Ok (GeomMem (gm_private g) nodes coords (gm_root g) (gm_points g), code, h)
    else Ok (g, code, h).
  (** Visiting the geometry: its nodes, and the coordinates they point to *)
  Definition geometry_visit (g : geom_mem) (h : heap) : outcome heap :=
    match gm_root g with
    | None => Ok h
    | Some _ => do h <- use (gm_root g) h; match gm_points g with Some _ => use (gm_points g) h | None => Ok h end
    end.

  (** wkt_reader.c lines 490-513, wkb_reader.c lines 206-233; array_reader.c lines 11-16 *)
  Inductive parser := WktParser (private : nat) | WkbParser (private : nat) (geom : geom_mem).
  Record reader_mem := ReaderMem { rm_private : nat; rm_parser : option parser }.
  Definition parser_blocks (p : parser) : list nat :=
    match p with WktParser b => [b] | WkbParser b g => b :: geom_blocks g end.
  Definition reader_blocks (r : reader_mem) : list nat :=
    rm_private r :: match rm_parser r with Some p => parser_blocks p | None => [] end.

  Definition wkt_reader_init (h : heap) : outcome (option parser * heap) :=
    match alloc ForObject h with (Some b, h) => Ok (Some (WktParser b), h) | (None, h) => Ok (None, h) end.
  Definition wkb_reader_init (h : heap) : outcome (option parser * heap) :=
    match alloc ForObject h with
    | (None, h) => Ok (None, h)
    | (Some b, h) =>
        match geometry_init h with
        | (Some g, h) => Ok (Some (WkbParser b g), h)
        | (None, h) => do h <- free b h; Ok (None, h)
        end
    end.
  Definition parser_reset (p : parser) (h : heap) : outcome heap :=
    match p with
    | WktParser b => free b h
    | WkbParser b g => do h <- geometry_reset g h; free b h
    end.

  (** What a type needs: a parser of WKT, of WKB, or none; or it is not one that can be read *)
  Inductive parser_kind := NeedsWkt | NeedsWkb | NeedsNone | NotReadable.

  (** array_reader.c lines 106-164 (InitFromType) and 166-196 (InitFromSchema) *)
  Definition array_reader_init (kind : parser_kind) (h : heap) : outcome (option reader_mem * Z * heap) :=
    match alloc ForObject h with
    | (None, h) => Ok (None, ENOMEM, h)
    | (Some b, h) =>
        match kind with
        | NeedsNone => Ok (Some (ReaderMem b None), 0, h)
        | NotReadable => do h <- free b h; Ok (None, EINVAL, h)
        | _ =>
            do (p, h) <- (match kind with NeedsWkt => wkt_reader_init h | _ => wkb_reader_init h end);
            match p with
            | Some p => Ok (Some (ReaderMem b (Some p)), 0, h)
            | None => do h <- free b h; Ok (None, ENOMEM, h)
            end
        end
    end.
  (** array_reader.c lines 198-212: GeoArrowArrayReaderReset *)
  Definition array_reader_reset (r : reader_mem) (h : heap) : outcome heap :=
    do h <- (match rm_parser r with Some p => parser_reset p h | None => Ok h end);
    free (rm_private r) h.
  (** wkb_reader.c lines 244-270: reading WKB appends nodes; reading WKT and native arrays needs no memory *)
  Definition array_reader_visit (r : reader_mem) (fulls : list bool) (h : heap) : outcome (reader_mem * Z * heap) :=
    match rm_parser r with
    | Some (WkbParser b g) =>
        do (g, code, h) <- geometry_append_nodes g fulls h;
        Ok (ReaderMem (rm_private r) (Some (WkbParser b g)), code, h)
    | _ => Ok (r, 0, h)
    end.

  (** ** Writers *)

  (** wkb_writer.c, wkt_writer.c: the private data and the buffers for validity, offsets and values *)
  Record plain_mem := PlainMem { pm_private : nat; pm_bufs : list (option nat) }.
  Definition plain_blocks (w : plain_mem) : list nat := pm_private w :: flat_map blocks (pm_bufs w).

  (** wkb_writer.c lines 183-200 and wkt_writer.c lines 273-296: Init *)
  Definition plain_init (h : heap) : option plain_mem * heap :=
    match alloc ForObject h with (Some b, h) => (Some (PlainMem b (repeat None 3)), h) | (None, h) => (None, h) end.
  Definition plain_append (w : plain_mem) (ops : list (nat * bool)) (h : heap) : outcome (plain_mem * Z * heap) :=
    do (ps, code, h) <- appends (pm_bufs w) ops h; Ok (PlainMem (pm_private w) ps, code, h).
  (** wkb_writer.c lines 217-238 and wkt_writer.c lines 324-345: Finish. [refused]: there are more bytes than an array can have. When the
      array cannot be finished, the caller does not look at it. *)
  Definition plain_finish (w : plain_mem) (refused : bool) (full : bool) (h : heap) : outcome (option array_mem * plain_mem * Z * heap) :=
    if refused then Ok (None, w, EOVERFLOW, h)
    else
      do (ps, code, h) <- append_at (pm_bufs w) 1 full h;
      if code =? 0 then
        match new_array 3 h with
        | (None, h) => Ok (None, PlainMem (pm_private w) ps, ENOMEM, h)
        | (Some a, h) =>
            do (a, code, h) <- finalize_array (ArrayMem (am_block a) ps) h;
            Ok (if code =? 0 then Some a else None, PlainMem (pm_private w) (repeat None 3), code, h)
        end
      else Ok (None, PlainMem (pm_private w) ps, code, h).
  (** wkb_writer.c lines 240-247 and wkt_writer.c lines 347-354: Reset *)
  Definition plain_reset (w : plain_mem) (h : heap) : outcome heap :=
    do h <- free_all (flat_map blocks (pm_bufs w)) h; free (pm_private w) h.

  (** builder.c lines 7-19: the private data, the schema, the array; and where the buffers of builder->view point *)
  Record builder_mem := BuilderMem { bm_private : nat; bm_schema : list nat; bm_array : option array_mem; bm_view : list (option nat) }.
  Definition builder_blocks (b : builder_mem) : list nat :=
    bm_private b :: bm_schema b ++ match bm_array b with Some a => array_blocks a | None => [] end.

  (** builder.c lines 55-114: GeoArrowBuilderInitInternal, for a type that has [n] buffers and whose schema takes [s] allocations *)
  Definition builder_init_mem (n s : nat) (h : heap) : outcome (option builder_mem * heap) :=
    match alloc ForObject h with
    | (None, h) => Ok (None, h)
    | (Some b, h) =>
        do (sc, h) <- make_schema false s [] h;
        match sc with
        | None => do h <- free b h; Ok (None, h)
        | Some sc =>
            match new_array n h with
            | (Some a, h) => Ok (Some (BuilderMem b sc (Some a) (repeat None n)), h)
            | (None, h) => do h <- free_all sc h; do h <- free b h; Ok (None, h)
            end
        end
    end.
  (** builder.c lines 133-149 and geoarrow_type_inline.h lines 691-702: GeoArrowBuilderAppendBuffer (and the appends of offsets and
      coordinates). Growing uses the ArrowBuffer inside the array. *)
  Definition builder_append_mem (b : builder_mem) (i : nat) (full : bool) (h : heap) : outcome (builder_mem * Z * heap) :=
    match nth_error (bm_view b) i with
    | None => Ok (b, EINVAL, h)
    | Some v =>
        if full || (match v with None => true | _ => false end) then
          match bm_array b with
          | None => UB
          | Some a =>
              do (p, code, h) <- grow (nth i (am_bufs a) None) h;
              Ok (BuilderMem (bm_private b) (bm_schema b) (Some (ArrayMem (am_block a) (set_nth i p (am_bufs a))))
                    (if code =? 0 then set_nth i p (bm_view b) else bm_view b), code, h)
          end
        else do h <- use v h; Ok (b, 0, h)
    end.
  (** builder.c lines 206-288: GeoArrowBuilderFinish. [refused]: the array is not valid. *)
  Definition builder_finish_mem (b : builder_mem) (refused : bool) (h : heap) : outcome (option array_mem * builder_mem * Z * heap) :=
    match bm_array b with
    | None => UB
    | Some a =>
        do (a, code, h) <- finalize_array a h;
        let b := BuilderMem (bm_private b) (bm_schema b) (Some a) (bm_view b) in
        if negb (code =? 0) then Ok (None, b, code, h)
        else if refused then Ok (None, b, EINVAL, h)
        else
          match new_array (length (bm_view b)) h with
          | (None, h) =>
              do h <- free_all (array_blocks a) h;
              Ok (None, BuilderMem (bm_private b) (bm_schema b) None (bm_view b), ENOMEM, h)
          | (Some a', h) => Ok (Some a, BuilderMem (bm_private b) (bm_schema b) (Some a') (repeat None (length (bm_view b))), 0, h)
          end
    end.
  (** builder.c lines 290-305: GeoArrowBuilderReset *)
  Definition builder_reset_mem (b : builder_mem) (h : heap) : outcome heap :=
    do h <- free_all (bm_schema b) h;
    do h <- (match bm_array b with Some a => free_all (array_blocks a) h | None => Ok h end);
    free (bm_private b) h.

  (** native_writer.c lines 14-31: the private data, the builder, the bitmap; the number of offset buffers *)
  Record native_mem := NativeMem { nm_private : nat; nm_builder : builder_mem; nm_validity : option nat; nm_offsets : nat }.
  Definition native_blocks (w : native_mem) : list nat := nm_private w :: builder_blocks (nm_builder w) ++ blocks (nm_validity w).

  (** native_writer.c lines 84-110: GeoArrowNativeWriterEnsureOutputInitialized, when there is no output: a 0 for every offset buffer *)
  Fixpoint first_offsets (b : builder_mem) (i n : nat) (h : heap) : outcome (builder_mem * Z * heap) :=
    match n with
    | O => Ok (b, 0, h)
    | S n =>
        do (b, code, h) <- builder_append_mem b i true h;
        if code =? 0 then first_offsets b (S i) n h else Ok (b, code, h)
    end.
  (** native_writer.c lines 75-82: GeoArrowNativeWriterReset *)
  Definition native_reset (w : native_mem) (h : heap) : outcome heap :=
    do h <- builder_reset_mem (nm_builder w) h;
    do h <- free_all (blocks (nm_validity w)) h;
    free (nm_private w) h.
  (** native_writer.c lines 36-73: GeoArrowNativeWriterInit *)
  Definition native_init (n offsets s : nat) (h : heap) : outcome (option native_mem * Z * heap) :=
    match alloc ForObject h with
    | (None, h) => Ok (None, ENOMEM, h)
    | (Some private, h) =>
        do (b, h) <- builder_init_mem n s h;
        match b with
        | None => do h <- free private h; Ok (None, ENOMEM, h)
        | Some b =>
            do (b, code, h) <- first_offsets b 1 offsets h;
            let w := NativeMem private b None offsets in
            if code =? 0 then Ok (Some w, 0, h) else do h <- native_reset w h; Ok (None, code, h)
        end
    end.
  (** Appends: [0] is the bitmap of the writer, [S i] is buffer [S i] of the builder *)
  Definition native_append1 (w : native_mem) (i : nat) (full : bool) (h : heap) : outcome (native_mem * Z * heap) :=
    match i with
    | O => do (p, code, h) <- append (nm_validity w) full h; Ok (NativeMem (nm_private w) (nm_builder w) p (nm_offsets w), code, h)
    | S _ =>
        do (b, code, h) <- builder_append_mem (nm_builder w) i full h;
        Ok (NativeMem (nm_private w) b (nm_validity w) (nm_offsets w), code, h)
    end.
  Fixpoint native_append (w : native_mem) (ops : list (nat * bool)) (h : heap) : outcome (native_mem * Z * heap) :=
    match ops with
    | [] => Ok (w, 0, h)
    | (i, full) :: ops =>
        do (w, code, h) <- native_append1 w i full h;
        if code =? 0 then native_append w ops h else Ok (w, code, h)
    end.
  (** native_writer.c lines 112-142: GeoArrowNativeWriterFinish. The bitmap is copied if there is one. *)
  Definition native_finish (w : native_mem) (refused : bool) (full : bool) (h : heap) : outcome (option array_mem * native_mem * Z * heap) :=
    do (b, code, h) <- (match nm_validity w with
                        | Some _ => do h <- use (nm_validity w) h; builder_append_mem (nm_builder w) 0 full h
                        | None => Ok (nm_builder w, 0, h)
                        end);
    if negb (code =? 0) then Ok (None, NativeMem (nm_private w) b (nm_validity w) (nm_offsets w), code, h)
    else
      do (a, b, code, h) <- builder_finish_mem b refused h;
      match a with
      | None => Ok (None, NativeMem (nm_private w) b (nm_validity w) (nm_offsets w), code, h)
      | Some a =>
          do (b, code, h) <- first_offsets b 1 (nm_offsets w) h;
          let w := NativeMem (nm_private w) b (nm_validity w) (nm_offsets w) in
          if code =? 0 then Ok (Some a, w, 0, h) else do h <- free_all (array_blocks a) h; Ok (None, w, code, h)
      end.

  (** array_writer.c lines 8-13 *)
  Inductive inner := PlainWriter (w : plain_mem) | NativeWriter (w : native_mem).
  Record writer_mem := WriterMem { wm_private : nat; wm_inner : inner }.
  Definition inner_blocks (w : inner) : list nat := match w with PlainWriter w => plain_blocks w | NativeWriter w => native_blocks w end.
  Definition writer_blocks (w : writer_mem) : list nat := wm_private w :: inner_blocks (wm_inner w).

  (** How an array of a type is written *)
  Inductive target := AsWkx | AsUnsupported | AsNative (n offsets s : nat) | NotWritable.

  (** array_writer.c lines 15-54: GeoArrowArrayWriterInitFromType *)
  Definition array_writer_init (t : target) (h : heap) : outcome (option writer_mem * Z * heap) :=
    match alloc ForObject h with
    | (None, h) => Ok (None, ENOMEM, h)
    | (Some b, h) =>
        match t with
        | AsUnsupported => Ok (None, ENOTSUP, h)
        | AsWkx =>
            match plain_init h with
            | (Some w, h) => Ok (Some (WriterMem b (PlainWriter w)), 0, h)
            | (None, h) => do h <- free b h; Ok (None, ENOMEM, h)
            end
        | AsNative n offsets s =>
            do (w, code, h) <- native_init n offsets s h;
            match w with
            | Some w => Ok (Some (WriterMem b (NativeWriter w)), 0, h)
            | None => do h <- free b h; Ok (None, code, h)
            end
        | NotWritable => do h <- free b h; Ok (None, EINVAL, h)
        end
    end.
  Definition array_writer_append (w : writer_mem) (ops : list (nat * bool)) (h : heap) : outcome (writer_mem * Z * heap) :=
    match wm_inner w with
    | PlainWriter p => do (p, code, h) <- plain_append p ops h; Ok (WriterMem (wm_private w) (PlainWriter p), code, h)
    | NativeWriter p => do (p, code, h) <- native_append p ops h; Ok (WriterMem (wm_private w) (NativeWriter p), code, h)
    end.
  (** array_writer.c lines 105-120: GeoArrowArrayWriterFinish *)
  Definition array_writer_finish (w : writer_mem) (refused : bool) (full : bool) (h : heap) : outcome (option array_mem * writer_mem * Z * heap) :=
    match wm_inner w with
    | PlainWriter p => do (a, p, code, h) <- plain_finish p refused full h; Ok (a, WriterMem (wm_private w) (PlainWriter p), code, h)
    | NativeWriter p => do (a, p, code, h) <- native_finish p refused full h; Ok (a, WriterMem (wm_private w) (NativeWriter p), code, h)
    end.
  (** array_writer.c lines 122-141: GeoArrowArrayWriterReset *)
  Definition array_writer_reset (w : writer_mem) (h : heap) : outcome heap :=
    do h <- (match wm_inner w with PlainWriter p => plain_reset p h | NativeWriter p => native_reset p h end);
    free (wm_private w) h.

  (** ** Kernels *)

  (** kernel.c lines 662-752: the kernels *)
  Inductive kernel_name := Void | VoidAgg | VisitVoidAgg | FormatWkt | AsGeoarrow | UniqueGeometryTypesAgg | Box | BoxAgg.

  (** kernel.c lines 117-129: the private data (NULL for the first two), the reader, the writers, and the buffers of the box kernels: the
      bitmap and four buffers of values. [km_started]: a call of start returned GEOARROW_OK. *)
  Record kernel_mem := KernelMem { km_name : kernel_name; km_private : option nat; km_reader : option reader_mem; km_writer : option writer_mem;
                                   km_wkt : option plain_mem; km_box : list (option nat); km_started : bool }.
  Definition option_blocks {A} (f : A -> list nat) (o : option A) : list nat := match o with Some x => f x | None => [] end.
  Definition kernel_blocks (k : kernel_mem) : list nat :=
    blocks (km_private k) ++ option_blocks reader_blocks (km_reader k) ++ option_blocks writer_blocks (km_writer k) ++
    option_blocks plain_blocks (km_wkt k) ++ flat_map blocks (km_box k).

  (** kernel.c lines 669-727: GeoArrowInitVisitorKernelInternal; 729-754: GeoArrowKernelInit *)
  Definition kernel_init (name : kernel_name) (h : heap) : outcome (option kernel_mem * Z * heap) :=
    match name with
    | Void | VoidAgg => Ok (Some (KernelMem name None None None None (repeat None 5) false), 0, h)
    | _ =>
        match alloc ForObject h with
        | (None, h) => Ok (None, ENOMEM, h)
        | (Some b, h) =>
            match name with
            | FormatWkt =>
                match plain_init h with
                | (Some w, h) => Ok (Some (KernelMem name (Some b) None None (Some w) (repeat None 5) false), 0, h)
                | (None, h) => do h <- free b h; Ok (None, ENOMEM, h)
                end
            | _ => Ok (Some (KernelMem name (Some b) None None None (repeat None 5) false), 0, h)
            end
        end
    end.
  (** kernel.c lines 166-188: kernel_release_visitor; line 48 *)
  Definition kernel_release (k : kernel_mem) (h : heap) : outcome heap :=
    do h <- (match km_reader k with Some r => array_reader_reset r h | None => Ok h end);
    do h <- (match km_writer k with Some w => array_writer_reset w h | None => Ok h end);
    do h <- (match km_wkt k with Some w => plain_reset w h | None => Ok h end);
    do h <- free_all (flat_map blocks (km_box k)) h;
    free_all (blocks (km_private k)) h.

  (** kernel.c lines 11-20, 232-256 and the finish_start functions (lines 263-272, 279-300, 312-342, 414-426, 578-598, 613-630): start.
      [kind]: what the input type needs, also when GeoArrowSchemaViewInit fails; [refused]: the options or the metadata are not valid; [t]:
      the type to write; [s]: the number of allocations for the schema. *)
  Definition kernel_start (k : kernel_mem) (kind : parser_kind) (refused : bool) (t : target) (s : nat) (h : heap)
    : outcome (option (list nat) * kernel_mem * Z * heap) :=
    let out clean k h :=
      do (sc, h) <- make_schema clean s [] h;
      match sc with
      | Some sc => Ok (Some sc, KernelMem (km_name k) (km_private k) (km_reader k) (km_writer k) (km_wkt k) (km_box k) true, 0, h)
      | None => Ok (None, k, ENOMEM, h)
      end in
    match km_name k with
    | Void | VoidAgg => out true k h
    | _ =>
        do (r, code, h) <- array_reader_init kind h;
        if negb (code =? 0) then Ok (None, k, code, h)
        else
          let k := KernelMem (km_name k) (km_private k) r (km_writer k) (km_wkt k) (km_box k) (km_started k) in
          if refused then Ok (None, k, EINVAL, h)
          else
            match km_name k with
            | AsGeoarrow =>
                match km_writer k with
                | Some _ => Ok (None, k, EINVAL, h)
                | None =>
                    do (w, code, h) <- array_writer_init t h;
                    if negb (code =? 0) then Ok (None, k, code, h)
                    else out false (KernelMem (km_name k) (km_private k) (km_reader k) w (km_wkt k) (km_box k) (km_started k)) h
                end
            | Box | BoxAgg => out false k h
            | _ => out true k h
            end
    end.

  (** kernel.c lines 500-536: box_finish. When the array cannot be made, it is released and used all the same. [with_nulls]: the bitmap
      goes into the array. *)
  Definition box_finish_mem (k : kernel_mem) (with_nulls : bool) (h : heap) : outcome (option array_mem * kernel_mem * Z * heap) :=
    match new_array 5 h with
    | (None, h) => UB
    | (Some a, h) =>
        let bitmap := nth 0 (km_box k) None in
        do h <- (if with_nulls then Ok h else free_all (blocks bitmap) h);
        do (a, code, h) <- finalize_array (ArrayMem (am_block a) ((if with_nulls then bitmap else None) :: tl (km_box k))) h;
        let k := KernelMem (km_name k) (km_private k) (km_reader k) (km_writer k) (km_wkt k) (repeat None 5) (km_started k) in
        if code =? 0 then Ok (Some a, k, 0, h) else do h <- free_all (array_blocks a) h; Ok (None, k, code, h)
    end.
  Definition with_box (k : kernel_mem) (ps : list (option nat)) : kernel_mem :=
    KernelMem (km_name k) (km_private k) (km_reader k) (km_writer k) (km_wkt k) ps (km_started k).
  (** kernel.c lines 190-230: kernel_push_batch_visitor, after start. [reads]: the nodes that are appended while WKB is read; [ops]: the appends
      to the buffers of the writer, or of the box kernels; [failed]: the array is not one of the schema, or the visit ends with an error;
      then finish_push_batch. *)
  Definition visitor_push_batch (k : kernel_mem) (reads : list bool) (ops : list (nat * bool)) (failed refused : bool) (full with_nulls : bool) (h : heap)
    : outcome (option array_mem * kernel_mem * Z * heap) :=
    match km_reader k with
    | None => UB
    | Some r =>
        do (r, code, h) <- array_reader_visit r reads h;
        let k := KernelMem (km_name k) (km_private k) (Some r) (km_writer k) (km_wkt k) (km_box k) (km_started k) in
        if negb (code =? 0) then Ok (None, k, code, h)
        else
          match km_name k with
          | FormatWkt =>
              match km_wkt k with
              | None => UB
              | Some w =>
                  do (w, code, h) <- plain_append w ops h;
                  let with_wkt w := KernelMem (km_name k) (km_private k) (km_reader k) (km_writer k) (Some w) (km_box k) (km_started k) in
                  if negb (code =? 0) then Ok (None, with_wkt w, code, h)
                  else if failed then Ok (None, with_wkt w, EINVAL, h)
                  else do (a, w, code, h) <- plain_finish w refused full h; Ok (a, with_wkt w, code, h)
              end
          | AsGeoarrow =>
              match km_writer k with
              | None => UB
              | Some w =>
                  do (w, code, h) <- array_writer_append w ops h;
                  let with_writer w := KernelMem (km_name k) (km_private k) (km_reader k) (Some w) (km_wkt k) (km_box k) (km_started k) in
                  if negb (code =? 0) then Ok (None, with_writer w, code, h)
                  else if failed then Ok (None, with_writer w, EINVAL, h)
                  else do (a, w, code, h) <- array_writer_finish w refused full h; Ok (a, with_writer w, code, h)
              end
          | Box =>
              do (ps, code, h) <- appends (km_box k) ops h;
              if negb (code =? 0) then Ok (None, with_box k ps, code, h)
              else if failed then Ok (None, with_box k ps, EINVAL, h)
              else box_finish_mem (with_box k ps) with_nulls h
          | _ => Ok (None, k, if failed then EINVAL else 0, h)
          end
    end.
  (** kernel.c lines 22-34, 59-71: push_batch *)
  Definition kernel_push_batch (k : kernel_mem) (reads : list bool) (ops : list (nat * bool)) (failed refused : bool) (full with_nulls : bool) (h : heap)
    : outcome (option array_mem * kernel_mem * Z * heap) :=
    match km_name k with
    | Void => match new_array 0 h with (Some a, h) => Ok (Some a, k, 0, h) | (None, h) => Ok (None, k, ENOMEM, h) end
    | VoidAgg => Ok (None, k, 0, h)
    | _ => visitor_push_batch k reads ops failed refused full with_nulls h
    end.
  (** kernel.c lines 36-46, 71-84, 428-465, 600-611: finish *)
  Definition kernel_finish (k : kernel_mem) (ops : list (nat * bool)) (h : heap) : outcome (option array_mem * kernel_mem * Z * heap) :=
    match km_name k with
    | Void | FormatWkt | AsGeoarrow | Box => Ok (None, k, 0, h)
    | VoidAgg | VisitVoidAgg => match new_array 0 h with (Some a, h) => Ok (Some a, k, 0, h) | (None, h) => Ok (None, k, ENOMEM, h) end
    | UniqueGeometryTypesAgg =>
        match new_array 2 h with
        | (None, h) => Ok (None, k, ENOMEM, h)
        | (Some a, h) =>
            do (a, code, h) <- finalize_array a h;
            if code =? 0 then Ok (Some a, k, 0, h) else do h <- free_all (array_blocks a) h; Ok (None, k, code, h)
        end
    | BoxAgg =>
        do (ps, code, h) <- appends (km_box k) ops h;
        if negb (code =? 0) then Ok (None, with_box k ps, code, h) else box_finish_mem (with_box k ps) false h
    end.

  (** ** Programs with one object of every sort, and what they were given *)

  (** [gs_outs]: the schemas and arrays that the program has, and has not released. *)
  Record state := State { gs_geometry : option geom_mem; gs_reader : option reader_mem; gs_writer : option writer_mem; gs_kernel : option kernel_mem;
                          gs_outs : list (list nat) }.
  Definition start_state : state := State None None None None [].
  Definition state_blocks (s : state) : list nat :=
    option_blocks geom_blocks (gs_geometry s) ++ option_blocks reader_blocks (gs_reader s) ++ option_blocks writer_blocks (gs_writer s) ++
    option_blocks kernel_blocks (gs_kernel s) ++ concat (gs_outs s).

  Inductive mem_call :=
  | GeometryInit | GeometryAppendNode (full : bool) | GeometryReserveCoords (full : bool) | GeometryDeepCopy (full_coords full_nodes : bool)
  | GeometryVisit | GeometryReset
  | ReaderInit (kind : parser_kind) | ReaderVisit (reads : list bool) | ReaderReset
  | WriterInit (t : target) | WriterAppend (ops : list (nat * bool)) | WriterFinish (refused : bool) (full : bool) | WriterReset
  | KernelInit (name : kernel_name) | KernelStart (kind : parser_kind) (refused : bool) (t : target) (s : nat)
  | KernelPushBatch (reads : list bool) (ops : list (nat * bool)) (failed refused : bool) (full with_nulls : bool)
  | KernelFinish (ops : list (nat * bool)) | KernelRelease
  | ReleaseOut.

  Definition set_geometry (s : state) g := State g (gs_reader s) (gs_writer s) (gs_kernel s) (gs_outs s).
  Definition set_reader (s : state) r := State (gs_geometry s) r (gs_writer s) (gs_kernel s) (gs_outs s).
  Definition set_writer (s : state) w outs := State (gs_geometry s) (gs_reader s) w (gs_kernel s) (outs ++ gs_outs s).
  Definition set_kernel (s : state) k outs := State (gs_geometry s) (gs_reader s) (gs_writer s) k (outs ++ gs_outs s).
  Definition given {A} (f : A -> list nat) (o : option A) : list (list nat) := match o with Some x => [f x] | None => [] end.

  (** A call, and the code that it returns. A program does not initialize an object twice, does not use an object that is not initialized
      or was reset, and does not use a kernel that was not started: such a call is not made ([-1]). *)
  Definition mem_step (s : state) (call : mem_call) (h : heap) : outcome (state * Z * heap) :=
    match call, gs_geometry s, gs_reader s, gs_writer s, gs_kernel s with
    | GeometryInit, None, _, _, _ =>
        match geometry_init h with (g, h) => Ok (set_geometry s g, match g with Some _ => 0 | None => ENOMEM end, h) end
    | GeometryAppendNode full, Some g, _, _, _ => do (g, code, h) <- geometry_append_node g full h; Ok (set_geometry s (Some g), code, h)
    | GeometryReserveCoords full, Some g, _, _, _ => do (g, code, h) <- geometry_reserve_coords g full h; Ok (set_geometry s (Some g), code, h)
    | GeometryDeepCopy fc fn, Some g, _, _, _ => do (g, code, h) <- geometry_deep_copy g fc fn h; Ok (set_geometry s (Some g), code, h)
    | GeometryVisit, Some g, _, _, _ => do h <- geometry_visit g h; Ok (s, 0, h)
    | GeometryReset, Some g, _, _, _ => do h <- geometry_reset g h; Ok (set_geometry s None, 0, h)
    | ReaderInit kind, _, None, _, _ => do (r, code, h) <- array_reader_init kind h; Ok (set_reader s r, code, h)
    | ReaderVisit reads, _, Some r, _, _ => do (r, code, h) <- array_reader_visit r reads h; Ok (set_reader s (Some r), code, h)
    | ReaderReset, _, Some r, _, _ => do h <- array_reader_reset r h; Ok (set_reader s None, 0, h)
    | WriterInit t, _, _, None, _ => do (w, code, h) <- array_writer_init t h; Ok (set_writer s w [], code, h)
    | WriterAppend ops, _, _, Some w, _ => do (w, code, h) <- array_writer_append w ops h; Ok (set_writer s (Some w) [], code, h)
    | WriterFinish refused full, _, _, Some w, _ =>
        do (a, w, code, h) <- array_writer_finish w refused full h; Ok (set_writer s (Some w) (given array_blocks a), code, h)
    | WriterReset, _, _, Some w, _ => do h <- array_writer_reset w h; Ok (set_writer s None [], 0, h)
    | KernelInit name, _, _, _, None => do (k, code, h) <- kernel_init name h; Ok (set_kernel s k [], code, h)
    | KernelStart kind refused t n, _, _, _, Some k =>
        do (sc, k, code, h) <- kernel_start k kind refused t n h; Ok (set_kernel s (Some k) (given (fun bs => bs) sc), code, h)
    | KernelPushBatch reads ops failed refused full with_nulls, _, _, _, Some k =>
        if km_started k then
          do (a, k, code, h) <- kernel_push_batch k reads ops failed refused full with_nulls h;
          Ok (set_kernel s (Some k) (given array_blocks a), code, h)
        else Ok (s, -1, h)
    | KernelFinish ops, _, _, _, Some k =>
        if km_started k then
          do (a, k, code, h) <- kernel_finish k ops h; Ok (set_kernel s (Some k) (given array_blocks a), code, h)
        else Ok (s, -1, h)
    | KernelRelease, _, _, _, Some k => do h <- kernel_release k h; Ok (set_kernel s None [], 0, h)
    | ReleaseOut, _, _, _, _ =>
        match gs_outs s with
        | [] => Ok (s, -1, h)
        | bs :: outs => do h <- free_all bs h; Ok (State (gs_geometry s) (gs_reader s) (gs_writer s) (gs_kernel s) outs, 0, h)
        end
    | _, _, _, _, _ => Ok (s, -1, h)
    end.
  Fixpoint mem_calls (s : state) (calls : list mem_call) (h : heap) : outcome (state * list Z * heap) :=
    match calls with
    | [] => Ok (s, [], h)
    | call :: calls =>
        do (s, code, h) <- mem_step s call h;
        do (s, codes, h) <- mem_calls s calls h;
        Ok (s, code :: codes, h)
    end.
End Alloc.
