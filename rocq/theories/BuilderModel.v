(** * Building arrays by buffer: src/geoarrow/builder.c and the inline part in geoarrow_type_inline.h *)
From Verif Require Import Base TypesModel CoordsModel BufferModel BitmapModel ArrowModel ArrayViewModel.
Local Open Scope Z_scope.

(** ** Storage types *)

(** The storage types used by the library: a list with int32 offsets, a struct, a fixed-size list, float64, and
    binary/string with offsets of the given size (4 or 8). *)
Inductive storage := SList | SStruct | SFixed (n : Z) | SDouble | SBinary (offset_size : Z).

(** Number of buffers of an array: nanoarrow.c lines 52-206 (ArrowLayoutInit), the types above only *)
Definition n_buffers (s : storage) : Z :=
  match s with SList | SDouble => 2 | SStruct | SFixed _ => 1 | SBinary _ => 3 end.

(** struct ArrowSchema, reduced to what decides the shape of arrays: no names, flags or metadata. *)
Inductive schema := Schema (s : storage) (children : list schema).

(** src/geoarrow/schema.c lines 9-42 and 77-85: the coordinates *)
Definition coord_schema (c d : Z) : outcome schema :=
  let n := values_of_dimensions d in
  if c =? CT_SEPARATE then Ok (Schema SStruct (repeat (Schema SDouble []) (Z.to_nat n)))
  else if c =? CT_INTERLEAVED then Ok (Schema (SFixed n) [Schema SDouble []])
  else Err EINVAL.

(** src/geoarrow/schema.c lines 73-99: GeoArrowSchemaInitListOf *)
Fixpoint list_of (n : nat) (c d : Z) : outcome schema :=
  match n with
  | O => coord_schema c d
  | S n' => do ch <- list_of n' c d; Ok (Schema SList [ch])
  end.

(** src/geoarrow/schema.c lines 112-206: GeoArrowSchemaInit. The view types, which the builder refuses, are left out. *)
Definition schema_init (t : Z) : outcome schema :=
  if (t =? TYPE_WKB) || (t =? TYPE_WKT) then Ok (Schema (SBinary 4) [])
  else if (t =? TYPE_LARGE_WKB) || (t =? TYPE_LARGE_WKT) then Ok (Schema (SBinary 8) [])
  else
    let d := dimensions_from_type t in
    let c := coord_type_from_type t in
    let g := geometry_type_from_type t in
    if values_of_dimensions d =? 0 then Err EINVAL
    else if g =? GT_BOX then
      if c =? CT_SEPARATE then Ok (Schema SStruct (repeat (Schema SDouble []) (Z.to_nat (values_of_dimensions d * 2))))
      else Err EINVAL
    else if g =? GT_POINT then coord_schema c d
    else if (g =? GT_LINESTRING) || (g =? GT_MULTIPOINT) then list_of 1 c d
    else if (g =? GT_POLYGON) || (g =? GT_MULTILINESTRING) then list_of 2 c d
    else if g =? GT_MULTIPOLYGON then list_of 3 c d
    else Err ENOTSUP.

(** ** The array under construction *)

(** private->array: storage type and length of each array in the tree. Its buffers are kept in the builder. *)
Inductive barray := BArray (s : storage) (length : Z) (children : list barray).

(** nanoarrow.c lines 2549-2568: ArrowArrayInitFromSchema *)
Fixpoint barray_init (sc : schema) : barray :=
  let '(Schema s children) := sc in BArray s 0 (map barray_init children).

(** geoarrow_type_inline.h lines 659-663: struct _GeoArrowFindBufferResult; the array is given by the indices of the
    children that lead to it. *)
Record found := Found { fb_path : list nat; fb_level : Z; fb_i : Z }.

(** geoarrow_type_inline.h lines 665-689: _GeoArrowArrayFindBuffer; the number returned and what [res] was set to *)
Fixpoint find_buffer (a : barray) (i level skip_first : Z) : Z * option found :=
  let '(BArray s _ children) := a in
  let total := n_buffers s - skip_first in
  if i <? total then (total, Some {| fb_path := []; fb_level := level; fb_i := i + skip_first |})
  else
    (fix go (j : nat) (cs : list barray) (i total : Z) :=
       match cs with
       | [] => (total, None)
       | ch :: r =>
           let '(n, f) := find_buffer ch i (level + 1) 1 in
           if i <? n
           then (total + n, option_map (fun f => {| fb_path := j :: fb_path f; fb_level := fb_level f; fb_i := fb_i f |}) f)
           else go (S j) r (i - n) (total + n)
       end) O children (i - total) total.

(** The [length] member of the array at a path. *)
Fixpoint get_length (a : barray) (path : list nat) : outcome Z :=
  let '(BArray _ n children) := a in
  match path with
  | [] => Ok n
  | j :: p => do ch <- or_ub (nth_error children j); get_length ch p
  end.
Fixpoint set_length (a : barray) (path : list nat) (n : Z) : barray :=
  let '(BArray s n0 children) := a in
  match path with
  | [] => BArray s n children
  | j :: p =>
      BArray s n0
        ((fix go (j : nat) (cs : list barray) :=
            match cs, j with
            | [], _ => []
            | ch :: r, O => set_length ch p n :: r
            | ch :: r, S j' => ch :: go j' r
            end) j children)
  end.

(** ** The builder *)

(** One of builder->view.buffers together with private->buffers: capacity and data of the two are equal after every
    operation, the size is that of the view. [bf_id] identifies the memory block: it changes when the buffer is
    reallocated, so that pointers into the old block are not pointers into the new one. *)
Record cbuf := CBuf { bf_id : nat; bf : wbuf }.

(** struct GeoArrowBuilder (geoarrow_type.h lines 751-778) and struct BuilderPrivate (builder.c lines 8-20).
    [bd_values], [bd_size] and [bd_cap] are view.coords.values (eight pointers), size_coords and capacity_coords.
    [bd_next] is the next unused block. *)
Record builder := Builder {
  bd_type : Z; bd_geom : Z; bd_dims : Z; bd_ctype : Z;
  bd_n_offsets : Z; bd_n_values : Z; bd_stride : Z; bd_n_buffers : Z;
  bd_schema : schema;
  bd_bufs : list cbuf; bd_next : nat;
  bd_values : list daddr; bd_size : Z; bd_cap : Z
}.

(** NULL as an address of doubles: block 0 holds nothing. Block 1 is for the coordinates being appended. *)
Definition null_daddr : daddr := (0%nat, 0).
Definition source_block : nat := 1.
Definition first_block : nat := 2.

Definition with_bufs (b : builder) (bufs : list cbuf) (next : nat) : builder :=
  {| bd_type := bd_type b; bd_geom := bd_geom b; bd_dims := bd_dims b; bd_ctype := bd_ctype b;
     bd_n_offsets := bd_n_offsets b; bd_n_values := bd_n_values b; bd_stride := bd_stride b;
     bd_n_buffers := bd_n_buffers b; bd_schema := bd_schema b; bd_bufs := bufs; bd_next := next;
     bd_values := bd_values b; bd_size := bd_size b; bd_cap := bd_cap b |}.
Definition with_coord_view (b : builder) (values : list daddr) (size cap : Z) : builder :=
  {| bd_type := bd_type b; bd_geom := bd_geom b; bd_dims := bd_dims b; bd_ctype := bd_ctype b;
     bd_n_offsets := bd_n_offsets b; bd_n_values := bd_n_values b; bd_stride := bd_stride b;
     bd_n_buffers := bd_n_buffers b; bd_schema := bd_schema b; bd_bufs := bd_bufs b; bd_next := bd_next b;
     bd_values := values; bd_size := size; bd_cap := cap |}.

Fixpoint set_nth {A} (i : nat) (x : A) (l : list A) : list A :=
  match l, i with
  | [], _ => []
  | _ :: r, O => x :: r
  | y :: r, S i' => y :: set_nth i' x r
  end.

(** builder.c lines 22-53: GeoArrowBuilderInitArrayAndCachePointers; EINVAL when the schema has fewer buffers *)
Fixpoint all_found (a : barray) (is : list nat) : bool :=
  match is with
  | [] => true
  | i :: r => match snd (find_buffer a (Z.of_nat i) 0 0) with Some _ => all_found a r | None => false end
  end.
Definition builder_renew (b : builder) : outcome builder :=
  let n := Z.to_nat (bd_n_buffers b) in
  if negb (all_found (barray_init (bd_schema b)) (seq 0 n)) then Err EINVAL
  else
    let bufs := map (fun i => {| bf_id := bd_next b + i; bf := wbuf_init |}) (seq 0 n) in
    Ok (with_coord_view (with_bufs b bufs (bd_next b + n)) (repeat null_daddr 4 ++ skipn 4 (bd_values b)) 0 0).

(** builder.c lines 116-122 and 55-114: GeoArrowBuilderInitFromType and GeoArrowBuilderInitInternal *)
Definition builder_init (t : Z) : outcome builder :=
  if (t =? TYPE_WKB_VIEW) || (t =? TYPE_WKT_VIEW) then Err ENOTSUP
  else
    do v <- array_view_init t;
    do sc <- schema_init t;
    let n_values := rc_n_values (av_coords v) in
    builder_renew
      {| bd_type := t; bd_geom := av_geom v; bd_dims := av_dims v; bd_ctype := av_ctype v;
         bd_n_offsets := av_n_offsets v; bd_n_values := n_values; bd_stride := rc_stride (av_coords v);
         bd_n_buffers := if av_ctype v =? CT_SEPARATE then 1 + av_n_offsets v + n_values else 1 + av_n_offsets v + 1;
         bd_schema := sc; bd_bufs := []; bd_next := first_block;
         bd_values := repeat null_daddr 8; bd_size := 0; bd_cap := 0 |}.

Section Junk.
  (** The contents of freshly allocated memory, block by block. Nothing is assumed about it. *)
  Variable junk : nat -> nat -> N.

  Definition get_buf (b : builder) (i : Z) : outcome cbuf :=
    if i <? 0 then UB else or_ub (nth_error (bd_bufs b) (Z.to_nat i)).
  Definition set_buf (b : builder) (i : Z) (c : cbuf) : builder :=
    with_bufs b (set_nth (Z.to_nat i) c (bd_bufs b)) (bd_next b).

  (** builder->view.buffers[i].size_bytes = size *)
  Definition set_buf_size (b : builder) (i size : Z) : outcome builder :=
    do c <- get_buf b i;
    Ok (set_buf b i {| bf_id := bf_id c; bf := {| w_mem := w_mem (bf c); w_size := size |} |}).

  (** builder.c lines 133-149: GeoArrowBuilderReserveBuffer *)
  Definition reserve_buffer (b : builder) (i additional : Z) : outcome builder :=
    do c <- get_buf b i;
    let w := wbuf_reserve (junk (bd_next b)) (bf c) additional in
    if w_cap w =? w_cap (bf c) then Ok b
    else Ok (with_bufs b (set_nth (Z.to_nat i) {| bf_id := bd_next b; bf := w |} (bd_bufs b)) (S (bd_next b))).

  (** geoarrow_type_inline.h lines 292-298: GeoArrowBuilderAppendBufferUnsafe *)
  Definition append_buffer_unsafe (b : builder) (i : Z) (bs : bytes) : outcome builder :=
    do c <- get_buf b i;
    do m <- upd_bytes (w_mem (bf c)) (w_size (bf c)) bs;
    Ok (set_buf b i {| bf_id := bf_id c; bf := {| w_mem := m; w_size := w_size (bf c) + Z.of_nat (length bs) |} |}).

  (** geoarrow_type_inline.h lines 691-702 and 286-290: GeoArrowBuilderAppendBuffer *)
  Definition append_buffer (b : builder) (i : Z) (bs : bytes) : outcome builder :=
    do c <- get_buf b i;
    let n := Z.of_nat (length bs) in
    do b <- (if w_size (bf c) + n <=? w_cap (bf c) then Ok b else reserve_buffer b i n);
    append_buffer_unsafe b i bs.

  (** builder.c lines 166-201: GeoArrowBuilderSetOwnedBuffer of the memory [bs], which the builder then owns. That memory
      cannot be reallocated afterwards (nanoarrow.c: ArrowBufferDeallocatorReallocate): the theorems do not append to it.
      Simplification: a bitmap of no bytes is at NULL, and other memory of no bytes is not (OwnedModel.v: with NULL,
      GeoArrowBuilderFinish fails). *)
  Definition set_owned_buffer (b : builder) (i : Z) (bs : bytes) : outcome builder :=
    if (i <? 0) || (bd_n_buffers b <=? i) then Err EINVAL
    else
      do c <- get_buf b i;
      let w := {| w_mem := bs; w_size := Z.of_nat (length bs) |} in
      Ok (with_bufs b (set_nth (Z.to_nat i) {| bf_id := bd_next b; bf := w |} (bd_bufs b)) (S (bd_next b))).

  (** geoarrow_type_inline.h lines 789-801 and 643-657: GeoArrowBuilderOffsetAppend of one offset *)
  Definition offset_append (b : builder) (i v : Z) : outcome builder :=
    do c <- get_buf b (i + 1);
    do b <- (if w_size (bf c) / 4 + 1 <=? w_cap (bf c) / 4 then Ok b else reserve_buffer b (i + 1) 4);
    append_buffer_unsafe b (i + 1) (le_bytes 4 (Z.to_N (v mod 4294967296))).

  (** geoarrow_type_inline.h lines 738-748: the loop over the coordinate buffers, [k] of them from the [i]-th on *)
  Fixpoint reserve_columns (k : nat) (b : builder) (i additional : Z) : outcome builder :=
    match k with
    | O => Ok b
    | S k' =>
        do b <- set_buf_size b i (bd_size b * 8);
        do b <- reserve_buffer b i (additional * 8);
        reserve_columns k' b (i + 1) additional
    end.

  (** The pointers of [n] consecutive buffers from the [i]-th on. *)
  Fixpoint buffer_pointers (n : nat) (b : builder) (i : Z) : outcome (list daddr) :=
    match n with
    | O => Ok []
    | S n' => do c <- get_buf b i; do r <- buffer_pointers n' b (i + 1); Ok ((bf_id c, 0) :: r)
    end.

  (** geoarrow_type_inline.h lines 704-763: GeoArrowBuilderCoordsReserve *)
  Definition coords_reserve (b : builder) (additional : Z) : outcome builder :=
    if bd_size b + additional <=? bd_cap b then Ok b
    else
      let last := bd_n_buffers b - 1 in
      let n := bd_n_values b in
      if bd_ctype b =? CT_INTERLEAVED then
        do b <- set_buf_size b last (bd_size b * 8 * n);
        do b <- reserve_buffer b last (additional * 8 * n);
        do c <- get_buf b last;
        Ok (with_coord_view b
              (map (fun j => (bf_id c, Z.of_nat j)) (seq 0 (Z.to_nat n)) ++ skipn (Z.to_nat n) (bd_values b))
              (bd_size b) (w_cap (bf c) / 8 / n))
      else if bd_ctype b =? CT_SEPARATE then
        do b <- reserve_columns (Z.to_nat n) b (last - n + 1) additional;
        do c <- get_buf b last;
        do ps <- buffer_pointers (Z.to_nat n) b (last - n + 1);
        Ok (with_coord_view b (ps ++ skipn (Z.to_nat n) (bd_values b)) (bd_size b) (w_cap (bf c) / 8))
      else Err (-1).

  (** The memory of the builder and of the coordinates being appended, as doubles. *)
  Definition find_block (bufs : list cbuf) (id : nat) : option wbuf :=
    option_map bf (find (fun c => Nat.eqb (bf_id c) id) bufs).
  Definition builder_dmem (b : builder) (src : list N) : dmem := fun a =>
    let '(id, i) := a in
    if Nat.eqb id source_block then (if i <? 0 then None else nth_error src (Z.to_nat i))
    else
      match find_block (bd_bufs b) id with
      | Some w => option_map le_val (slice (w_mem w) (8 * i) 8)
      | None => None
      end.
  (** The buffers after writing to that memory; the bytes after the last whole double stay. *)
  Definition refill (m : dmem) (c : cbuf) : cbuf :=
    let mem := w_mem (bf c) in
    let n := (length mem / 8)%nat in
    {| bf_id := bf_id c;
       bf := {| w_mem := flat_map (fun i => le_bytes 8 (match m (bf_id c, Z.of_nat i) with Some v => v | None => 0%N end)) (seq 0 n) ++
                         skipn (8 * n) mem;
                w_size := w_size (bf c) |} |}.
  Definition write_back (b : builder) (m : dmem) : builder :=
    with_bufs b (map (refill m) (bd_bufs b)) (bd_next b).

  Definition quad_of (l : list daddr) : quad daddr :=
    Quad (nth 0 l null_daddr) (nth 1 l null_daddr) (nth 2 l null_daddr) (nth 3 l null_daddr).
  Definition dst_view (b : builder) : cview :=
    {| cv_values := quad_of (bd_values b); cv_n_values := bd_n_values b; cv_stride := bd_stride b |}.

  (** geoarrow_type_inline.h lines 765-777 and 628-641: GeoArrowBuilderCoordsAppend of the [n] coordinates from [offset]
      on of the view [src_view] of [src]. *)
  Definition coords_append (b : builder) (src : list N) (src_view : cview) (dimensions offset n : Z) : outcome builder :=
    do b <- coords_reserve b n;
    do m <- coord_view_copy src_view dimensions offset (dst_view b) (bd_dims b) (bd_size b) n (builder_dmem b src);
    let b := write_back b m in
    Ok (with_coord_view b (bd_values b) (bd_size b + n) (bd_cap b)).

  (** ** Finishing *)

  (** A finished array, with its storage type. *)
  Inductive farray := FArray (s : storage) (length : Z) (buffers : list (option bytes)) (children : list farray).
  Fixpoint to_arrow (a : farray) : arrow_array :=
    let '(FArray _ n buffers children) := a in ArrowArray n 0 0 buffers (map to_arrow children).

  Definition max_size (c : cbuf) (size : Z) : cbuf :=
    if w_size (bf c) <? size then {| bf_id := bf_id c; bf := {| w_mem := w_mem (bf c); w_size := size |} |} else c.

  (** builder.c lines 211-236: the sizes of the coordinate buffers, at least those of the appended coordinates *)
  Definition sync_coord_sizes (b : builder) : list cbuf :=
    let last := bd_n_buffers b - 1 in
    let n := bd_n_values b in
    if bd_ctype b =? CT_INTERLEAVED then
      map (fun ic => if Z.of_nat (fst ic) =? last then max_size (snd ic) (bd_size b * 8 * n) else snd ic)
          (combine (seq 0 (length (bd_bufs b))) (bd_bufs b))
    else if bd_ctype b =? CT_SEPARATE then
      map (fun ic => if (last - n + 1 <=? Z.of_nat (fst ic)) && (Z.of_nat (fst ic) <=? last)
                     then max_size (snd ic) (bd_size b * 8) else snd ic)
          (combine (seq 0 (length (bd_bufs b))) (bd_bufs b))
    else bd_bufs b.

  (** builder.c lines 335-354: coord_level; [None] is the default case, which returns *)
  Definition coord_level (g : Z) : option Z :=
    if (g =? GT_BOX) || (g =? GT_POINT) then Some 0
    else if (g =? GT_LINESTRING) || (g =? GT_MULTIPOINT) then Some 1
    else if (g =? GT_POLYGON) || (g =? GT_MULTILINESTRING) then Some 2
    else if g =? GT_MULTIPOLYGON then Some 3
    else None.

  (** builder.c lines 307-363: GeoArrowSetArrayLengthFromBufferLength, in two steps: which formula, and the formula.
      [LKeep] leaves the length alone. In C the test for an empty buffer precedes the choice by type, which makes no
      difference for the types a builder can have. *)
  Inductive length_rule := LKeep | LOffsets (k : Z) | LValues.
  Definition length_rule_of (t g : Z) (f : found) : length_rule :=
    if negb (fb_i f =? 1) then LKeep
    else if (t =? TYPE_WKB) || (t =? TYPE_WKT) then LOffsets 4
    else if (t =? TYPE_LARGE_WKB) || (t =? TYPE_LARGE_WKT) then LOffsets 8
    else
      match coord_level g with
      | None => LKeep
      | Some l => if fb_level f <? l then LOffsets 4 else LValues
      end.
  (** A non-empty buffer smaller than one offset gives (uint64_t)0 - 1, which is -1 as an int64_t. *)
  Definition length_by_offsets (k size : Z) : Z := if size =? 0 then 0 else size / k - 1.
  Definition length_by_values (size : Z) : Z := if size =? 0 then 0 else size / 8.

  (** builder.c lines 246-259: the loop over the buffers *)
  Fixpoint set_lengths (b : builder) (is : list nat) (bufs : list cbuf) (a : barray) : outcome barray :=
    match is, bufs with
    | i :: is', c :: bufs' =>
        match snd (find_buffer a (Z.of_nat i) 0 0) with
        | None => Err EINVAL
        | Some f =>
            set_lengths b is' bufs'
              (match length_rule_of (bd_type b) (bd_geom b) f with
               | LKeep => a
               | LOffsets k => set_length a (fb_path f) (length_by_offsets k (w_size (bf c)))
               | LValues => set_length a (fb_path f) (length_by_values (w_size (bf c)))
               end)
        end
    | _, _ => Ok a
    end.

  (** builder.c lines 368-394: scale *)
  Definition container_scale (b : builder) : option Z :=
    if bd_ctype b =? CT_SEPARATE then Some 1
    else if bd_ctype b =? CT_INTERLEAVED then
      let n := values_of_dimensions (bd_dims b) in if n =? 0 then None else Some n
    else Some (-1).

  (** builder.c lines 365-424: GeoArrowSetCoordContainerLength *)
  Definition set_container_length (b : builder) (a : barray) : outcome barray :=
    match container_scale b, coord_level (bd_geom b) with
    | Some scale, Some l =>
        let path := repeat 0%nat (Z.to_nat l) in
        do n <- get_length a (path ++ [0%nat]);
        Ok (set_length a path (Z.quot n scale))
    | _, _ => Ok a
    end.

  (** The buffer the builder has for buffer [j] of the array at [path]: the inverse of find_buffer. *)
  Fixpoint buffer_slot (a : barray) (is : list nat) (bufs : list cbuf) (path : list nat) (j : Z) : option wbuf :=
    match is, bufs with
    | i :: is', c :: bufs' =>
        match snd (find_buffer a (Z.of_nat i) 0 0) with
        | Some f =>
            if (if list_eq_dec Nat.eq_dec (fb_path f) path then true else false) && (fb_i f =? j) then Some (bf c)
            else buffer_slot a is' bufs' path j
        | None => buffer_slot a is' bufs' path j
        end
    | _, _ => None
    end.

  (** nanoarrow.c lines 2753-2780 and 2782-2826: ArrowArrayFinalizeBuffers gives every NULL buffer other than a validity
      bitmap some memory, ArrowArrayFlushInternalPointers publishes the pointers. What can be read through the pointer is
      data[0 .. size_bytes). Buffers the builder has no name for (the bitmaps of the children) were never touched. *)
  Definition flush_buffer (j : Z) (w : option wbuf) : option bytes :=
    let empty := if j =? 0 then None else Some [] in
    match w with
    | None => empty
    | Some w => if w_null w then empty else Some (firstn (Z.to_nat (w_size w)) (w_mem w))
    end.
  Fixpoint flush (slot : list nat -> Z -> option wbuf) (path : list nat) (a : barray) : farray :=
    let '(BArray s n children) := a in
    FArray s n (map (fun j => flush_buffer (Z.of_nat j) (slot path (Z.of_nat j))) (seq 0 (Z.to_nat (n_buffers s))))
      ((fix go (j : nat) (cs : list barray) :=
          match cs with [] => [] | ch :: r => flush slot (path ++ [j]) ch :: go (S j) r end) O children).

  Definition fa_length (a : farray) : Z := let '(FArray _ n _ _) := a in n.
  Definition buf_size (b : option bytes) : Z := match b with Some b => Z.of_nat (length b) | None => 0 end.
  Definition nth_buf (bufs : list (option bytes)) (i : nat) : option bytes := nth i bufs None.

  (** The [i]-th offset of a buffer of offsets of [k] bytes. *)
  Definition load_offset (k : Z) (b : option bytes) (i : Z) : outcome Z :=
    match b with
    | None => UB
    | Some b =>
        do bs <- or_ub (slice b (k * i) (Z.to_nat k));
        let n := Z.of_N (le_val bs) in
        Ok (if n <? 2 ^ (8 * k - 1) then n else n - 2 ^ (8 * k))
    end.

  Definition fails (c : bool) : outcome unit := if c then Err EINVAL else Ok tt.
  Fixpoint check_all {A} (f : A -> outcome unit) (l : list A) : outcome unit :=
    match l with [] => Ok tt | x :: r => check f x; check_all f r end.

  (** nanoarrow.c lines 3142-3365: ArrowArrayViewValidateMinimal for the storage types above; offset and null_count are 0,
      the buffer sizes are known. *)
  Fixpoint validate_minimal (a : farray) : outcome unit :=
    let '(FArray s n bufs children) := a in
    let size0 := buf_size (nth_buf bufs 0) in
    let size1 := buf_size (nth_buf bufs 1) in
    check fails (n <? 0);
    check fails (negb (size0 =? 0) && (size0 <? bytes_for_bits n));
    check fails (match s with
                 | SList => size1 <? (if n =? 0 then 0 else 4 * (n + 1))
                 | SBinary k => size1 <? (if n =? 0 then 0 else k * (n + 1))
                 | SDouble => size1 <? 8 * n
                 | SStruct | SFixed _ => false
                 end);
    check fails (match s with
                 | SList | SFixed _ => negb (Nat.eqb (length children) 1)
                 | _ => false
                 end);
    check fails (match s with
                 | SStruct => existsb (fun ch => fa_length ch <? n) children
                 | SFixed k => existsb (fun ch => fa_length ch <? n * k) children
                 | _ => false
                 end);
    (fix go (cs : list farray) := match cs with [] => Ok tt | ch :: r => check validate_minimal ch; go r end) children.

  (** nanoarrow.c lines 3381-3409 and 3466-3492: the first and the last offset *)
  Definition validate_offsets (k n limit : Z) (offsets : option bytes) : outcome unit :=
    if buf_size offsets =? 0 then Ok tt
    else
      do first <- load_offset k offsets 0;
      check fails (first <? 0);
      do last <- load_offset k offsets n;
      check fails (last <? 0);
      fails (limit <? last).

  (** nanoarrow.c lines 3367-3566: ArrowArrayViewValidateDefault *)
  Fixpoint validate_default (a : farray) : outcome unit :=
    check validate_minimal a;
    let '(FArray s n bufs children) := a in
    check (match s with
           | SBinary k => validate_offsets k n (buf_size (nth_buf bufs 2)) (nth_buf bufs 1)
           | SList =>
               match children with
               | ch :: _ => validate_offsets 4 n (fa_length ch) (nth_buf bufs 1)
               | [] => UB
               end
           | SStruct => fails (existsb (fun ch => fa_length ch <? n) children)
           | SDouble | SFixed _ => Ok tt
           end);
    (fix go (cs : list farray) := match cs with [] => Ok tt | ch :: r => check validate_default ch; go r end) children.

  Definition with_null_count (a : arrow_array) (c : Z) : arrow_array :=
    let '(ArrowArray n o _ bufs children) := a in ArrowArray n o c bufs children.

  (** builder.c lines 206-288: GeoArrowBuilderFinish. A buffer whose size exceeds its memory is an access outside it.
      Lines 239-244 are left out: the bitmap of the array is not reachable from outside, so its data is NULL unless
      buffer 0, which is the same object, was used. *)
  Definition builder_finish (b : builder) : outcome (arrow_array * builder) :=
    let is := seq 0 (Z.to_nat (bd_n_buffers b)) in
    let bufs := sync_coord_sizes b in
    let a := barray_init (bd_schema b) in
    do a <- set_lengths b is bufs a;
    do a <- set_container_length b a;
    if existsb (fun c => w_cap (bf c) <? w_size (bf c)) bufs then UB
    else
      let fa := flush (buffer_slot a is bufs) [] a in
      check validate_default fa;
      let res := to_arrow fa in
      let res := match aa_buffers res with Some _ :: _ => with_null_count res (-1) | _ => res end in
      do b <- builder_renew b;
      Ok (res, b).
End Junk.
