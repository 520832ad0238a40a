(** * C++ views of native and WKB arrays: src/geoarrow/hpp/array_util.hpp and wkb_util.hpp

    Coordinate types are those of CppCoordModel.v. The ordinates are doubles. int64 arithmetic does not overflow. A
    failed InitFrom leaves a partly initialized object in C++ and nothing here. *)
From Verif Require Import Base TypesSpec GeomSpec ArrowModel BufferModel BitmapModel ArrayViewModel CppCoordModel
  CppWkbModel.
Local Open Scope Z_scope.

(** ** Sequences *)

(** array_util.hpp lines 489-522: struct CoordSequence. The number of [values] is the size of the coordinate (or box)
    type of the template. *)
Record cseq := CSeq { cs_offset : Z; cs_length : Z; cs_values : list rptr; cs_stride : Z }.

(** array_util.hpp lines 845-871: struct ListSequence<T> *)
Record lseq (T : Type) := LSeq { ls_offset : Z; ls_length : Z; ls_offsets : rptr; ls_child : T }.
Arguments LSeq {T}. Arguments ls_offset {T}. Arguments ls_length {T}. Arguments ls_offsets {T}. Arguments ls_child {T}.

(** The C++ type of [depth] ListSequences around a CoordSequence. *)
Fixpoint seq_of (depth : nat) : Type :=
  match depth with O => cseq | S n => lseq (seq_of n) end.

Definition seq_offset (depth : nat) : seq_of depth -> Z :=
  match depth with O => cs_offset | S n => @ls_offset (seq_of n) end.
Definition seq_length (depth : nat) : seq_of depth -> Z :=
  match depth with O => cs_length | S n => @ls_length (seq_of n) end.

(** Assigning to the members [offset] and [length]. *)
Definition seq_window (depth : nat) : seq_of depth -> Z -> Z -> seq_of depth :=
  match depth with
  | O => fun (s : cseq) o n => CSeq o n (cs_values s) (cs_stride s)
  | S n' => fun (s : lseq (seq_of n')) o n => LSeq o n (ls_offsets s) (ls_child s)
  end.

(** array_util.hpp lines 605-610 and 915-920: Slice *)
Definition seq_slice (depth : nat) (s : seq_of depth) (offset length : Z) : seq_of depth :=
  seq_window depth s (seq_offset depth s + offset) length.

(** array_util.hpp lines 528-541: CoordSequence::InitFrom(GeoArrowCoordView) for a type of [size] ordinates *)
Definition cseq_init_coords (size : nat) (c : rcoords) : outcome cseq :=
  if rc_n_values c <? Z.of_nat size then Err EINVAL
  else if (Nat.ltb (length (rc_values c)) size) then UB
  else Ok (CSeq 0 (rc_n_coords c) (firstn size (rc_values c)) (rc_stride c)).

(** array_util.hpp lines 544-553 (CoordSequence) and 874-884 (ListSequence): InitFrom(GeoArrowArrayView, level) *)
Fixpoint seq_init (size : nat) (depth : nat) (v : aview) (level : nat) : outcome (seq_of depth) :=
  match depth return outcome (seq_of depth) with
  | O =>
      if negb (Z.of_nat level =? av_n_offsets v) then Err EINVAL
      else
        do s <- cseq_init_coords size (av_coords v);
        do o <- or_ub (qget (av_offset v) level);
        do n <- or_ub (qget (av_length v) level);
        Ok (CSeq o n (cs_values s) (cs_stride s))
  | S depth' =>
      if Z.of_nat level >? av_n_offsets v - 1 then Err EINVAL
      else
        do offsets <- or_ub (qget (av_offsets v) level);
        do child <- seq_init size depth' v (S level);
        do o <- or_ub (qget (av_offset v) level);
        do n <- or_ub (qget (av_length v) level);
        Ok (LSeq o n offsets child)
  end.

(** array_util.hpp lines 590-596: CoordSequence::coord; the values in [vs] are read at the same index. *)
Fixpoint values_at (vs : list rptr) (index : Z) : outcome (list N) :=
  match vs with
  | [] => Ok []
  | p :: r =>
      do w <- load_double p index;
      do ws <- values_at r index;
      Ok (w :: ws)
  end.
Definition cseq_coord (s : cseq) (i : Z) : outcome (list N) :=
  values_at (cs_values s) ((cs_offset s + i) * cs_stride s).

(** array_util.hpp lines 905-909 (UpdateChild) and 99-102 (the iterator): the child for element [i] *)
Definition list_item {depth} (s : lseq (seq_of depth)) (i : Z) : outcome (seq_of depth) :=
  do from <- load_int32 (ls_offsets s) (ls_offset s + i);
  do to <- load_int32 (ls_offsets s) (ls_offset s + i + 1);
  Ok (seq_window depth (ls_child s) (seq_offset depth (ls_child s) + from) (to - from)).

(** array_util.hpp lines 887-895: ValidChildElements *)
Definition valid_child_elements {depth} (s : lseq (seq_of depth)) : outcome (seq_of depth) :=
  if ls_length s =? 0 then Ok (seq_slice depth (ls_child s) 0 0)
  else
    do first <- load_int32 (ls_offsets s) (ls_offset s);
    do last <- load_int32 (ls_offsets s) (ls_offset s + ls_length s);
    Ok (seq_slice depth (ls_child s) first (last - first)).

(** array_util.hpp lines 43-65: [for (it = begin(); it != end(); ++it)] over the indices from [i] to [length]: with a negative length the iterator
    never gets to the end and leaves the array. *)
Fixpoint collect {A} (n : nat) (i : Z) (body : Z -> outcome (list A)) : outcome (list A) :=
  match n with
  | O => Ok []
  | S n' =>
      do x <- body i;
      do y <- collect n' (i + 1) body;
      Ok (x ++ y)
  end.
Definition over {A} (i length : Z) (body : Z -> outcome (list A)) : outcome (list A) :=
  if length <? i then UB else collect (Z.to_nat (length - i)) i body.

(** array_util.hpp lines 619-624 (CoordSequence) and 923-927 (ListSequence): VisitVertices. [d] and [dst] are the source
    and destination types. *)
Fixpoint seq_vertices (d dst : dim) (depth : nat) : seq_of depth -> outcome (list coord) :=
  match depth return seq_of depth -> outcome (list coord) with
  | O => fun (s : cseq) => over 0 (cs_length s) (fun i => do c <- cseq_coord s i; Ok [coord_cast d dst c])
  | S depth' => fun (s : lseq (seq_of depth')) => do child <- valid_child_elements s; seq_vertices d dst depth' child
  end.

(** array_util.hpp lines 631-646: CoordSequence::VisitEdges. Line 641 only compiles if the destination is the source
    type; the cast of line 638 then does nothing. *)
Fixpoint cseq_edges_from (n : nat) (s : cseq) (start : coord) (i : Z) : outcome (list (coord * coord)) :=
  match n with
  | O => Ok []
  | S n' =>
      do finish <- cseq_coord s i;
      do r <- cseq_edges_from n' s finish (i + 1);
      Ok ((start, finish) :: r)
  end.
Definition cseq_edges (s : cseq) : outcome (list (coord * coord)) :=
  if cs_length s <? 2 then Ok []
  else
    do start <- cseq_coord s 0;
    cseq_edges_from (Z.to_nat (cs_length s - 1)) s start 1.

(** array_util.hpp lines 930-936: ListSequence::VisitEdges *)
Fixpoint seq_edges (depth : nat) : seq_of depth -> outcome (list (coord * coord)) :=
  match depth return seq_of depth -> outcome (list (coord * coord)) with
  | O => cseq_edges
  | S depth' => fun (s : lseq (seq_of depth')) => over 0 (ls_length s) (fun i => do item <- list_item s i; seq_edges depth' item)
  end.

(** ** Arrays *)

(** array_util.hpp lines 989-1007: struct Array<T> *)
Record carray (T : Type) := CArray { ca_value : T; ca_validity : rptr }.
Arguments CArray {T}. Arguments ca_value {T}. Arguments ca_validity {T}.

(** array_util.hpp lines 1071-1075: Init *)
Definition array_init (size depth : nat) (v : aview) : outcome (carray (seq_of depth)) :=
  do s <- seq_init size depth v 0;
  Ok (CArray s (av_validity v)).

(** array_util.hpp lines 1012-1015: is_valid; [i] already includes the offset of the sequence. [validity[i / 8] & (1 << (i % 8))] is
    the bit of ArrowBitGet for [i >= 0]; a negative index is outside the bitmap. *)
Definition valid_index (p : rptr) (i : Z) : outcome bool :=
  match p with
  | RNull => Ok true
  | RPtr b _ => bit_get b i
  end.
Definition array_is_valid {depth} (a : carray (seq_of depth)) (i : Z) : outcome bool :=
  valid_index (ca_validity a) (i + seq_offset depth (ca_value a)).
(** array_util.hpp lines 1020-1023: is_null *)
Definition array_is_null {depth} (a : carray (seq_of depth)) (i : Z) : outcome bool :=
  match ca_validity a with
  | RNull => Ok false
  | RPtr b _ => do v <- bit_get b (i + seq_offset depth (ca_value a)); Ok (negb v)
  end.

(** array_util.hpp lines 1078-1083: SliceImpl *)
Definition array_slice {depth} (a : carray (seq_of depth)) (offset length : Z) : carray (seq_of depth) :=
  CArray (seq_window depth (ca_value a) (seq_offset depth (ca_value a) + offset) length) (ca_validity a).

(** Element [i] as the iterator gives it, and its VisitVertices: array_util.hpp lines 282-285, 311-314, 339-342, 367-370
    for a coordinate, 923-927 for a list. *)
Definition item_vertices (d dst : dim) (depth : nat) : seq_of depth -> Z -> outcome (list coord) :=
  match depth return seq_of depth -> Z -> outcome (list coord) with
  | O => fun (s : cseq) i => do c <- cseq_coord s i; Ok [coord_cast d dst c]
  | S depth' => fun (s : lseq (seq_of depth')) i => do item <- list_item s i; seq_vertices d dst depth' item
  end.
(** VisitEdges of an element: lines 287-291, 316-320, 344-348, 372-376 for a coordinate (of the same type), 631-646 and
    930-936 for a list *)
Definition item_edges (depth : nat) : seq_of depth -> Z -> outcome (list (coord * coord)) :=
  match depth return seq_of depth -> Z -> outcome (list (coord * coord)) with
  | O => fun (s : cseq) i => do c <- cseq_coord s i; Ok [(c, c)]
  | S depth' => fun (s : lseq (seq_of depth')) i => do item <- list_item s i; seq_edges depth' item
  end.

(** array_util.hpp lines 1026-1043: Array::VisitVertices *)
Definition array_vertices (d dst : dim) (depth : nat) (a : carray (seq_of depth)) : outcome (list coord) :=
  match ca_validity a with
  | RNull => seq_vertices d dst depth (ca_value a)
  | RPtr _ _ =>
      over 0 (seq_length depth (ca_value a)) (fun i =>
        do valid <- array_is_valid a i;
        if valid : bool then item_vertices d dst depth (ca_value a) i else Ok [])
  end.

(** array_util.hpp lines 1048-1065: Array::VisitEdges, for linestrings, polygons, multilinestrings and multipolygons *)
Definition array_edges (depth : nat) (a : carray (seq_of depth)) : outcome (list (coord * coord)) :=
  match ca_validity a with
  | RNull => seq_edges depth (ca_value a)
  | RPtr _ _ =>
      over 0 (seq_length depth (ca_value a)) (fun i =>
        do valid <- array_is_valid a i;
        if valid : bool then item_edges depth (ca_value a) i else Ok [])
  end.
(** array_util.hpp lines 1110-1113 and 1232-1235: PointArray::VisitEdges and MultipointArray::VisitEdges, which only
    compile if the destination is the source type *)
Definition point_edges (d : dim) (depth : nat) (a : carray (seq_of depth)) : outcome (list (coord * coord)) :=
  do vs <- array_vertices d d depth a;
  Ok (map (fun c => (c, c)) vs).

(** array_util.hpp lines 1097, 1171, 1194-1196, 1219, 1251-1253, 1277-1279: Coords() *)
Fixpoint seq_coords (depth : nat) : seq_of depth -> outcome cseq :=
  match depth return seq_of depth -> outcome cseq with
  | O => fun (s : cseq) => Ok s
  | S depth' => fun (s : lseq (seq_of depth')) => do child <- valid_child_elements s; seq_coords depth' child
  end.

(** VisitEdges of the array type for each geometry type: lines 1086-1289 *)
Definition kind_edges (k : geometry_kind) (d : dim) (depth : nat) (a : carray (seq_of depth))
  : outcome (list (coord * coord)) :=
  match k with
  | KPoint | KMultipoint => point_edges d depth a
  | _ => array_edges depth a
  end.

(** array_util.hpp lines 1088, 1118, 1161, 1184, 1209, 1240-1241, 1266-1267: the ListSequences of the array type for each
    geometry type, and the number of ordinates of its CoordSequence; lines 276, 305, 333, 361: box_type *)
Definition array_depth (k : geometry_kind) : nat :=
  match k with KPoint | KBox => 0 | KLinestring | KMultipoint => 1 | KPolygon | KMultilinestring => 2 | KMultipolygon => 3 end.
Definition array_size (k : geometry_kind) (d : dim) : nat :=
  match k with KBox => 2 * coord_size d | _ => coord_size d end.

(** ** Memory of the caller *)

(** array_util.hpp lines 556-572: InitInterleaved: the result, or nothing changed and EINVAL. With a null pointer the
    pointers of the sequence keep their values, null in a new one. *)
Definition init_interleaved (size : nat) (length : Z) (data : rptr) (stride : Z) : outcome cseq :=
  match data with
  | RNull => if negb (length =? 0) then Err EINVAL else Ok (CSeq 0 length (repeat RNull size) stride)
  | RPtr _ _ => Ok (CSeq 0 length (map (fun i => rptr_add data (8 * Z.of_nat i)) (seq 0 size)) stride)
  end.
(** array_util.hpp lines 576-587: InitSeparated *)
Definition init_separated (length : Z) (dimensions : list rptr) (stride : Z) : cseq :=
  CSeq 0 length dimensions stride.

(** ** Boxes *)

(** array_util.hpp lines 1123-1134 and 1137-1148: BoxArray::LowerBound and UpperBound. [values] of the box array has
    twice as many entries as the coordinate type has ordinates. *)
Definition lower_bound (d : dim) (a : carray (seq_of 0)) : carray (seq_of 0) :=
  let s : cseq := ca_value a in
  CArray (CSeq (cs_offset s) (cs_length s) (firstn (coord_size d) (cs_values s)) (cs_stride s) : seq_of 0) (ca_validity a).
Definition upper_bound (d : dim) (a : carray (seq_of 0)) : carray (seq_of 0) :=
  let s : cseq := ca_value a in
  CArray (CSeq (cs_offset s) (cs_length s) (firstn (coord_size d) (skipn (coord_size d) (cs_values s))) (cs_stride s)
          : seq_of 0) (ca_validity a).

(** ** Iterating over one dimension *)

(** array_util.hpp lines 126-175: StridedIterator; [it_index] is the distance of ptr_ from values[j], in elements *)
Record sit := SIt { it_base : rptr; it_index : Z; it_stride : Z }.
(** lines 653-658: dbegin(j) and dend(j) *)
Definition dbegin (s : cseq) (j : nat) : outcome sit :=
  do p <- or_ub (nth_error (cs_values s) j);
  Ok (SIt p (cs_offset s * cs_stride s) (cs_stride s)).
Definition dend (s : cseq) (j : nat) : outcome sit :=
  do p <- or_ub (nth_error (cs_values s) j);
  Ok (SIt p ((cs_offset s + cs_length s) * cs_stride s) (cs_stride s)).
(** lines 132-135 and 145-148: ++ and += n (-- and -= n are += -1 and += -n) *)
Definition it_next (it : sit) : sit := SIt (it_base it) (it_index it + it_stride it) (it_stride it).
Definition it_add (it : sit) (n : Z) : sit := SIt (it_base it) (it_index it + n * it_stride it) (it_stride it).
(** lines 153-155: the difference; division by a stride of 0 is not defined *)
Definition it_sub (a b : sit) : outcome Z :=
  if it_stride a =? 0 then UB else Ok (Z.quot (it_index a - it_index b) (it_stride a)).
(** line 160: == *)
Definition it_eqb (a b : sit) : bool := it_index a =? it_index b.
(** line 163: * *)
Definition it_deref (it : sit) : outcome N := load_double (it_base it) (it_index it).
(** line 164: [i] *)
Definition it_at (it : sit) (i : Z) : outcome N := load_double (it_base it) (it_index it + i).

(** ** Arrays of WKB *)

(** array_util.hpp lines 944-973: struct BinarySequence<int32_t> with InitFrom, and 1071-1075: Init of wkb_util.hpp line 587,
    WKBArray<int32_t> *)
Record wkbseq := WkbSeq { bs_offset : Z; bs_length : Z; bs_offsets : rptr; bs_data : rptr }.
Definition wkb_array_init (v : aview) : carray wkbseq :=
  CArray (WkbSeq (q0 (av_offset v)) (q0 (av_length v)) (q0 (av_offsets v)) (av_data v)) (av_validity v).

(** lines 975-979: blob(i). A negative size is not one of a view. *)
Definition seq_blob (s : wkbseq) (i : Z) : outcome bytes :=
  do from <- load_int32 (bs_offsets s) (bs_offset s + i);
  do to <- load_int32 (bs_offsets s) (bs_offset s + i + 1);
  match bs_data s with
  | RNull => if to - from =? 0 then Ok [] else UB
  | RPtr b o => if to <? from then UB else or_ub (slice b (o + from) (Z.to_nat (to - from)))
  end.

(** wkb_util.hpp lines 534-558: class WKBSequenceIterator: its stashed geometry and parser are used again for every element.
    [body] is given the blob and the parsed geometry. An exception ends the iteration. *)
Fixpoint wkb_collect {A} (n : nat) (i : Z) (s : wkbseq) (valid : Z -> outcome bool)
    (body : bytes -> wgeom -> outcome (list A)) (p : pstate) (g : wgeom) : outcome (list A) :=
  match n with
  | O => Ok []
  | S n' =>
      do ok <- valid i;
      if ok : bool then
        do b <- seq_blob s i;
        do (st, _, p, g) <- parse_view b p g;
        match st with
        | OK =>
            do x <- body b g;
            do y <- wkb_collect n' (i + 1) s valid body p g;
            Ok (x ++ y)
        | _ => Err THROWN
        end
      else wkb_collect n' (i + 1) s valid body p g
  end.

(** The parser and the geometry of a new iterator. In C++ the counters and the state of the parser are indeterminate;
    Parse sets everything it reads. *)
Definition fresh_parser : pstate := PState 0 0 0 0 0.
Definition fresh_geometry : wgeom := WGeom 0 0 srid_unset [] 0 [] 0.

(** wkb_util.hpp lines 566-578 (no validity bitmap), and array_util.hpp lines 1026-1065 (with one) *)
Definition wkb_visit {A} (body : bytes -> wgeom -> outcome (list A)) (a : carray wkbseq) : outcome (list A) :=
  let s := ca_value a in
  if bs_length s <? 0 then UB
  else wkb_collect (Z.to_nat (bs_length s)) 0 s (fun i => valid_index (ca_validity a) (i + bs_offset s)) body
                   fresh_parser fresh_geometry.
Definition wkb_array_vertices (dst : dim) (a : carray wkbseq) : outcome (list coord) :=
  wkb_visit (fun b g => geometry_vertices b dst g) a.
Definition wkb_array_edges (dst : dim) (a : carray wkbseq) : outcome (list (coord * coord)) :=
  wkb_visit (fun b g => geometry_edges b dst g) a.
(** wkb_util.hpp lines 596-598: Slice *)
Definition wkb_array_slice (a : carray wkbseq) (offset length : Z) : carray wkbseq :=
  let s := ca_value a in
  CArray (WkbSeq (bs_offset s + offset) length (bs_offsets s) (bs_data s)) (ca_validity a).
