(** * The C++ WKB parser: src/geoarrow/hpp/wkb_util.hpp

    Pointers into the blob are byte offsets from its start. [size_t] is 64 bits wide, so that the byte counts of
    lines 421 and 439 do not wrap. The C++ recursion of ParseGeometry has no depth limit; the size of the stack is not
    modelled. *)
From Verif Require Import Base TypesSpec GeomSpec CppCoordModel.
Local Open Scope Z_scope.

(** wkb_util.hpp lines 53-58: struct WKBSequence. [sq_data] is the offset of [data] in the blob. *)
Record wseq := WSeq { sq_data : Z; sq_length : N; sq_stride : N; sq_dims : N; sq_endian : N }.

(** wkb_util.hpp lines 181-262: class WKBGeometry. The vectors keep what earlier parses left behind the first
    num_sequences_ and num_geometries_ elements. *)
Inductive wgeom : Type :=
  WGeom (gtype dims srid : N) (sequences : list wseq) (num_sequences : N)
        (geometries : list wgeom) (num_geometries : N).

(** wkb_util.hpp line 183 *)
Definition srid_unset : N := 0xFFFFFFFF%N.

(** wkb_util.hpp lines 185-195: the public fields and accessors. sequences_[i] and geometries_[i] outside the
    vectors are not defined. *)
Definition wg_type (g : wgeom) : N := match g with WGeom t _ _ _ _ _ _ => t end.
Definition wg_dims (g : wgeom) : N := match g with WGeom _ d _ _ _ _ _ => d end.
Definition wg_srid (g : wgeom) : N := match g with WGeom _ _ s _ _ _ _ => s end.
Definition wg_sequences (g : wgeom) : list wseq := match g with WGeom _ _ _ q _ _ _ => q end.
Definition wg_num_sequences (g : wgeom) : N := match g with WGeom _ _ _ _ n _ _ => n end.
Definition wg_geometries (g : wgeom) : list wgeom := match g with WGeom _ _ _ _ _ c _ => c end.
Definition wg_num_geometries (g : wgeom) : N := match g with WGeom _ _ _ _ _ _ n => n end.
Definition wg_sequence (g : wgeom) (i : N) : option wseq := nth_error (wg_sequences g) (N.to_nat i).
Definition wg_geometry (g : wgeom) (i : N) : option wgeom := nth_error (wg_geometries g) (N.to_nat i).

(** Writing an element of a vector; [None] outside it. *)
Fixpoint replace_nth {A} (i : nat) (a : A) (l : list A) : option (list A) :=
  match l, i with
  | [], _ => None
  | _ :: r, O => Some (a :: r)
  | x :: r, S i' => match replace_nth i' a r with Some r' => Some (x :: r') | None => None end
  end.

(** wkb_util.hpp lines 231-237 and 484-492: AppendSequence, whose result NewSequenceAtCursor fills in completely.
    [push_back({})] makes room, so only the length matters. *)
Definition append_sequence (g : wgeom) (q : wseq) : outcome wgeom :=
  match g with
  | WGeom t d s qs nq gs ng =>
      let nq := wrap32 (nq + 1) in
      let qs := if (N.of_nat (length qs) <? nq)%N then qs ++ [WSeq 0 0 0 0 0] else qs in
      do qs <- or_ub (replace_nth (N.to_nat nq - 1) q qs);
      Ok (WGeom t d s qs nq gs ng)
  end.

(** wkb_util.hpp lines 239-245: AppendGeometry, first half: the new count, the vector with room for it, and the element
    to be parsed into. The counters of a fresh element are indeterminate in C++ and 0 here; ParseGeometry resets it
    before anything else. *)
Definition append_geometry (g : wgeom) : outcome (wgeom * wgeom) :=
  match g with
  | WGeom t d s qs nq gs ng =>
      let ng := wrap32 (ng + 1) in
      let gs := if (N.of_nat (length gs) <? ng)%N then gs ++ [WGeom 0 0 srid_unset [] 0 [] 0] else gs in
      do child <- or_ub (nth_error gs (N.to_nat ng - 1));
      Ok (WGeom t d s qs nq gs ng, child)
  end.

(** What the pointer returned by AppendGeometry points to after it has been written through. *)
Definition set_last_geometry (g : wgeom) (child : wgeom) : outcome wgeom :=
  match g with
  | WGeom t d s qs nq gs ng =>
      do gs <- or_ub (replace_nth (N.to_nat ng - 1) child gs);
      Ok (WGeom t d s qs nq gs ng)
  end.

(** wkb_util.hpp lines 247-253: Reset *)
Definition reset (g : wgeom) : wgeom :=
  match g with
  | WGeom _ _ _ qs _ gs _ => WGeom 0 0 srid_unset qs 0 gs 0
  end.

(** wkb_util.hpp lines 268-282: Status *)
Inductive status := OK | TOO_FEW_BYTES | TOO_MANY_BYTES | INVALID_ENDIAN | INVALID_GEOMETRY_TYPE.

(** wkb_util.hpp lines 331-337: the state of the parser *)
Record pstate := PState {
  ps_cursor : Z;
  ps_remaining : Z;
  ps_endian : N;
  ps_dims : N;
  ps_stride : N
}.

(** What a parsing function leaves: its status, the parser and the output. *)
Definition presult := (status * pstate * wgeom)%type.

(** wkb_util.hpp lines 341-344 *)
Definition kEWKBZ : N := 0x80000000%N.
Definition kEWKBM : N := 0x40000000%N.
Definition kEWKBSrid : N := 0x20000000%N.
Definition kEWKBMask : N := 0x00FFFFFF%N.

(** wkb_util.hpp lines 525-528: Advance *)
Definition advance (s : pstate) (n : Z) : pstate :=
  PState (ps_cursor s + n) (ps_remaining s - n) (ps_endian s) (ps_dims s) (ps_stride s).

(** wkb_util.hpp lines 494-500: CheckRemaining *)
Definition check_remaining (s : pstate) (n : Z) : status :=
  if n <=? ps_remaining s then OK else TOO_FEW_BYTES.

(** array_util.hpp lines 177-194: LoadIdentity and LoadSwapped on a little-endian host *)
Definition load (swapped : bool) (b : bytes) : N := if swapped then le_val (rev b) else le_val b.

Section Parser.
  (** The blob: a read outside it is not defined. *)
  Variable src : bytes.

  (** wkb_util.hpp lines 502-512: ReadEndianUnchecked *)
  Definition read_endian_unchecked (s : pstate) : outcome (status * pstate) :=
    do b <- or_ub (slice src (ps_cursor s) 1);
    let e := le_val b in
    let s := PState (ps_cursor s) (ps_remaining s) e (ps_dims s) (ps_stride s) in
    if (N.eqb e 1 || N.eqb e 0)%bool then Ok (OK, advance s 1) else Ok (INVALID_ENDIAN, s).

  (** wkb_util.hpp lines 514-523: ReadUInt32Unchecked *)
  Definition read_uint32_unchecked (s : pstate) : outcome (pstate * N) :=
    do b <- or_ub (slice src (ps_cursor s) 4);
    Ok (advance s 4, load (negb (N.eqb (ps_endian s) 1)) b).

  (** wkb_util.hpp lines 484-492: NewSequenceAtCursor *)
  Definition new_sequence_at_cursor (s : pstate) (out : wgeom) (size : N) : outcome wgeom :=
    append_sequence out (WSeq (ps_cursor s) size (ps_stride s) (ps_dims s) (ps_endian s)).

  (** wkb_util.hpp lines 420-430: ParsePoint *)
  Definition parse_point (s : pstate) (out : wgeom) : outcome presult :=
    let bytes_required := Z.of_N (ps_stride s * 8) in
    match check_remaining s bytes_required with
    | OK =>
        do out <- new_sequence_at_cursor s out 1;
        Ok (OK, advance s bytes_required, out)
    | e => Ok (e, s, out)
    end.

  (** wkb_util.hpp lines 432-448: ParseSequence *)
  Definition parse_sequence (s : pstate) (out : wgeom) : outcome presult :=
    match check_remaining s 4 with
    | OK =>
        do (s, size) <- read_uint32_unchecked s;
        let bytes_required := Z.of_N (8 * size * ps_stride s) in
        match check_remaining s bytes_required with
        | OK =>
            do out <- new_sequence_at_cursor s out size;
            Ok (OK, advance s bytes_required, out)
        | e => Ok (e, s, out)
        end
    | e => Ok (e, s, out)
    end.

  (** [for (uint32_t i = 0; i < size; ++i)] around a body that returns a status. The fuel is a bound on the number of
      iterations. *)
  Fixpoint parse_n (fuel : nat) (body : pstate -> wgeom -> outcome presult) (n : N) (s : pstate) (out : wgeom)
    : outcome presult :=
    if N.eqb n 0 then Ok (OK, s, out)
    else
      match fuel with
      | O => NoFuel
      | S f =>
          do (st, s, out) <- body s out;
          match st with
          | OK => parse_n f body (n - 1) s out
          | e => Ok (e, s, out)
          end
      end.

  (** wkb_util.hpp lines 450-465: ParsePolygon *)
  Definition parse_polygon (fuel : nat) (s : pstate) (out : wgeom) : outcome presult :=
    match check_remaining s 4 with
    | OK =>
        do (s, size) <- read_uint32_unchecked s;
        parse_n fuel parse_sequence size s out
    | e => Ok (e, s, out)
    end.

  (** wkb_util.hpp lines 467-482: ParseCollection; [geometry] is ParseGeometry. *)
  Definition parse_member (geometry : pstate -> wgeom -> outcome presult) (s : pstate) (out : wgeom)
    : outcome presult :=
    do (out, child) <- append_geometry out;
    do (st, s, child) <- geometry s child;
    do out <- set_last_geometry out child;
    Ok (st, s, out).
  Definition parse_collection (fuel : nat) (geometry : pstate -> wgeom -> outcome presult) (s : pstate) (out : wgeom)
    : outcome presult :=
    match check_remaining s 4 with
    | OK =>
        do (s, size) <- read_uint32_unchecked s;
        parse_n fuel (parse_member geometry) size s out
    | e => Ok (e, s, out)
    end.

  (** wkb_util.hpp lines 372-387: the dimensions a type word announces *)
  Definition word_has (w bit : N) : bool := negb (N.eqb (N.land w bit) 0).
  Definition word_z (w : N) : bool :=
    let k := (N.land w kEWKBMask / 1000)%N in
    if N.eqb k 1 then true else if N.eqb k 3 then true else word_has w kEWKBZ.
  Definition word_m (w : N) : bool :=
    let k := (N.land w kEWKBMask / 1000)%N in
    if N.eqb k 2 then true else if N.eqb k 3 then true else word_has w kEWKBM.
  (** lines 389-398: last_coord_stride_ and last_dimensions_ *)
  Definition word_stride (w : N) : N := (2 + (if word_z w then 1 else 0) + (if word_m w then 1 else 0))%N.
  Definition word_dims (w : N) : N :=
    if word_z w && word_m w then 4%N else if word_z w then 2%N else if word_m w then 3%N else 1%N.
  (** line 400 *)
  Definition word_type (w : N) : N := (N.land w kEWKBMask mod 1000)%N.

  Definition set_srid (g : wgeom) (x : N) : wgeom :=
    match g with WGeom t d _ qs nq gs ng => WGeom t d x qs nq gs ng end.
  Definition set_dims (g : wgeom) (x : N) : wgeom :=
    match g with WGeom t _ s qs nq gs ng => WGeom t x s qs nq gs ng end.
  Definition set_type (g : wgeom) (x : N) : wgeom :=
    match g with WGeom _ d s qs nq gs ng => WGeom x d s qs nq gs ng end.

  (** wkb_util.hpp lines 362-370: the embedded SRID *)
  Definition parse_srid (w : N) (s : pstate) (out : wgeom) : outcome presult :=
    if word_has w kEWKBSrid then
      match check_remaining s 4 with
      | OK =>
          do (s, srid) <- read_uint32_unchecked s;
          Ok (OK, s, set_srid out srid)
      | e => Ok (e, s, out)
      end
    else Ok (OK, s, out).

  (** wkb_util.hpp lines 346-418: ParseGeometry *)
  Fixpoint parse_geometry (fuel : nat) (s : pstate) (out : wgeom) : outcome presult :=
    match fuel with
    | O => NoFuel
    | S f =>
        let out := reset out in
        match check_remaining s 5 with
        | OK =>
            do (st, s) <- read_endian_unchecked s;
            match st with
            | OK =>
                do (s, w) <- read_uint32_unchecked s;
                do (st, s, out) <- parse_srid w s out;
                match st with
                | OK =>
                    let s := PState (ps_cursor s) (ps_remaining s) (ps_endian s) (word_dims w) (word_stride w) in
                    let out := set_dims out (word_dims w) in
                    let t := word_type w in
                    if N.eqb t 1 then parse_point s (set_type out t)
                    else if N.eqb t 2 then parse_sequence s (set_type out t)
                    else if N.eqb t 3 then parse_polygon f s (set_type out t)
                    else if (N.eqb t 4 || N.eqb t 5 || N.eqb t 6 || N.eqb t 7)%bool
                    then parse_collection f (parse_geometry f) s (set_type out t)
                    else Ok (INVALID_GEOMETRY_TYPE, s, out)
                | e => Ok (e, s, out)
                end
            | e => Ok (e, s, out)
            end
        | e => Ok (e, s, out)
        end
    end.

  (** wkb_util.hpp lines 294-312: Parse(data, size, out, cursor), where the [size] bytes at [data] are the blob. The
      cursor is set when the geometry was parsed. [s0] is what the previous call left in the parser. *)
  Definition parse (s0 : pstate) (out : wgeom) : outcome (status * option Z * pstate * wgeom) :=
    let s := PState 0 (Z.of_nat (length src)) (ps_endian s0) (ps_dims s0) (ps_stride s0) in
    do (st, s, out) <- parse_geometry (S (length src)) s out;
    match st with
    | OK =>
        if ps_cursor s <? Z.of_nat (length src) then Ok (TOO_MANY_BYTES, Some (ps_cursor s), s, out)
        else Ok (OK, Some (ps_cursor s), s, out)
    | e => Ok (e, None, s, out)
    end.
End Parser.

(** wkb_util.hpp lines 287-290: Parse(view, out, cursor). [static_cast<uint32_t>] of the size: only that many bytes
    are parsed. *)
Definition parse_view (blob : bytes) (s0 : pstate) (out : wgeom) : outcome (status * option Z * pstate * wgeom) :=
  parse (firstn (N.to_nat (wrap32 (N.of_nat (length blob)))) blob) s0 out.

(** ** Iterating over the parsed geometry *)

Section Visit.
  Variable src : bytes.

  (** Running [f] for [i] = [i0], [i0] + 1, ..., [n] times. *)
  Fixpoint for_each {A} (f : N -> outcome (list A)) (i0 : N) (n : nat) : outcome (list A) :=
    match n with
    | O => Ok []
    | S n' =>
        do a <- f i0;
        do b <- for_each f (i0 + 1) n';
        Ok (a ++ b)
    end.

  (** array_util.hpp lines 733-751 and 768-774 (UnalignedCoordSequence::InitInterleaved and coord), for the coordinate
      type of dimensions [d] and a sequence whose values[j] is [data + 8 j]. *)
  Fixpoint unaligned_values (swapped : bool) (data stride_bytes i : Z) (j k : nat) : outcome coord :=
    match k with
    | O => Ok []
    | S k' =>
        do b <- or_ub (slice src (data + Z.of_nat j * 8 + i * stride_bytes) 8);
        do r <- unaligned_values swapped data stride_bytes i (S j) k';
        Ok (load swapped b :: r)
    end.
  Definition unaligned_coord (swapped : bool) (d : dim) (data stride_bytes i : Z) : outcome coord :=
    unaligned_values swapped data stride_bytes i 0 (coord_size d).

  (** array_util.hpp lines 797-802: VisitVertices<CoordDst> *)
  Definition unaligned_vertices (swapped : bool) (d dst : dim) (data stride_bytes : Z) (length : N)
    : outcome (list coord) :=
    for_each (fun i => do c <- unaligned_coord swapped d data stride_bytes (Z.of_N i); Ok [coord_cast d dst c])
             0 (N.to_nat length).

  (** array_util.hpp lines 809-825: VisitEdges<CoordDst>; the loop starts at coordinate [i] with [start]. *)
  Fixpoint unaligned_edges_from (swapped : bool) (d dst : dim) (data stride_bytes : Z) (start : coord) (i : N) (n : nat)
    : outcome (list (coord * coord)) :=
    match n with
    | O => Ok []
    | S n' =>
        do c <- unaligned_coord swapped d data stride_bytes (Z.of_N i);
        let finish := coord_cast d dst c in
        do r <- unaligned_edges_from swapped d dst data stride_bytes finish (i + 1) n';
        Ok ((start, finish) :: r)
    end.
  Definition unaligned_edges (swapped : bool) (d dst : dim) (data stride_bytes : Z) (length : N)
    : outcome (list (coord * coord)) :=
    if (length <? 2)%N then Ok []
    else
      do c <- unaligned_coord swapped d data stride_bytes 0;
      unaligned_edges_from swapped d dst data stride_bytes (coord_cast d dst c) 1 (N.to_nat length - 1).

  (** wkb_util.hpp lines 83-100 and 108-125: the dispatch on [dimensions]. The exception is [None]. *)
  Definition dims_type (dims : N) : option dim :=
    if N.eqb dims 1 then Some XY else if N.eqb dims 2 then Some XYZ
    else if N.eqb dims 3 then Some XYM else if N.eqb dims 4 then Some XYZM else None.

  (** The exception thrown for unknown dimensions, as an error code of its own (no function returns it). *)
  Definition THROWN : Z := -1.

  (** wkb_util.hpp lines 82-100 and 128-143: WKBSequence::VisitVertices *)
  Definition sequence_vertices (dst : dim) (q : wseq) : outcome (list coord) :=
    match dims_type (sq_dims q) with
    | Some d => unaligned_vertices (negb (N.eqb (sq_endian q) 1)) d dst (sq_data q) (Z.of_N (sq_stride q) * 8)
                                   (sq_length q)
    | None => Err THROWN
    end.
  (** wkb_util.hpp lines 107-125 and 145-160: WKBSequence::VisitEdges *)
  Definition sequence_edges (dst : dim) (q : wseq) : outcome (list (coord * coord)) :=
    match dims_type (sq_dims q) with
    | Some d => unaligned_edges (negb (N.eqb (sq_endian q) 1)) d dst (sq_data q) (Z.of_N (sq_stride q) * 8)
                                (sq_length q)
    | None => Err THROWN
    end.

  (** The loops over the first [n] sequences or geometries. *)
  Fixpoint first_n {A B} (f : A -> outcome (list B)) (l : list A) (n : nat) : outcome (list B) :=
    match n, l with
    | O, _ => Ok []
    | S _, [] => UB
    | S n', a :: r =>
        do x <- f a;
        do y <- first_n f r n';
        Ok (x ++ y)
    end.

  (** wkb_util.hpp lines 198-207: WKBGeometry::VisitVertices. The second loop is written out because the recursion goes
      through the vector of geometries. *)
  Fixpoint geometry_vertices (dst : dim) (g : wgeom) : outcome (list coord) :=
    match g with
    | WGeom _ _ _ qs nq gs ng =>
        do a <- first_n (sequence_vertices dst) qs (N.to_nat nq);
        do b <- (fix go (l : list wgeom) (n : nat) : outcome (list coord) :=
                   match n, l with
                   | O, _ => Ok []
                   | S _, [] => UB
                   | S n', c :: r =>
                       do x <- geometry_vertices dst c;
                       do y <- go r n';
                       Ok (x ++ y)
                   end) gs (N.to_nat ng);
        Ok (a ++ b)
    end.

  (** wkb_util.hpp lines 212-228: WKBGeometry::VisitEdges *)
  Fixpoint geometry_edges (dst : dim) (g : wgeom) : outcome (list (coord * coord)) :=
    match g with
    | WGeom t _ _ qs nq gs ng =>
        if (N.eqb t 1 || N.eqb t 4)%bool then
          do vs <- geometry_vertices dst g;
          Ok (map (fun v => (v, v)) vs)
        else
          do a <- first_n (sequence_edges dst) qs (N.to_nat nq);
          do b <- (fix go (l : list wgeom) (n : nat) : outcome (list (coord * coord)) :=
                     match n, l with
                     | O, _ => Ok []
                     | S _, [] => UB
                     | S n', c :: r =>
                         do x <- geometry_edges dst c;
                         do y <- go r n';
                         Ok (x ++ y)
                     end) gs (N.to_nat ng);
          Ok (a ++ b)
    end.
End Visit.
