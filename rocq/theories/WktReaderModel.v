(** * The WKT reader: src/geoarrow/wkt_reader.c *)
From Verif Require Import Base Text GeomSpec VisitorModel.
Local Open Scope Z_scope.

(** wkt_reader.c lines 11-17: struct WKTReaderPrivate. [r_rest] is the text from data to the end of the source, [r_before] the
    text from its start to data, last byte first; [r_size] is size_bytes. [r_nvals] is coord_view.n_values and [r_cache] the
    n_coords coordinates in the cache ([None] while n_coords is unset). Simplification: the cache is a list of coordinates
    instead of four columns of 64 numbers; adding a 65th coordinate is [UB]. *)
Record rst := RState {
  r_before : bytes;
  r_rest : bytes;
  r_size : Z;
  r_nvals : N;
  r_cache : option (list coord)
}.
Definition rmove (s : rst) (before rest : bytes) (size : Z) : rst :=
  {| r_before := before; r_rest := rest; r_size := size; r_nvals := r_nvals s; r_cache := r_cache s |}.
Definition rset_nvals (s : rst) (n : N) : rst :=
  {| r_before := r_before s; r_rest := r_rest s; r_size := r_size s; r_nvals := n; r_cache := r_cache s |}.
Definition rset_cache (s : rst) (c : list coord) : rst :=
  {| r_before := r_before s; r_rest := r_rest s; r_size := r_size s; r_nvals := r_nvals s; r_cache := Some c |}.

(** The characters that the reader tests for. *)
Definition chr_open : N := 40.
Definition chr_close : N := 41.
Definition chr_comma : N := 44.
Definition chr_E : N := 69.
(** wkt_reader.c line 27 (and 102-103): space, tab, newline, carriage return *)
Definition is_space (c : N) : bool := ((c =? 32) || (c =? 9) || (c =? 10) || (c =? 13))%N.
(** wkt_reader.c line 58: the separators " \n\t\r,()" *)
Definition is_sep (c : N) : bool := (is_space c || (c =? chr_comma) || (c =? chr_open) || (c =? chr_close))%N.

(** wkt_reader.c lines 19-22: GeoArrowWKTAdvanceUnsafe. Moving data beyond the end of the source is [UB]. *)
Definition radvance (s : rst) (n : nat) : outcome rst :=
  if (n <=? length (r_rest s))%nat
  then Ok (rmove s (rev (firstn n (r_rest s)) ++ r_before s) (skipn n (r_rest s)) (r_size s - Z.of_nat n))
  else UB.

(** wkt_reader.c lines 24-34: GeoArrowWKTSkipWhitespace. Looking at a byte outside the source is [UB]. *)
Fixpoint skip_space_from (s : rst) (before rest : bytes) (size : Z) : outcome rst :=
  if 0 <? size then
    match rest with
    | [] => UB
    | c :: r => if is_space c then skip_space_from s (c :: before) r (size - 1) else Ok (rmove s before rest size)
    end
  else Ok (rmove s before rest size).
Definition skip_space (s : rst) : outcome rst := skip_space_from s (r_before s) (r_rest s) (r_size s).

(** wkt_reader.c lines 36-59: GeoArrowWKTSkipUntilSep: stops at a separator, a NUL or after [size] bytes. The result is the
    number of bytes passed. *)
Fixpoint until_sep (rest : bytes) (size : Z) : outcome nat :=
  if 0 <? size then
    match rest with
    | [] => UB
    | c :: r => if ((c =? 0) || is_sep c)%N then Ok O else do n <- until_sep r (size - 1); Ok (S n)
    end
  else Ok O.

(** wkt_reader.c lines 61-67: PeekChar *)
Definition peek (s : rst) : outcome N :=
  if 0 <? r_size s then match r_rest s with [] => UB | c :: _ => Ok c end else Ok 0%N.

(** wkt_reader.c lines 69-79: GeoArrowWKTPeekUntilSep *)
Definition peek_word (s : rst) (max_chars : Z) : outcome bytes :=
  do n <- until_sep (r_rest s) (if max_chars <? r_size s then max_chars else r_size s);
  Ok (firstn n (r_rest s)).

(** wkt_reader.c lines 88-98: GeoArrowWKTAssertChar. Lines 81-86, which only set a message, are left out. *)
Definition assert_char (s : rst) (c : N) : outcome rst :=
  do p <- (if 0 <? r_size s then match r_rest s with [] => UB | x :: _ => Ok (x =? c)%N end else Ok false);
  if (p : bool) then radvance s 1 else Err EINVAL.

(** wkt_reader.c lines 100-110: GeoArrowWKTAssertWhitespace *)
Definition assert_space (s : rst) : outcome rst :=
  do p <- (if 0 <? r_size s then match r_rest s with [] => UB | x :: _ => Ok (is_space x) end else Ok false);
  if (p : bool) then skip_space s else Err EINVAL.

(** Comparing a word: [word.size_bytes == strlen(w) && strncmp(word.data, w, strlen(w)) == 0] *)
Definition word_is (word w : bytes) : bool := if list_eq_dec N.eq_dec word w then true else false.

(** wkt_reader.c lines 112-122: GeoArrowWKTAssertWordEmpty *)
Definition assert_empty (s : rst) : outcome rst :=
  do word <- peek_word s 6;
  if word_is word $"EMPTY" then radvance s 5 else Err EINVAL.

Section Parser.
(** GeoArrowFromChars (src/geoarrow/double_parse_std.c): the double (as a 64-bit pattern) that a text denotes, if any. *)
Variable parse : bytes -> option N.

(** wkt_reader.c lines 124-136: ReadOrdinate *)
Definition read_ordinate (s : rst) : outcome (N * rst) :=
  do n <- until_sep (r_rest s) (r_size s);
  do s' <- radvance s n;
  match parse (firstn n (r_rest s)) with
  | Some w => Ok (w, s')
  | None => Err EINVAL
  end.

(** wkt_reader.c lines 138-140: ResetCoordCache *)
Definition reset_cache (s : rst) : rst := rset_cache s [].

(** wkt_reader.c lines 142-150: FlushCoordCache *)
Definition flush_cache (s : rst) : prog rst :=
  match r_cache s with
  | None => Ret UB
  | Some [] => Ret (Ok s)
  | Some cs => run! emit (ECoords (r_nvals s) cs) in Ret (Ok (rset_cache s []))
  end.

(** wkt_reader.c line 9 *)
Definition COORD_CACHE_SIZE_COORDS : nat := 64.

(** wkt_reader.c lines 159-163: the ordinates after the first *)
Fixpoint read_ordinates (k : nat) (s : rst) : outcome (list N * rst) :=
  match k with
  | O => Ok ([], s)
  | S k' =>
      do s <- assert_space s;
      do (w, s) <- read_ordinate s;
      do (ws, s) <- read_ordinates k' s;
      Ok (w :: ws, s)
  end.

(** wkt_reader.c lines 152-167: ReadCoordinate *)
Definition read_coordinate (s : rst) : prog rst :=
  let! cs := Ret (or_ub (r_cache s)) in
  let! s := (if (length cs =? COORD_CACHE_SIZE_COORDS)%nat then flush_cache s else Ret (Ok s)) in
  let! (w, s) := Ret (read_ordinate s) in
  let! (ws, s) := Ret (read_ordinates (N.to_nat (r_nvals s) - 1) s) in
  let! cs := Ret (or_ub (r_cache s)) in
  if (COORD_CACHE_SIZE_COORDS <=? length cs)%nat then Ret UB
  else Ret (Ok (rset_cache s (cs ++ [w :: ws]))).

(** The loop [while (PeekChar(s) != ')')] that all lists share: wkt_reader.c lines 183-189 (coordinates), 214-224 (flat
    multipoints), 261-269 (rings), 300-308, 333-342, 365-374 and 398-404 (members). The fuel bounds the iterations. *)
Fixpoint more_items (fuel : nat) (item : rst -> prog rst) (s : rst) : prog rst :=
  let! c := Ret (peek s) in
  if (c =? chr_close)%N then Ret (Ok s)
  else
    match fuel with
    | O => Ret NoFuel
    | S f =>
        let! s := Ret (skip_space s) in
        let! s := Ret (assert_char s chr_comma) in
        let! s := Ret (skip_space s) in
        let! s := item s in
        let! s := Ret (skip_space s) in
        more_items f item s
    end.
Definition items_fuel (s : rst) : nat := S (length (r_rest s)).

(** The common start of lines 171-174, 249-252, 280-283, 320-323, 353-356, 388-391 and their ends (lines 197, 275, ...): [list]
    after an opening parenthesis and whitespace, or else the word EMPTY. *)
Definition empty_or (list : rst -> prog rst) (s : rst) : prog rst :=
  let! s := Ret (skip_space s) in
  let! c := Ret (peek s) in
  if (c =? chr_open)%N then
    let! s := Ret (radvance s 1) in
    let! s := Ret (skip_space s) in
    list s
  else Ret (assert_empty s).

(** Lines 254-272, 293-311, 325-345, 358-377 and 393-407: a first item, more items, and the closing parenthesis *)
Definition read_items (item : rst -> prog rst) (s : rst) : prog rst :=
  let! s := item s in
  let! s := Ret (skip_space s) in
  let! s := more_items (items_fuel s) item s in
  Ret (radvance s 1).

(** wkt_reader.c lines 169-198: ReadEmptyOrCoordinates *)
Definition read_coordinates (s : rst) : prog rst :=
  empty_or (fun s =>
    let! s := read_coordinate (reset_cache s) in
    let! s := Ret (skip_space s) in
    let! s := more_items (items_fuel s) read_coordinate s in
    let! s := flush_cache s in
    Ret (radvance s 1)) s.

(** wkt_reader.c lines 206-210 and 218-222: a point of a flat multipoint *)
Definition flat_point (d : N) (s : rst) : prog rst :=
  run! emit (EGeomStart 1 d) in
  let! s := read_coordinate (reset_cache s) in
  let! s := flush_cache s in
  run! emit EGeomEnd in
  Ret (Ok s).

(** wkt_reader.c lines 200-228: ReadMultipointFlat *)
Definition read_multipoint_flat (d : N) (s : rst) : prog rst :=
  let! s := Ret (assert_char s chr_open) in
  read_items (flat_point d) s.

(** wkt_reader.c lines 230-246: ReadEmptyOrPointCoordinate *)
Definition read_point (s : rst) : prog rst :=
  empty_or (fun s =>
    let! s := read_coordinate (reset_cache s) in
    let! s := flush_cache s in
    let! s := Ret (skip_space s) in
    Ret (assert_char s chr_close)) s.

(** wkt_reader.c lines 255-257 and 265-267: a ring *)
Definition read_ring (s : rst) : prog rst :=
  run! emit ERingStart in
  let! s := read_coordinates s in
  run! emit ERingEnd in
  Ret (Ok s).

(** wkt_reader.c lines 248-276: ReadPolygon *)
Definition read_polygon (s : rst) : prog rst := empty_or (read_items read_ring) s.

(** A member of type [t]: wkt_reader.c lines 294-296 and 304-306 (points), 326-329 and 337-340 (linestrings), 359-361 and
    369-372 (polygons) *)
Definition read_member (t d : N) (body : rst -> prog rst) (s : rst) : prog rst :=
  run! emit (EGeomStart t d) in
  let! s := body s in
  run! emit EGeomEnd in
  Ret (Ok s).

(** wkt_reader.c lines 288-289: s->data--; s->size_bytes++ *)
Definition step_back (s : rst) : outcome rst :=
  match r_before s with
  | [] => UB
  | c :: b => Ok (rmove s b (c :: r_rest s) (r_size s + 1))
  end.

(** wkt_reader.c lines 278-315: ReadMultipoint *)
Definition read_multipoint (d : N) (s : rst) : prog rst :=
  empty_or (fun s =>
    let! c := Ret (peek s) in
    if negb (c =? chr_open)%N && negb (c =? chr_E)%N then
      let! s := Ret (step_back s) in
      read_multipoint_flat d s
    else read_items (read_member 1 d read_point) s) s.

(** wkt_reader.c lines 317-349: ReadMultilinestring *)
Definition read_multilinestring (d : N) (s : rst) : prog rst := empty_or (read_items (read_member 2 d read_coordinates)) s.

(** wkt_reader.c lines 351-381: ReadMultipolygon *)
Definition read_multipolygon (d : N) (s : rst) : prog rst := empty_or (read_items (read_member 3 d read_polygon)) s.

(** wkt_reader.c lines 417-436: the geometry type of a tag; [None]: EINVAL *)
Definition type_of_word (word : bytes) : option N :=
  if word_is word $"POINT" then Some 1%N
  else if word_is word $"LINESTRING" then Some 2%N
  else if word_is word $"POLYGON" then Some 3%N
  else if word_is word $"MULTIPOINT" then Some 4%N
  else if word_is word $"MULTILINESTRING" then Some 5%N
  else if word_is word $"MULTIPOLYGON" then Some 6%N
  else if word_is word $"GEOMETRYCOLLECTION" then Some 7%N
  else None.

(** wkt_reader.c lines 441-456: dimensions, n_values and the length of the dimensions word *)
Definition dims_of_word (word : bytes) : N * N * nat :=
  if word_is word $"Z" then (2, 3, 1%nat)%N
  else if word_is word $"M" then (3, 3, 1%nat)%N
  else if word_is word $"ZM" then (4, 4, 2%nat)%N
  else (1, 2, O)%N.

(** wkt_reader.c lines 413-488: ReadTaggedGeometry, and 386-411: ReadGeometryCollection (in the last branch). The fuel bounds
    the recursion. The C stack that the recursion needs is not modelled. *)
Fixpoint read_tagged (fuel : nat) (s : rst) : prog rst :=
  match fuel with
  | O => Ret NoFuel
  | S f =>
      let! s := Ret (skip_space s) in
      let! word := Ret (peek_word s 19) in
      match type_of_word word with
      | None => Ret (Err EINVAL)
      | Some t =>
          let! s := Ret (radvance s (length word)) in
          let! s := Ret (skip_space s) in
          let! word := Ret (peek_word s 3) in
          let '(d, n_values, k) := dims_of_word word in
          let! s := Ret (radvance (rset_nvals s n_values) k) in
          run! emit (EGeomStart t d) in
          let! s :=
            (if (t =? 1)%N then read_point s
             else if (t =? 2)%N then read_coordinates s
             else if (t =? 3)%N then read_polygon s
             else if (t =? 4)%N then read_multipoint d s
             else if (t =? 5)%N then read_multilinestring d s
             else if (t =? 6)%N then read_multipolygon d s
             else empty_or (read_items (read_tagged f)) s) in
          run! emit EGeomEnd in
          Ret (Ok s)
      end
  end.

(** wkt_reader.c lines 516-534: GeoArrowWKTReaderVisit. [s0] is the reader as an earlier visit (or Init) left it. *)
Definition wkt_visit (s0 : rst) (src : bytes) : prog unit :=
  let s := rmove s0 [] src (Z.of_nat (length src)) in
  run! emit EFeatStart in
  let! s := read_tagged (S (length src)) s in
  run! emit EFeatEnd in
  let! s := Ret (skip_space s) in
  let! c := Ret (peek s) in
  if (c =? 0)%N then Ret (Ok tt) else Ret (Err EINVAL).
End Parser.

(** wkt_reader.c lines 490-510: GeoArrowWKTReaderInit *)
Definition wkt_reader_init : rst := {| r_before := []; r_rest := []; r_size := 0; r_nvals := 0; r_cache := None |}.
