(** * Visiting geometry nodes: src/geoarrow/geometry.c lines 409-527 *)
From Verif Require Import Base TypesModel NodesModel GeomSpec VisitorModel.
Local Open Scope Z_scope.

(** One row of the copy loop of geoarrow_type_inline.h lines 478-484: [k] values from column [j] on, at
    [coords[j] + i * coord_stride[j]]. *)
Fixpoint node_row (m : mem) (nd : node) (i : Z) (j k : nat) : outcome (list N) :=
  match k with
  | O => Ok []
  | S k' =>
      do p <- or_ub (qget (nd_coords nd) j);
      do s <- or_ub (qget (nd_stride nd) j);
      do w <- or_ub (load64 m (ptr_add p (i * s)));
      do r <- node_row m nd i (S j) k';
      Ok (w :: r)
  end.

Fixpoint node_rows (m : mem) (nd : node) (i : Z) (n : nat) (k : nat) : outcome (list (list N)) :=
  match n with
  | O => Ok []
  | S n' =>
      do r <- node_row m nd i 0 k;
      do rs <- node_rows m nd (i + 1) n' k;
      Ok (r :: rs)
  end.

(** geoarrow_type_inline.h lines 465-496: GeoArrowGeometryNodeWriteSequence. The result is bytes_required and the words
    written ([None]: nothing was written because [dst_size] is too small). bytes_required is computed with a uint32_t
    product; a copy that exceeds [dst_size] is [UB]. Simplification: the copied words are produced row by row in one
    list instead of being stored through [dst]. *)
Definition write_sequence (m : mem) (nd : node) (dst_size : Z) : outcome (Z * option (list N)) :=
  do n_values <- or_ub (num_dimensions (Z.of_N (nd_dims nd)));
  let n_values := Z.to_N (n_values mod 4294967296) in
  let n_coords := nd_size nd in
  let bytes_required := Z.of_N (wrap32 (n_values * n_coords) * 8) in
  if dst_size <? bytes_required then Ok (bytes_required, None)
  else if dst_size <? Z.of_N (n_values * n_coords) * 8 then UB
  else
    do rows <- node_rows m nd 0 (N.to_nat n_coords) (N.to_nat n_values);
    let words := concat rows in
    let unswapped := (length words - Z.to_nat (bytes_required / 8))%nat in
    Ok (bytes_required,
        Some (if nd_swap nd then firstn unswapped words ++ map bswap64 (skipn unswapped words) else words)).

(** geometry.c line 410 *)
Definition COORD_CACHE_SIZE_ELEMENTS : Z := 384.

(** geometry.c lines 415-421: what the visitor sees through coord_view, [n] coordinates of [k] values with
    coords_stride [k] *)
Definition view_coords (words : list N) (n k : nat) : list coord :=
  map (fun i => firstn k (skipn (i * k) words)) (seq 0 n).

(** geometry.c lines 433-441 and 444-447: copy [n] coordinates of the cursor into the cache and hand them on *)
Definition visit_chunk (m : mem) (cursor : node) (n : N) (n_values : N) : prog unit :=
  let! (_, written) := Ret (write_sequence m
      {| nd_coords := nd_coords cursor; nd_stride := nd_stride cursor; nd_size := n; nd_type := nd_type cursor;
         nd_dims := nd_dims cursor; nd_swap := nd_swap cursor; nd_level := nd_level cursor |}
      (COORD_CACHE_SIZE_ELEMENTS * 8)) in
  let! words := Ret (or_ub written) in
  emit (ECoords n_values (view_coords words (N.to_nat n) (N.to_nat n_values))).

(** geometry.c lines 437-439: advance the cursor by [n] coordinates *)
Fixpoint advance_cursor (k j : nat) (n : Z) (cursor : node) : node :=
  match k with
  | O => cursor
  | S k' =>
      match qget (nd_coords cursor) j, qget (nd_stride cursor) j with
      | Some p, Some s =>
          advance_cursor k' (S j) n
            {| nd_coords := qset (nd_coords cursor) j (ptr_add p (n * s)); nd_stride := nd_stride cursor;
               nd_size := nd_size cursor; nd_type := nd_type cursor; nd_dims := nd_dims cursor;
               nd_swap := nd_swap cursor; nd_level := nd_level cursor |}
      | _, _ => cursor
      end
  end.

(** geometry.c lines 432-447 *)
Fixpoint visit_chunks (fuel : nat) (m : mem) (cursor : node) (n_coords chunk : Z) (n_values : N) : prog unit :=
  if chunk <? n_coords then
    match fuel with
    | O => Ret NoFuel
    | S f =>
        run! visit_chunk m cursor (Z.to_N chunk) n_values in
        visit_chunks f m (advance_cursor (N.to_nat n_values) 0 chunk cursor) (n_coords - chunk) chunk n_values
    end
  else visit_chunk m cursor (Z.to_N n_coords) n_values.

(** geometry.c lines 412-448: GeoArrowGeometryVisitSequence. For dimensions UNKNOWN (0) n_values is -1, chunk_size -384,
    and the first copy reads src[4] and beyond: [UB]. *)
Definition visit_sequence (m : mem) (nd : node) : prog unit :=
  let! n_values := Ret (or_ub (num_dimensions (Z.of_N (nd_dims nd)))) in
  if n_values <? 0 then Ret UB
  else
    let chunk := COORD_CACHE_SIZE_ELEMENTS / n_values in
    let n_coords := Z.of_N (nd_size nd) in
    visit_chunks (Z.to_nat (n_coords / chunk)) m nd n_coords chunk (Z.to_N n_values).

(** A loop [for (uint32_t i = 0; i < n; i++)] with a state; the fuel bounds the iterations. *)
Fixpoint ploop {St} (fuel : nat) (n : N) (body : St -> prog St) (s : St) : prog St :=
  if N.eqb n 0 then Ret (Ok s)
  else
    match fuel with
    | O => Ret NoFuel
    | S f => let! s' := body s in ploop f (n - 1) body s'
    end.

Section Visit.
  Variable m : mem.
  (** geometry.root .. geometry.root + size_nodes; an access outside is [UB]. *)
  Variable nodes : list node.

  Definition get_node (i : Z) : outcome node :=
    if i <? 0 then UB else or_ub (nth_error nodes (Z.to_nat i)).

  (** geometry.c lines 467-471: one ring of the polygon at [i]; the state is the index of the ring node. *)
  Definition visit_ring (i : Z) : prog Z :=
    run! emit ERingStart in
    let! nd := Ret (get_node i) in
    run! visit_sequence m nd in
    run! emit ERingEnd in
    Ret (Ok (i + 1)).

  (** geometry.c lines 450-497: GeoArrowGeometryVisitNode. [i] is [node - root], [n] is *n_nodes on entry; the result is
      *n_nodes on exit. Lines 453-455 set an error message but do not return. *)
  Fixpoint visit_node (fuel : nat) (i : Z) (n : Z) : prog Z :=
    match fuel with
    | O => Ret NoFuel
    | S f =>
        let n := n - 1 in
        let! nd := Ret (get_node i) in
        run! emit (EGeomStart (nd_type nd) (nd_dims nd)) in
        let! n :=
          (if (N.eqb (nd_type nd) 1 || N.eqb (nd_type nd) 2)%bool then
             run! visit_sequence m nd in
             Ret (Ok n)
           else if N.eqb (nd_type nd) 3 then
             if n <? Z.of_N (nd_size nd) then Ret (Err EINVAL)
             else
               run! ploop (length nodes) (nd_size nd) visit_ring (i + 1) in
               Ret (Ok (n - Z.of_N (nd_size nd)))
           else if (N.eqb (nd_type nd) 4 || N.eqb (nd_type nd) 5 || N.eqb (nd_type nd) 6 || N.eqb (nd_type nd) 7)%bool then
             let! (_, n) := ploop (length nodes) (nd_size nd)
                 (fun st : Z * Z =>
                    let (child, n) := st in
                    let! n' := visit_node f child n in
                    Ret (Ok (child + (n - n'), n')))
                 (i + 1, n) in
             Ret (Ok n)
           else Ret (Err EINVAL)) in
        run! emit EGeomEnd in
        Ret (Ok n)
    end.

  (** geometry.c lines 499-512: GeoArrowGeometryViewVisit (and lines 514-527, GeoArrowGeometryVisit, which differ only in
      where root and size_nodes come from). The fuel exceeds the number of nodes. *)
  Definition view_visit : prog unit :=
    run! emit EFeatStart in
    let! n := visit_node (S (length nodes)) 0 (Z.of_nat (length nodes)) in
    if negb (n =? 0) then Ret (Err EINVAL)
    else emit EFeatEnd.
End Visit.

(** src/geoarrow/wkb_reader.c lines 235-242: GeoArrowWKBReaderVisit *)
From Verif Require Import WkbReaderModel.
Definition wkb_visit (src : bytes) (swap0 : bool) : prog unit :=
  let! nodes := Ret (wkb_read_from src swap0) in
  view_visit (wkb_mem src) nodes.
