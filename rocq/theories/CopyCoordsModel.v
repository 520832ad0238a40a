(** * Counting and copying the coordinates of a node list *)
From Verif Require Import Base TypesModel NodesModel CoordsModel.
Local Open Scope Z_scope.

(** The two geometry types whose nodes carry coordinates: the [case] labels shared by the loops below. *)
Definition is_sequence (ty : N) : bool := (N.eqb ty 1 || N.eqb ty 2)%bool.

(** geoarrow_type_inline.h lines 446-461: GeoArrowGeometryViewNumCoords; the count is a uint32_t. *)
Fixpoint num_coords_from (count : N) (nodes : list node) : N :=
  match nodes with
  | [] => count
  | nd :: r => num_coords_from (if is_sequence (nd_type nd) then wrap32 (count + nd_size nd) else count) r
  end.
Definition num_coords (nodes : list node) : N := num_coords_from 0 nodes.

(** geoarrow_type_inline.h lines 512-516 and 532-542: src[map[i] + 1] and src_strides[map[i] + 1]. Entry 0 is the NaN
    constant with stride 0. *)
Definition mapped_source (nd : node) (from : Z) : outcome (ptr * Z) :=
  if from =? -1 then Ok (nan_ptr, 0)
  else
    do p <- or_ub (qget (nd_coords nd) (Z.to_nat from));
    do s <- or_ub (qget (nd_stride nd) (Z.to_nat from));
    Ok (p, s).

(** geoarrow_type_inline.h lines 545-560: [n] values of one column, from [p] on in steps of [s] bytes, to [out] on in
    steps of [os]. Both branches of the test of the swap flag. Simplification: the destination is addressed in units of
    sizeof(double) (every caller passes strides that are multiples of it) and cannot overlap the source, as it is a
    different memory. *)
Fixpoint copy_values (n : nat) (m : mem) (swap : bool) (p : ptr) (s : Z) (out : daddr) (os : Z) (dm : dmem)
  : outcome (daddr * dmem) :=
  match n with
  | O => Ok (out, dm)
  | S n' =>
      do w <- or_ub (load64 m p);
      do dm <- dstore dm out (if swap then bswap64 w else w);
      copy_values n' m swap (ptr_add p s) s (fst out, snd out + os) os dm
  end.

(** geoarrow_type_inline.h lines 540-561: [for (i < out_dimensions_size)], [k] columns from column [i] on; the state is
    out_cursor and the destination memory. *)
Fixpoint copy_node_columns (k i : nat) (m : mem) (nd : node) (map : quad Z) (os : quad Z) (cur : quad daddr) (dm : dmem)
  : outcome (quad daddr * dmem) :=
  match k with
  | O => Ok (cur, dm)
  | S k' =>
      do from <- or_ub (qget map i);
      do (p, s) <- mapped_source nd from;
      do out <- or_ub (qget cur i);
      do ostride <- or_ub (qget os i);
      do (out, dm) <- copy_values (N.to_nat (nd_size nd)) m (nd_swap nd) p s out ostride dm;
      copy_node_columns k' (S i) m nd map os (qset cur i out) dm
  end.

(** geoarrow_type_inline.h lines 526-570: the loop over the nodes *)
Fixpoint copy_nodes (m : mem) (nodes : list node) (os : quad Z) (out_dims : Z) (n_out : nat) (cur : quad daddr) (dm : dmem)
  : outcome dmem :=
  match nodes with
  | [] => Ok dm
  | nd :: r =>
      if is_sequence (nd_type nd) then
        do (cur, dm) <- copy_node_columns n_out 0 m nd (map_dimensions (Z.of_N (nd_dims nd)) out_dims) os cur dm;
        copy_nodes m r os out_dims n_out cur dm
      else copy_nodes m r os out_dims n_out cur dm
  end.

(** geoarrow_type_inline.h lines 506-571: GeoArrowGeometryViewCopyCoordsGeneric. For out_dimensions UNKNOWN the size is
    (uint32_t)-1 and the copy of [out] in line 523 leaves both arrays: [UB]. *)
Definition copy_coords_generic (m : mem) (nodes : list node) (out : quad daddr) (os : quad Z) (out_dims : Z) (dm : dmem)
  : outcome dmem :=
  do n_out <- or_ub (num_dimensions out_dims);
  if n_out <? 0 then UB
  else copy_nodes m nodes os out_dims (Z.to_nat n_out) out dm.
