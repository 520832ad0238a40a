(** * Geometry nodes *)
From Verif Require Import Base TypesModel.

(** src/geoarrow/geoarrow_type.h lines 463-540: struct GeoArrowGeometryNode. The fields user_data (unused by the
    library's own algorithms) is left out; [nd_swap] is the bit GEOARROW_GEOMETRY_NODE_FLAG_SWAP_ENDIAN of flags, the
    only flag there is. *)
Record node := Node {
  nd_coords : quad ptr;
  nd_stride : quad Z;
  nd_size : N;
  nd_type : N;
  nd_dims : N;
  nd_swap : bool;
  nd_level : N
}.

(** Block 0 of every memory is _GeoArrowkEmptyPointCoords; this is a pointer to it. *)
Definition nan_ptr : ptr := (0%nat, 0%Z).

(** geoarrow_type_inline.h lines 430-442 (and geometry.c lines 85-94): a freshly appended node *)
Definition fresh_node : node :=
  {| nd_coords := qconst nan_ptr; nd_stride := qconst 0%Z; nd_size := 0; nd_type := 0; nd_dims := 0;
     nd_swap := false; nd_level := 0 |}.

(** The bytes at ordinate [j] of coordinate [i] of a sequence node, decoded to native byte order: what every consumer
    does with [coords[j] + i * coord_stride[j]] and the swap flag. *)
Definition node_ordinate (m : mem) (nd : node) (i : Z) (j : nat) : option N :=
  match qget (nd_coords nd) j, qget (nd_stride nd) j with
  | Some p, Some s =>
      match load64 m (ptr_add p (i * s)) with
      | Some w => Some (if nd_swap nd then bswap64 w else w)
      | None => None
      end
  | _, _ => None
  end.
