(** * The WKB reader: src/geoarrow/wkb_reader.c *)
From Verif Require Import Base TypesModel NodesModel.
Local Open Scope Z_scope.

(** wkb_reader.c lines 9-11 *)
Definition EWKB_Z_BIT : N := 0x80000000%N.
Definition EWKB_M_BIT : N := 0x40000000%N.
Definition EWKB_SRID_BIT : N := 0x20000000%N.

(** wkb_reader.c lines 13-19: struct WKBReaderPrivate. [rs_pos] is [data - data0]. The node list is threaded through
    the functions' results instead. *)
Record rstate := RState { rs_pos : Z; rs_size : Z; rs_swap : bool }.

Section Reader.
  (** The input buffer; the source of every memcpy. *)
  Variable src : bytes.

  (** wkb_reader.c lines 21-33: WKBReaderReadEndian; GEOARROW_NATIVE_ENDIAN is 0x01. *)
  Definition read_endian (s : rstate) : outcome rstate :=
    if 0 <? rs_size s then
      do b <- or_ub (slice src (rs_pos s) 1);
      Ok {| rs_pos := rs_pos s + 1; rs_size := rs_size s - 1; rs_swap := negb (N.eqb (le_val b) 1) |}
    else Err EINVAL.

  (** wkb_reader.c lines 35-50: WKBReaderReadUInt32 *)
  Definition read_u32 (s : rstate) : outcome (rstate * N) :=
    if 4 <=? rs_size s then
      do b <- or_ub (slice src (rs_pos s) 4);
      Ok ({| rs_pos := rs_pos s + 4; rs_size := rs_size s - 4; rs_swap := rs_swap s |},
          if rs_swap s then bswap32 (le_val b) else le_val b)
    else Err EINVAL.

  (** wkb_reader.c lines 66-71: the loop that fills coord_stride[i] and coords[i] for i < coord_size_elements *)
  Fixpoint set_coords (k : nat) (i : nat) (stride : Z) (pos : Z) (nd : node) : node :=
    match k with
    | O => nd
    | S k' =>
        set_coords k' (S i) stride pos
          {| nd_coords := qset (nd_coords nd) i (1%nat, pos + Z.of_nat i * 8);
             nd_stride := qset (nd_stride nd) i stride;
             nd_size := nd_size nd; nd_type := nd_type nd; nd_dims := nd_dims nd;
             nd_swap := nd_swap nd; nd_level := nd_level nd |}
    end.

  (** wkb_reader.c lines 52-75: WKBReaderReadNodeCoordinates. [n_coords * coord_size_elements] is a uint32_t product
      and wraps; size_bytes is not decremented. *)
  Definition read_node_coordinates (s : rstate) (n_coords coord_size : N) (nd : node) : outcome (rstate * node) :=
    let bytes_needed := Z.of_N (wrap32 (n_coords * coord_size) * 8) in
    if rs_size s <? bytes_needed then Err EINVAL
    else
      let nd := if N.eqb n_coords 0 then nd
                else set_coords (N.to_nat coord_size) 0 (Z.of_N coord_size * 8) (rs_pos s) nd in
      Ok ({| rs_pos := rs_pos s + bytes_needed; rs_size := rs_size s; rs_swap := rs_swap s |}, nd).

  (** [for (uint32_t i = 0; i < size; i++)] around a body that appends nodes. The fuel is a bound on the number of
      iterations. *)
  Fixpoint read_n (fuel : nat) (rd : rstate -> outcome (rstate * list node)) (n : N) (s : rstate)
    : outcome (rstate * list node) :=
    if N.eqb n 0 then Ok (s, [])
    else
      match fuel with
      | O => NoFuel
      | S f =>
          do (s, a) <- rd s;
          do (s, b) <- read_n f rd (n - 1) s;
          Ok (s, a ++ b)
      end.

  (** wkb_reader.c lines 169-177: one ring. [*ring = ring_template; ring->size = ring_size]. *)
  Definition read_ring (coord_size : N) (template : node) (s : rstate) : outcome (rstate * list node) :=
    do (s, ring_size) <- read_u32 s;
    let ring := {| nd_coords := nd_coords template; nd_stride := nd_stride template; nd_size := ring_size;
                   nd_type := nd_type template; nd_dims := nd_dims template; nd_swap := nd_swap template;
                   nd_level := nd_level template |} in
    do (s, ring) <- read_node_coordinates s ring_size coord_size ring;
    Ok (s, [ring]).

  (** wkb_reader.c lines 85-141: has_z, has_m and the base type from the type word (after the embedded SRID is
      skipped). *)
  Definition ewkb_has (w bit : N) : bool := negb (N.eqb (N.land w bit) 0).
  Definition resolve_type (w : N) : N * bool * bool :=
    let z := ewkb_has w EWKB_Z_BIT in
    let m := ewkb_has w EWKB_M_BIT in
    let g := N.land w 0xffff in
    if (3000 <=? g)%N then (g - 3000, true, true)%N
    else if (2000 <=? g)%N then ((g - 2000)%N, z, true)
    else if (1000 <=? g)%N then ((g - 1000)%N, true, m)
    else (g, z, m).
  Definition resolve_dims (z m : bool) : N :=
    if z && m then 4%N else if z then 2%N else if m then 3%N else 1%N.
  Definition b2n (b : bool) : N := if b then 1%N else 0%N.

  (** wkb_reader.c lines 77-204: WKBReaderReadNodeGeometry, for a node freshly appended at [level]. The result lists
      that node and the nodes appended below it. On an error the nodes are not reachable by the caller (the output
      view is only set on success, lines 264-266), so they are not part of the error outcome. *)
  Fixpoint read_geometry (fuel : nat) (level : N) (s : rstate) : outcome (rstate * list node) :=
    match fuel with
    | O => NoFuel
    | S f =>
        do s <- read_endian s;
        do (s, w) <- read_u32 s;
        do s <- (if ewkb_has w EWKB_SRID_BIT
                 then do (s, _) <- read_u32 s; Ok s
                 else Ok s);
        let '(g, z, m) := resolve_type w in
        do (s, size) <- (if negb (N.eqb g 1) then read_u32 s else Ok (s, 1%N));
        let coord_size := (2 + b2n z + b2n m)%N in
        let nd := {| nd_coords := nd_coords fresh_node; nd_stride := nd_stride fresh_node; nd_size := size;
                     nd_type := (g mod 256)%N; nd_dims := resolve_dims z m; nd_swap := rs_swap s;
                     nd_level := level |} in
        if (N.eqb g 1 || N.eqb g 2) then
          do (s, nd) <- read_node_coordinates s size coord_size nd;
          Ok (s, [nd])
        else if N.eqb g 3 then
          if N.eqb level 255 then Err ENOTSUP
          else
            let template := {| nd_coords := nd_coords nd; nd_stride := nd_stride nd; nd_size := nd_size nd;
                               nd_type := 2%N; nd_dims := nd_dims nd; nd_swap := nd_swap nd;
                               nd_level := (level + 1)%N |} in
            do (s, rings) <- read_n f (read_ring coord_size template) size s;
            Ok (s, nd :: rings)
        else if (N.eqb g 4 || N.eqb g 5 || N.eqb g 6 || N.eqb g 7) then
          if N.eqb level 255 then Err ENOTSUP
          else
            do (s, children) <- read_n f (read_geometry f (level + 1)%N) size s;
            Ok (s, nd :: children)
        else Err EINVAL
    end.

  (** wkb_reader.c lines 244-267: GeoArrowWKBReaderRead. [need_swapping] is left over from the previous call; the
      parameter [swap0] is that value. *)
  Definition wkb_read_from (swap0 : bool) : outcome (list node) :=
    do (_, nodes) <- read_geometry (S (length src)) 0
                       {| rs_pos := 0; rs_size := Z.of_nat (length src); rs_swap := swap0 |};
    Ok nodes.
End Reader.

(** The memory the returned nodes point into: the NaN constants and the input. *)
Definition wkb_mem (src : bytes) : mem := [empty_point_coords; src].

Definition wkb_read (src : bytes) : outcome (list node) := wkb_read_from src false.
