(** * Building and copying geometries: src/geoarrow/geometry.c lines 16-407 *)
From Verif Require Import Base TypesModel NodesModel GeomSpec VisitorModel BufferModel GeomVisitModel CopyCoordsModel.
Local Open Scope Z_scope.

(** ** Pointing a node at a run of coordinates *)

(** geometry.c lines 137-140 and 257-260: coords[i] = start + i * sizeof(double), coord_stride[i] = n_values *
    sizeof(double), for [k] dimensions from [i] on. [i] stays below 4 because n_values does. *)
Fixpoint point_at (k i : nat) (start : ptr) (stride : Z) (nd : node) : node :=
  match k with
  | O => nd
  | S k' =>
      point_at k' (S i) start stride
        {| nd_coords := qset (nd_coords nd) i (ptr_add start (Z.of_nat i * 8)); nd_stride := qset (nd_stride nd) i stride;
           nd_size := nd_size nd; nd_type := nd_type nd; nd_dims := nd_dims nd; nd_swap := nd_swap nd;
           nd_level := nd_level nd |}
  end.

(** geoarrow_type_inline.h lines 384-396: GeoArrowGeometryNodeSetInterleaved. [start] and [size_bytes] are the buffer
    view; all four pointers are set whatever the dimensions. For dimensions UNKNOWN the stride is -8. *)
Definition node_set_interleaved (nd : node) (ty dims : N) (start : ptr) (size_bytes : Z) : outcome node :=
  do n <- or_ub (num_dimensions (Z.of_N dims));
  let stride := n * 8 in
  Ok {| nd_coords := Quad start (ptr_add start 8) (ptr_add start 16) (ptr_add start 24); nd_stride := qconst stride;
        nd_size := Z.to_N (Z.quot size_bytes stride mod 4294967296); nd_type := ty mod 256; nd_dims := dims mod 256;
        nd_swap := nd_swap nd; nd_level := nd_level nd |}.

(** geoarrow_type_inline.h lines 402-414: GeoArrowGeometryNodeSetSeparated *)
Definition node_set_separated (nd : node) (ty dims : N) (start : ptr) (size_bytes : Z) : outcome node :=
  do n <- or_ub (num_dimensions (Z.of_N dims));
  let dim_size := Z.quot size_bytes n in
  Ok {| nd_coords := Quad start (ptr_add start dim_size) (ptr_add start (2 * dim_size)) (ptr_add start (3 * dim_size));
        nd_stride := qconst 8;
        nd_size := Z.to_N (Z.quot dim_size 8 mod 4294967296); nd_type := ty mod 256; nd_dims := dims mod 256;
        nd_swap := nd_swap nd; nd_level := nd_level nd |}.

(** ** Deep copy *)

(** geometry.c lines 103-113: the size pass; GeoArrowGeometryNodeWriteSequence(node, NULL, 0) *)
Fixpoint total_bytes (m : mem) (nodes : list node) : outcome Z :=
  match nodes with
  | [] => Ok 0
  | nd :: r =>
      if is_sequence (nd_type nd) then
        do (n, _) <- write_sequence m nd 0;
        do k <- total_bytes m r;
        Ok (n + k)
      else total_bytes m r
  end.

(** geometry.c lines 127-149: the copy pass. [pos] is coords_buf - private_data->coords.data, [room] is coords_buf_size,
    [blk] the destination's coordinate block. The result is the updated nodes and the bytes stored from [pos] on. A
    sequence that does not fit would leave its destination uninitialised: [UB]. *)
Fixpoint copy_seqs (m : mem) (blk : nat) (pos room : Z) (nodes : list node) : outcome (list node * bytes) :=
  match nodes with
  | [] => Ok ([], [])
  | nd :: r =>
      if is_sequence (nd_type nd) then
        do n_values <- or_ub (num_dimensions (Z.of_N (nd_dims nd)));
        do (n, written) <- write_sequence m nd room;
        do words <- or_ub written;
        let nd := point_at (Z.to_nat n_values) 0 (blk, pos) (n_values * 8) nd in
        do (r, bs) <- copy_seqs m blk (pos + n) (room - n) r;
        Ok (nd :: r, flat_map (le_bytes 8) words ++ bs)
      else
        do (r, bs) <- copy_seqs m blk pos room r;
        Ok (nd :: r, bs)
  end.

(** geometry.c lines 96-152: GeoArrowGeometryDeepCopy (with lines 35-43, GeoArrowGeometryShallowCopy). The source's
    memory is [m] and does not contain the destination's block. The result: the destination's nodes and the contents of
    its coordinate block. *)
Definition deep_copy (m : mem) (blk : nat) (nodes : list node) : outcome (list node * bytes) :=
  do total <- total_bytes m nodes;
  copy_seqs m blk 0 total nodes.

(** ** The building visitor *)

(** struct GeoArrowGeometry and struct GeoArrowGeometryPrivate, lines 7-14: the nodes, the coordinate buffer, the block
    number of its memory (a new one for every reallocation), current_level. *)
Record gstate := GState { g_nodes : list node; g_coords : buf; g_blk : nat; g_level : Z }.

(** geometry.c lines 16-33: GeoArrowGeometryInit *)
Definition g_init : gstate := {| g_nodes := []; g_coords := buf_init; g_blk := 1%nat; g_level := 0 |}.

(** The memory behind the nodes: the NaN constant, the blocks given back (of which nothing can be read), and the
    coordinates. *)
Definition g_mem (s : gstate) : mem :=
  empty_point_coords :: repeat [] (g_blk s - 1) ++ [b_data (g_coords s)].

(** geometry.c line 155 *)
Definition MAX_NESTING : Z := 31.

Definition ptr_eqb (a b : ptr) : bool := Nat.eqb (fst a) (fst b) && (snd a =? snd b).

(** geometry.c lines 176-183: one pointer of a node when the coordinates move from block [old] to block [new]. The
    difference of pointers into different objects has no meaning. *)
Definition rebase_ptr (old new : nat) (p : ptr) : outcome ptr :=
  if ptr_eqb p nan_ptr then Ok p
  else if Nat.eqb (fst p) old then Ok (new, snd p)
  else UB.

Fixpoint rebase_nodes (old new : nat) (nodes : list node) : outcome (list node) :=
  match nodes with
  | [] => Ok []
  | nd :: r =>
      let q := nd_coords nd in
      do p0 <- rebase_ptr old new (q0 q);
      do p1 <- rebase_ptr old new (q1 q);
      do p2 <- rebase_ptr old new (q2 q);
      do p3 <- rebase_ptr old new (q3 q);
      do r <- rebase_nodes old new r;
      Ok ({| nd_coords := Quad p0 p1 p2 p3; nd_stride := nd_stride nd; nd_size := nd_size nd; nd_type := nd_type nd;
             nd_dims := nd_dims nd; nd_swap := nd_swap nd; nd_level := nd_level nd |} :: r)
  end.

(** geometry.c lines 191-214 and 157-189: GeoArrowGeometryReserveCoords and GeoArrowGeometryReallocCoords. The pointer
    returned is coords.data + coords.size_bytes, i.e. (g_blk, size). *)
Definition reserve_coords (s : gstate) (additional_doubles : Z) : outcome gstate :=
  let size := b_size (g_coords s) in
  let extra := additional_doubles * 8 in
  if b_cap (g_coords s) <? size + extra then
    let new_size := if size * 2 <? size + extra then size + extra else size * 2 in
    let new := buf_append (buf_reserve buf_init new_size) (b_data (g_coords s)) in
    do nodes <- rebase_nodes (g_blk s) (S (g_blk s)) (g_nodes s);
    Ok {| g_nodes := nodes; g_coords := new; g_blk := S (g_blk s); g_level := g_level s |}
  else Ok s.

(** geometry.c lines 216-225: feat_start_geometry. ArrowBufferResize(.., 0, 0) keeps the capacity. *)
Definition g_feat_start (s : gstate) : vres gstate :=
  VRet {| g_nodes := []; g_coords := {| b_data := []; b_cap := b_cap (g_coords s) |}; g_blk := g_blk s; g_level := 0 |} 0.

Definition add_node (s : gstate) (nd : node) : gstate :=
  {| g_nodes := g_nodes s ++ [nd]; g_coords := g_coords s; g_blk := g_blk s; g_level := g_level s |}.

(** geometry.c lines 227-232: null_feat_geometry *)
Definition g_null_feat (s : gstate) : vres gstate := VRet (add_node s fresh_node) 0.

(** geometry.c lines 234-274: geom_start_geometry *)
Definition g_geom_start (s : gstate) (ty dims : N) : vres gstate :=
  let nd := {| nd_coords := qconst nan_ptr; nd_stride := qconst 0; nd_size := 0; nd_type := ty mod 256;
               nd_dims := dims mod 256; nd_swap := false; nd_level := Z.to_N (g_level s mod 256) |} in
  let placed :=
    if is_sequence ty then
      do n_values <- or_ub (num_dimensions (Z.of_N dims));
      do s <- reserve_coords s n_values;
      Ok (add_node s (point_at (Z.to_nat n_values) 0 (g_blk s, b_size (g_coords s)) (n_values * 8) nd))
    else Ok (add_node s nd) in
  match placed with
  | Ok s' =>
      if g_level s =? MAX_NESTING then VRet s' EINVAL
      else VRet {| g_nodes := g_nodes s'; g_coords := g_coords s'; g_blk := g_blk s'; g_level := g_level s' + 1 |} 0
  | _ => VUB
  end.

(** geometry.c lines 276-286: ring_start_geometry *)
Definition g_ring_start (s : gstate) : vres gstate :=
  match rev (g_nodes s) with
  | [] => VRet s EINVAL
  | last_node :: _ => g_geom_start s 2 (nd_dims last_node)
  end.

(** geometry.c lines 288-312: coords_geometry. Simplification: the rows are stored in one step. *)
Definition g_coords_event (s : gstate) (n_values : N) (cs : list coord) : vres gstate :=
  match g_nodes s with
  | [] => VRet s EINVAL
  | _ :: _ =>
      match reserve_coords s (Z.of_nat (length cs) * Z.of_N n_values) with
      | Ok s =>
          VRet {| g_nodes := g_nodes s;
                  g_coords := {| b_data := b_data (g_coords s) ++ flat_map (flat_map (le_bytes 8)) cs;
                                 b_cap := b_cap (g_coords s) |};
                  g_blk := g_blk s; g_level := g_level s |} 0
      | _ => VUB
      end
  end.

(** geometry.c lines 314-327 and 329-342: ring_end_geometry and geom_end_geometry *)
Definition g_end (s : gstate) : vres gstate :=
  if g_level s =? 0 then VRet s EINVAL
  else VRet {| g_nodes := g_nodes s; g_coords := g_coords s; g_blk := g_blk s; g_level := g_level s - 1 |} 0.

(** geometry.c lines 366-367 (uint32_t sizes[32], all 0) *)
Definition zero_sizes : arr32 N := fun _ => Some 0%N.

Definition with_size (nd : node) (n : N) : node :=
  {| nd_coords := nd_coords nd; nd_stride := nd_stride nd; nd_size := n; nd_type := nd_type nd; nd_dims := nd_dims nd;
     nd_swap := nd_swap nd; nd_level := nd_level nd |}.

(** geometry.c lines 369-390: one node of the loop. The difference of pointers into different blocks and a division by a
    stride of 0 have no meaning. *)
Definition roll_node (nd : node) (end_ : ptr) (sizes : arr32 N) : outcome (node * ptr * arr32 N) :=
  let lvl := Z.of_N (nd_level nd) in
  do n <- or_ub (aget sizes lvl);
  do sizes <- or_ub (aset sizes lvl (wrap32 (n + 1)));
  if is_sequence (nd_type nd) then
    let start := q0 (nd_coords nd) in
    let stride := q0 (nd_stride nd) in
    if negb (Nat.eqb (fst end_) (fst start)) then UB
    else if stride =? 0 then UB
    else
      let n := Z.quot (snd end_ - snd start) stride in
      Ok (with_size nd (Z.to_N (n mod 4294967296)), start, sizes)
  else if (N.leb 3 (nd_type nd) && N.leb (nd_type nd) 7)%bool then
    do n <- or_ub (aget sizes (lvl + 1));
    do sizes <- or_ub (aset sizes (lvl + 1) 0%N);
    Ok (with_size nd n, end_, sizes)
  else Ok (nd, end_, sizes).

(** The loop from the last node to the first; [nodes] is the list in forward order. *)
Fixpoint roll (nodes : list node) (end_ : ptr) (sizes : arr32 N) : outcome (list node * ptr * arr32 N) :=
  match nodes with
  | [] => Ok ([], end_, sizes)
  | nd :: r =>
      do (r, end_, sizes) <- roll r end_ sizes;
      do (nd, end_, sizes) <- roll_node nd end_ sizes;
      Ok (nd :: r, end_, sizes)
  end.

(** geometry.c lines 344-394: feat_end_geometry *)
Definition g_feat_end (s : gstate) : vres gstate :=
  match g_nodes s with
  | [] => VRet s EINVAL
  | _ :: _ =>
      if b_size (g_coords s) =? 0 then VRet s 0
      else
        match roll (g_nodes s) (g_blk s, b_size (g_coords s)) zero_sizes with
        | Ok (nodes, _, _) =>
            VRet {| g_nodes := nodes; g_coords := g_coords s; g_blk := g_blk s; g_level := g_level s |} 0
        | _ => VUB
        end
  end.

(** geometry.c lines 396-407: GeoArrowGeometryInitVisitor *)
Definition geom_step : visitor gstate := fun s e =>
  match e with
  | EFeatStart => g_feat_start s
  | ENullFeat => g_null_feat s
  | EGeomStart t d => g_geom_start s t d
  | ERingStart => g_ring_start s
  | ECoords n cs => g_coords_event s n cs
  | ERingEnd => g_end s
  | EGeomEnd => g_end s
  | EFeatEnd => g_feat_end s
  end.
