(** * C04, C15, C16, C48, C49: copying coordinates out of, building and copying geometries *)
From Verif Require Import Base TypesModel TypesSpec GeomSpec NodesModel NodesSpec CoordsModel VisitorModel VisitorSpec WkbWriterSpec
  CopyCoordsModel CopyCoordsSpec CopyCoordsProofs GeomVisitModel GeomVisitProofs
  GeomBuildModel GeomBuildSpec GeomBuildProofs GeomBuildRoll GeomBuildSafety GeomCopyProofs GeomRefuted GeomUnset PropertiesVisit.
Local Open Scope Z_scope.

(** ** C04 *)

(** The full property is false: a byte-swapped XY node copied to XYZ gets the byte-swapped NaN constant, which is not a
    NaN. *)
Theorem C04_swapped_missing_dim_refuted : exists m nodes g out os dm dm',
  nth_error m 0 = Some empty_point_coords /\ repr_geom m 0 nodes g /\ wf_geom g /\
  room dm out os XYZ (length (geom_coords g)) /\
  copy_coords_generic m nodes out os (dim_code XYZ) dm = Ok dm' /\ ~ copied dm dm' out os XYZ (geom_coords g).
Proof. exact swapped_missing_dim. Qed.
Print Assumptions C04_swapped_missing_dim_refuted.

(** Proved: every geometry, provided no byte-swapped node lacks a dimension of the output. *)
Theorem C04_copy_partial : forall m lvl nodes g out os d dm, nth_error m 0 = Some empty_point_coords ->
  repr_geom m lvl nodes g -> wf_geom g -> swapped_nodes_complete nodes d ->
  room dm out os d (length (geom_coords g)) ->
  exists dm', copy_coords_generic m nodes out os (dim_code d) dm = Ok dm' /\ copied dm dm' out os d (geom_coords g).
Proof. exact copy_coords_correct. Qed.
Print Assumptions C04_copy_partial.

(** How many coordinates to make room for; the count is kept in 32 bits. *)
Theorem C04_num_coords : forall m lvl nodes g, repr_geom m lvl nodes g ->
  num_coords nodes = (N.of_nat (length (geom_coords g)) mod 2 ^ 32)%N.
Proof. exact num_coords_ok. Qed.
Print Assumptions C04_num_coords.

(** The big-endian polygon and the empty XYZ linestring of C13, copied to XY columns. *)
Definition C04_dm : dmem := fun a => if (Nat.eqb (fst a) 5 && (0 <=? snd a) && (snd a <? 6))%bool then Some 0%N else None.
Example C04_ex : swapped_nodes_complete C13_nodes XY /\
  room C04_dm (Quad (5%nat, 0) (5%nat, 1) (0%nat, 0) (0%nat, 0)) (Quad 2 2 0 0) XY (length (geom_coords C13_geom)) /\
  exists dm', copy_coords_generic C13_mem C13_nodes (Quad (5%nat, 0) (5%nat, 1) (0%nat, 0) (0%nat, 0)) (Quad 2 2 0 0) 1 C04_dm = Ok dm' /\
    map (fun i => dm' (5%nat, i)) [0; 1; 2; 3; 4; 5] = map Some [1; 2; 3; 4; 1; 2]%N.
Proof.
  split; [|split].
  - intros nd s Hin Hsw Hd. cbn in Hin. destruct Hin as [<-|[<-|[<-|[<-|[]]]]]; try discriminate Hsw.
    destruct s; try discriminate Hd. apply incl_refl.
  - split.
    + intros k col Hk Hcol. change (length (geom_coords C13_geom)) with 3%nat in Hk. change (ndim XY) with 2%nat in Hcol.
      destruct k as [|[|[|k]]]; try lia; destruct col as [|[|col]]; try lia; vm_compute; discriminate.
    + intros k col k' col' Hk Hcol Hk' Hcol'. change (length (geom_coords C13_geom)) with 3%nat in *. change (ndim XY) with 2%nat in *.
      destruct k as [|[|[|k]]]; try lia; destruct col as [|[|col]]; try lia;
      destruct k' as [|[|[|k']]]; try lia; destruct col' as [|[|col']]; try lia; vm_compute; intros H; first [discriminate H|auto].
  - eexists. split; vm_compute; reflexivity.
Qed.

(** ** C15 *)

(** The full property is false: the sizes are not set when a feature has no coordinate at all, so a collection of one
    empty point is rebuilt as a collection of size 0 followed by a stray node, which cannot be visited. *)
Theorem C15_empty_member_refuted : exists g e s', geom_events g e /\ wf_geom g /\ counts32 g /\ (nesting g <= 31)%nat /\
  feed geom_step g_init ([EFeatStart] ++ e ++ [EFeatEnd]) = Some (s', 0) /\
  snd (trace (view_visit (g_mem s') (g_nodes s'))) = Err EINVAL.
Proof. exact empty_member. Qed.
Print Assumptions C15_empty_member_refuted.

(** Proved, for a geometry with at least one coordinate or without rings and members, after any history: visiting the
    result delivers the same geometry, and its node list denotes it. *)
Theorem C15_rebuild_partial : forall s g e, g_reachable s -> geom_events g e -> wf_geom g -> counts32 g -> (nesting g <= 31)%nat ->
  geom_coords g <> [] \/ simple g ->
  exists s', feed geom_step s ([EFeatStart] ++ e ++ [EFeatEnd]) = Some (s', 0) /\
    repr_geom (g_mem s') 0 (g_nodes s') g /\
    exists e', trace (view_visit (g_mem s') (g_nodes s')) = ([EFeatStart] ++ e' ++ [EFeatEnd], Ok tt) /\ geom_events g e'.
Proof. exact rebuild. Qed.
Print Assumptions C15_rebuild_partial.

(** So it is for all the others: a geometry with rings or members but no coordinate is taken, and visiting the result gives its outermost
    geometry without any of them, and EINVAL. *)
Theorem C15_without_coordinates : forall s g e, g_reachable s -> geom_events g e -> (nesting g <= 31)%nat -> geom_coords g = [] -> ~ simple g ->
  exists start rest s', e = start :: rest /\ feed geom_step s ([EFeatStart] ++ e ++ [EFeatEnd]) = Some (s', 0) /\
    trace (view_visit (g_mem s') (g_nodes s')) = ([EFeatStart; start; EGeomEnd], Err EINVAL).
Proof. exact rebuild_unset. Qed.
Print Assumptions C15_without_coordinates.
Example C15_without_coordinates_ex : let g := GPoly XYM [[]; []] in
  geom_events g [EGeomStart 3 3; ERingStart; ERingEnd; ERingStart; ERingEnd; EGeomEnd] /\ (nesting g <= 31)%nat /\ geom_coords g = [] /\ ~ simple g.
Proof.
  cbv zeta. split; [|split; [cbn; lia | split; [reflexivity | intros []]]].
  apply (ge_poly XYM _ [ERingStart; ERingEnd; ERingStart; ERingEnd]). apply (re_ring XYM [] [[]] [] [ERingStart; ERingEnd]); [constructor|].
  apply (re_ring XYM [] [] [] []); constructor.
Qed.

(** Nesting beyond 31 is refused. *)
Theorem C15_too_deep : forall s g e, g_reachable s -> geom_events g e -> (31 < nesting g)%nat ->
  exists s', feed geom_step s ([EFeatStart] ++ e ++ [EFeatEnd]) = Some (s', EINVAL).
Proof. exact rebuild_too_deep. Qed.
Print Assumptions C15_too_deep.

Definition C15_geom : geom :=
  GColl CCollection XY [GPoly XYZ [[[1; 2; 3]; [4; 5; 6]; [7; 8; 9]; [1; 2; 3]]%N; []]; GPoint XY []; GColl CMultipoint XYM [GPoint XYM [[1; 2; 3]%N]]].
Definition C15_events : list event :=
  [EGeomStart 7 1; EGeomStart 3 2; ERingStart; ECoords 3 [[1; 2; 3]; [4; 5; 6]]%N; ECoords 3 []; ECoords 3 [[7; 8; 9]; [1; 2; 3]]%N;
   ERingEnd; ERingStart; ERingEnd; EGeomEnd; EGeomStart 1 1; EGeomEnd; EGeomStart 4 3; EGeomStart 1 3; ECoords 3 [[1; 2; 3]]%N;
   EGeomEnd; EGeomEnd; EGeomEnd].
Example C15_ex : geom_events C15_geom C15_events /\ wf_geom C15_geom /\ counts32 C15_geom /\ (nesting C15_geom <= 31)%nat /\
  geom_coords C15_geom <> [] /\ g_reachable g_init.
Proof.
  split; [|split; [|split; [|split; [|split]]]].
  - apply (ge_coll CCollection XY _ (firstn 16 (skipn 1 C15_events))).
    apply (pe_cons _ _ (firstn 9 (skipn 1 C15_events)) (firstn 7 (skipn 10 C15_events))).
    + apply (ge_poly XYZ _ (firstn 7 (skipn 2 C15_events))).
      apply (re_ring XYZ [[1; 2; 3]; [4; 5; 6]; [7; 8; 9]; [1; 2; 3]]%N [[]] (firstn 3 (skipn 3 C15_events)) [ERingStart; ERingEnd]).
      * apply (se_batch XYZ [[1; 2; 3]; [4; 5; 6]]%N). apply (se_batch XYZ []). apply (se_batch XYZ [[7; 8; 9]; [1; 2; 3]]%N []). constructor.
      * apply (re_ring XYZ [] [] [] []); constructor.
    + apply (pe_cons _ _ [EGeomStart 1 1; EGeomEnd] (firstn 5 (skipn 12 C15_events))).
      * apply (ge_point XY [] []). constructor.
      * apply (pe_cons _ _ (firstn 5 (skipn 12 C15_events)) []); [|constructor].
        apply (ge_coll CMultipoint XYM _ (firstn 3 (skipn 13 C15_events))).
        apply (pe_cons _ _ (firstn 3 (skipn 13 C15_events)) []); [|constructor].
        apply (ge_point XYM _ [ECoords 3 [[1; 2; 3]%N]]). apply (se_batch XYM [[1; 2; 3]%N] []). constructor.
  - repeat constructor.
  - repeat constructor.
  - cbn. lia.
  - discriminate.
  - exists []. reflexivity.
Qed.

(** ** C48 *)

(** The full property is false: after a null feature the last node has no dimensions, so a ring gets no coordinate
    pointers and its size is a division by zero ... *)
Theorem C48_null_then_ring_refuted : exists evs, feed geom_step g_init (EFeatStart :: evs) = None /\
  Forall (fun e => e <> ENullFeat -> plain_event e) evs.
Proof. exact null_then_ring. Qed.
Print Assumptions C48_null_then_ring_refuted.

(** ... and a node refused for its depth stays in the list: ending the feature after that error leaves the sizes array. *)
Theorem C48_after_error_refuted : exists evs s, Forall plain_event evs /\
  feed geom_step g_init (EFeatStart :: evs) = Some (s, EINVAL) /\ feed geom_step s [EFeatEnd] = None.
Proof. exact after_error. Qed.
Print Assumptions C48_after_error_refuted.

(** Proved: any calls in any order, from any feat_start to the first error, without null features. *)
Theorem C48_any_order_partial : forall s evs, g_reachable s -> Forall plain_event evs ->
  feed geom_step s (EFeatStart :: evs) <> None.
Proof. exact build_safe. Qed.
Print Assumptions C48_any_order_partial.

(** A null feature by itself. *)
Theorem C48_null : forall s, g_reachable s ->
  exists s', feed geom_step s [EFeatStart; ENullFeat; EFeatEnd] = Some (s', 0) /\ g_nodes s' = [fresh_node].
Proof. exact build_null. Qed.
Print Assumptions C48_null.

Example C48_ex : Forall plain_event [ERingStart; ECoords 2 [[1; 2]%N]; EGeomEnd; EGeomStart 990 4; EFeatEnd; ERingEnd; EFeatEnd].
Proof. repeat constructor; try (right; reflexivity); cbn; discriminate. Qed.

(** ** C16 *)

(** The full property is false: the copied coordinates are in native byte order but the swap flag stays set. *)
Theorem C16_swapped_refuted : exists m nodes nodes' bs w, 
  repr_geom m 0 nodes (GPoint XY [[w; w]]) /\ wf_geom (GPoint XY [[w; w]]) /\
  deep_copy m (length m) nodes = Ok (nodes', bs) /\ ~ repr_geom (m ++ [bs]) 0 nodes' (GPoint XY [[w; w]]).
Proof. exact swapped_copy. Qed.
Print Assumptions C16_swapped_refuted.

(** Proved for sources in native byte order: whatever becomes of the source's memory, the copy denotes the geometry. *)
Theorem C16_copy_partial : forall m lvl nodes g, repr_geom m lvl nodes g -> wf_geom g -> small_geom g -> native_order nodes ->
  exists nodes' bs, deep_copy m (length m) nodes = Ok (nodes', bs) /\
    forall m', length m' = length m -> repr_geom (m' ++ [bs]) lvl nodes' g.
Proof. exact deep_copy_ok. Qed.
Print Assumptions C16_copy_partial.

Definition C16_mem : mem := [empty_point_coords; flat_map (le_bytes 8) [1; 2; 3; 4]%N].
Definition C16_nodes : list node :=
  [{| nd_coords := qconst nan_ptr; nd_stride := qconst 0; nd_size := 1; nd_type := 3; nd_dims := 1; nd_swap := false; nd_level := 0 |};
   {| nd_coords := Quad (1%nat, 0) (1%nat, 16) nan_ptr nan_ptr; nd_stride := Quad 8 8 0 0; nd_size := 2; nd_type := 2;
      nd_dims := 1; nd_swap := false; nd_level := 1 |}].
Definition C16_geom : geom := GPoly XY [[[1; 3]; [2; 4]]%N].
Example C16_ex : repr_geom C16_mem 0 C16_nodes C16_geom /\ wf_geom C16_geom /\ small_geom C16_geom /\ native_order C16_nodes /\
  exists nodes', deep_copy C16_mem 2 C16_nodes = Ok (nodes', flat_map (le_bytes 8) [1; 3; 2; 4]%N).
Proof.
  split; [|split; [repeat constructor|split; [repeat constructor|split]]].
  - apply rg_poly; [split; reflexivity|]. constructor; [|constructor]. split; try reflexivity.
    intros i j c Hi Hj. destruct i as [|[|i]]; cbn in Hi; try (destruct i; discriminate); injection Hi as <-;
      destruct j as [|[|j]]; cbn in Hj; try lia; vm_compute; reflexivity.
  - intros nd [<-|[<-|[]]]; reflexivity.
  - eexists. vm_compute. reflexivity.
Qed.

(** ** C49 *)

(** The full property is false: ordinates beyond the dimensions are documented to be NaN, but the third ordinate of an
    interleaved XY node is the x of the next coordinate. *)
Theorem C49_missing_dims_refuted : exists m cs nd, bytes_at m (1%nat, 0) (rows cs) /\ wf_seq XY cs /\
  node_set_interleaved fresh_node 2 (dimN XY) (1%nat, 0) (Z.of_nat (length (rows cs))) = Ok nd /\
  node_ordinate m nd 0 2 = Some 3%N.
Proof. exact missing_dims. Qed.
Print Assumptions C49_missing_dims_refuted.

(** Proved for the ordinates within the dimensions. *)
Theorem C49_interleaved_partial : forall m nd ty d b p cs, bytes_at m (b, p) (rows cs) -> wf_seq d cs -> count32 cs ->
  (ty < 256)%N -> nd_swap nd = false ->
  exists nd', node_set_interleaved nd ty (dimN d) (b, p) (Z.of_nat (length (rows cs))) = Ok nd' /\
    seq_node m ty (nd_level nd) d cs nd'.
Proof. exact set_interleaved_ok. Qed.
Print Assumptions C49_interleaved_partial.

Theorem C49_separated_partial : forall m nd ty d b p cs, bytes_at m (b, p) (columns d cs) -> wf_seq d cs -> count32 cs ->
  (ty < 256)%N -> nd_swap nd = false ->
  exists nd', node_set_separated nd ty (dimN d) (b, p) (Z.of_nat (length (columns d cs))) = Ok nd' /\
    seq_node m ty (nd_level nd) d cs nd'.
Proof. exact set_separated_ok. Qed.
Print Assumptions C49_separated_partial.

Example C49_ex : bytes_at C16_mem (1%nat, 0) (rows [[1; 2]; [3; 4]]%N) /\ bytes_at C16_mem (1%nat, 0) (columns XY [[1; 3]; [2; 4]]%N) /\
  wf_seq XY [[1; 2]; [3; 4]]%N /\ count32 [[1; 2]; [3; 4]]%N.
Proof. split; [reflexivity|]. split; [reflexivity|]. split; [repeat constructor|reflexivity]. Qed.
