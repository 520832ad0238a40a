(** * C13, C14, C17 (geometry views and WKB): visiting *)
From Verif Require Import Base TypesModel GeomSpec NodesModel NodesSpec WkbSpec VisitorModel VisitorSpec VisitorFacts
  WkbReaderModel GeomVisitModel GeomVisitProofs GeomVisitSafety.
Local Open Scope Z_scope.

(** ** C13 *)

Theorem C13_view_visit : forall m nodes g, repr_geom m 0 nodes g -> wf_geom g ->
  exists evs, trace (view_visit m nodes) = ([EFeatStart] ++ evs ++ [EFeatEnd], Ok tt) /\
    geom_events g evs /\ small_batches evs.
Proof. exact view_visit_ok. Qed.
Print Assumptions C13_view_visit.

(** The same for a WKB blob in any encoding. *)
Theorem C13_wkb_visit : forall g b rest swap0,
  wkb g b -> wf_geom g -> (levels g <= 256)%nat -> (N.of_nat (length b) < 2 ^ 35)%N ->
  exists evs, trace (wkb_visit (b ++ rest) swap0) = ([EFeatStart] ++ evs ++ [EFeatEnd], Ok tt) /\
    geom_events g evs /\ small_batches evs.
Proof. exact wkb_visit_ok. Qed.
Print Assumptions C13_wkb_visit.

(** A polygon with a swapped-order ring next to an empty linestring, in a collection. *)
Definition C13_mem : mem := [empty_point_coords; flat_map (be_bytes 8) [1; 2; 3; 4; 1; 2]%N].
Definition C13_nodes : list node :=
  [{| nd_coords := qconst nan_ptr; nd_stride := qconst 0; nd_size := 2; nd_type := 7; nd_dims := 1; nd_swap := false; nd_level := 0 |};
   {| nd_coords := qconst nan_ptr; nd_stride := qconst 0; nd_size := 1; nd_type := 3; nd_dims := 1; nd_swap := false; nd_level := 1 |};
   {| nd_coords := Quad (1%nat, 0) (1%nat, 8) nan_ptr nan_ptr; nd_stride := Quad 16 16 0 0; nd_size := 3; nd_type := 2;
      nd_dims := 1; nd_swap := true; nd_level := 2 |};
   {| nd_coords := qconst nan_ptr; nd_stride := qconst 0; nd_size := 0; nd_type := 2; nd_dims := 2; nd_swap := false; nd_level := 1 |}].
Definition C13_geom : geom := GColl CCollection XY [GPoly XY [[[1; 2]; [3; 4]; [1; 2]]%N]; GLine XYZ []].

Example C13_ex : repr_geom C13_mem 0 C13_nodes C13_geom /\ wf_geom C13_geom.
Proof.
  split; [|repeat constructor].
  apply rg_coll; [split; reflexivity|].
  apply (rp_cons C13_mem 1 _ _ (firstn 2 (skipn 1 C13_nodes)) (skipn 3 C13_nodes)).
  - apply rg_poly; [split; reflexivity|]. constructor; [|constructor]. split; try reflexivity.
    intros i j c Hi Hj. destruct i as [|[|[|i]]]; cbn in Hi; try (destruct i; discriminate); injection Hi as <-;
      destruct j as [|[|j]]; cbn in Hj; try lia; vm_compute; reflexivity.
  - apply (rp_cons C13_mem 1 _ _ (skipn 3 C13_nodes) []); [|constructor].
    apply rg_line. split; try reflexivity. intros [|i] j c Hi; discriminate.
Qed.

(** ** C14 *)

(** The full property is false: a single collection node that announces a member makes the visit read the node after the
    end of the list. *)
Theorem C14_truncated_refuted : exists nodes, length nodes = 1%nat /\
  forall m, snd (trace (view_visit m nodes)) = UB.
Proof. exact (ex_intro _ truncated_collection (conj eq_refl (fun m => f_equal snd (truncated_collection_ub m)))). Qed.
Print Assumptions C14_truncated_refuted.

(** What holds: the visit of every node list terminates ... *)
Theorem C14_view_visit_terminates : forall m nodes, snd (trace (view_visit m nodes)) <> NoFuel.
Proof. exact view_visit_terminates. Qed.
Print Assumptions C14_view_visit_terminates.

(** ... and a list with surplus nodes is rejected after the events of the tree. Lists with too few nodes: [C14_truncated] in PropertiesTruncated.v. *)
Theorem C14_surplus_partial : forall m nodes extra g, repr_geom m 0 nodes g -> wf_geom g -> extra <> [] ->
  exists evs, trace (view_visit m (nodes ++ extra)) = ([EFeatStart] ++ evs, Err EINVAL) /\ geom_events g evs.
Proof. exact view_visit_surplus. Qed.
Print Assumptions C14_surplus_partial.

(** ** C17, for geometry views and WKB. The WKT reader and the native array reader follow in their own files. *)

(** Every node list, valid or not: the calls made are a prefix of a properly nested sequence, complete when the visit
    succeeds; and if the visitor fails at its [n]-th call, exactly the calls up to that one are made and its code is
    returned. *)
Theorem C17_view_visit : forall m nodes,
  nested_prefix (fst (trace (view_visit m nodes))) /\
  (forall u, snd (trace (view_visit m nodes)) = Ok u -> well_nested (fst (trace (view_visit m nodes)))).
Proof. exact (fun m nodes => nests_prefix _ (nests_view_visit m nodes)). Qed.
Print Assumptions C17_view_visit.

Theorem C17_view_visit_error : forall m nodes codes n,
  (forall k, (k < n)%nat -> codes k = 0) -> codes n <> 0 -> (n < length (fst (trace (view_visit m nodes))))%nat ->
  run (scripted codes) (view_visit m nodes) [] = Some (firstn (S n) (fst (trace (view_visit m nodes))), Err (codes n)).
Proof. exact (fun m nodes codes n => lawful_propagates _ codes n (lawful_view_visit m nodes)). Qed.
Print Assumptions C17_view_visit_error.

Theorem C17_wkb_visit : forall src swap0,
  nested_prefix (fst (trace (wkb_visit src swap0))) /\
  (forall u, snd (trace (wkb_visit src swap0)) = Ok u -> well_nested (fst (trace (wkb_visit src swap0)))).
Proof. exact (fun src swap0 => nests_prefix _ (nests_wkb_visit src swap0)). Qed.
Print Assumptions C17_wkb_visit.

Theorem C17_wkb_visit_error : forall src swap0 codes n,
  (forall k, (k < n)%nat -> codes k = 0) -> codes n <> 0 -> (n < length (fst (trace (wkb_visit src swap0))))%nat ->
  run (scripted codes) (wkb_visit src swap0) [] = Some (firstn (S n) (fst (trace (wkb_visit src swap0))), Err (codes n)).
Proof. exact (fun src swap0 codes n => lawful_propagates _ codes n (lawful_wkb_visit src swap0)). Qed.
Print Assumptions C17_wkb_visit_error.

Example C17_ex : fst (trace (view_visit C13_mem C13_nodes)) =
  [EFeatStart; EGeomStart 7 1; EGeomStart 3 1; ERingStart; ECoords 2 [[1; 2]; [3; 4]; [1; 2]]%N; ERingEnd; EGeomEnd;
   EGeomStart 2 2; ECoords 3 []; EGeomEnd; EGeomEnd; EFeatEnd] /\
  run (scripted (fun k => if Nat.eqb k 3 then 42 else 0)) (view_visit C13_mem C13_nodes) [] =
  Some ([EFeatStart; EGeomStart 7 1; EGeomStart 3 1; ERingStart], Err 42).
Proof. split; vm_compute; reflexivity. Qed.
