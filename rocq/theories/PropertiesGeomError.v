(** * C76: error messages about geometries are true *)
From Verif Require Import Base Text TypesModel NodesModel GeomSpec VisitorModel VisitorSpec GeomVisitModel GeomBuildModel TruncatedSpec
  GeomErrorModel GeomErrorSpec GeomErrorProofs PropertiesVisit.
Local Open Scope Z_scope.

(** ** Visiting *)

(** Every list of nodes (of types of one byte) on which no memory is read that is not there, with a visitor whose calls succeed: the
    list is that of a geometry and the message stays as it was; or the visit fails with EINVAL and a message that is true of the list;
    or it fails with EINVAL without a message, and then the list ends in the rings of a polygon.
    Missing: a message in the last case (C76_rings_refuted), and lists on which other memory is read (C14_truncated). *)
Theorem C76_visit_partial : forall m nodes before, Forall (fun nd => (nd_type nd < 256)%N) nodes ->
  snd (trace (view_visit m nodes)) <> UB ->
  (snd (trace (view_visit m nodes)) = Ok tt /\ visit_told m nodes before = Ok (0, before) /\ tree nodes) \/
  (snd (trace (view_visit m nodes)) = Err EINVAL /\
   ((exists text r, visit_told m nodes before = Ok (EINVAL, text ++ [0%N] ++ r) /\ nodes_complaint nodes text) \/
    (visit_told m nodes before = Ok (EINVAL, before) /\ ends_in_rings nodes))).
Proof. exact visit_says. Qed.
Print Assumptions C76_visit_partial.

(** The list of a geometry is never complained about ... *)
Theorem C76_accepted : forall m nodes before, tree nodes -> snd (trace (view_visit m nodes)) <> UB ->
  snd (trace (view_visit m nodes)) = Ok tt /\ visit_told m nodes before = Ok (0, before).
Proof. exact visit_tree. Qed.
Print Assumptions C76_accepted.

(** ... and nodes after it always are. *)
Theorem C76_surplus : forall m nodes extra before, tree nodes -> extra <> [] -> snd (trace (view_visit m (nodes ++ extra))) <> UB ->
  exists r, visit_told m (nodes ++ extra) before =
    Ok (EINVAL, $"Too many nodes provided to GeoArrowGeometryVisit() for root geometry" ++ [0%N] ++ r).
Proof. exact visit_extra. Qed.
Print Assumptions C76_surplus.

(** The full property is false: a polygon without its ring is refused, and whatever message was there before stays. *)
Theorem C76_rings_refuted : exists nodes, forall m before,
  snd (trace (view_visit m nodes)) = Err EINVAL /\ visit_told m nodes before = Ok (EINVAL, before).
Proof. exact rings_silent. Qed.
Print Assumptions C76_rings_refuted.

(** The geometry of C13; with a node too many; and with a type that there is not. *)
Definition C76_node (t : N) : node :=
  {| nd_coords := qconst nan_ptr; nd_stride := qconst 0; nd_size := 0; nd_type := t; nd_dims := 1; nd_swap := false; nd_level := 0 |}.
Example C76_visit_ex :
  Forall (fun nd => (nd_type nd < 256)%N) (C13_nodes ++ [C76_node 1]) /\
  tree C13_nodes /\ snd (trace (view_visit C13_mem C13_nodes)) <> UB /\
  snd (trace (view_visit C13_mem (C13_nodes ++ [C76_node 1]))) <> UB /\
  nodes_complaint (C13_nodes ++ [C76_node 1]) $"Too many nodes provided to GeoArrowGeometryVisit() for root geometry" /\
  (exists r, visit_told C13_mem [C76_node 42] [] = Ok (EINVAL, $"Invalid geometry_type: 42" ++ [0%N] ++ r)).
Proof.
  assert (tree C13_nodes) as Ht.
  { apply (tree_collection _ [firstn 2 (skipn 1 C13_nodes); skipn 3 C13_nodes]); [cbn; auto|reflexivity|].
    constructor; [|constructor; [|constructor]]; [apply tree_polygon; reflexivity|apply tree_sequence; cbn; auto]. }
  split; [repeat constructor|]. split; [exact Ht|]. split; [vm_compute; discriminate|]. split; [vm_compute; discriminate|].
  split; [|eexists; vm_compute; reflexivity].
  apply (too_many_nodes _ C13_nodes [C76_node 1]); [reflexivity|exact Ht|discriminate].
Qed.

(** ** Building *)

(** Any calls for one feature, in any order, on a geometry in any state: unless one performs an undefined access (C48), all succeed and
    the message stays as it was, or the first that does not fails with EINVAL and a message that is true of it and the calls before. *)
Theorem C76_build : forall s before evs, ~ In EFeatStart evs ->
  match build_told before s (EFeatStart :: evs) with
  | None => feed geom_step s (EFeatStart :: evs) = None
  | Some (code, message) =>
      (exists s', feed geom_step s (EFeatStart :: evs) = Some (s', code)) /\
      ((code = 0 /\ message = before) \/
       (code = EINVAL /\ exists past e rest text r, evs = past ++ e :: rest /\ message = text ++ [0%N] ++ r /\
          (exists s', feed geom_step s (EFeatStart :: past) = Some (s', 0)) /\ call_complaint past e text))
  end.
Proof. exact build_says. Qed.
Print Assumptions C76_build.

(** A call of which such a message is true, after calls that succeeded and were no null feature, fails with that message. *)
Theorem C76_build_refused : forall s before past e text, ~ In EFeatStart past -> ~ In ENullFeat past -> call_complaint past e text ->
  feed geom_step s (EFeatStart :: past ++ [e]) <> None -> (exists s', feed geom_step s (EFeatStart :: past) = Some (s', 0)) ->
  exists r, build_told before s (EFeatStart :: past ++ [e]) = Some (EINVAL, text ++ [0%N] ++ r).
Proof. exact build_refuses. Qed.
Print Assumptions C76_build_refused.

(** The end of a geometry that was ended already. *)
Example C76_build_ex :
  call_complaint [EGeomStart 1 1; EGeomEnd] ERingEnd $"Incorrect nesting in GeoArrowGeometry visitor (level < 0)" /\
  feed geom_step g_init (EFeatStart :: [EGeomStart 1 1; EGeomEnd] ++ [ERingEnd]) <> None /\
  (exists s', feed geom_step g_init (EFeatStart :: [EGeomStart 1 1; EGeomEnd]) = Some (s', 0)) /\
  exists r, build_told [] g_init [EFeatStart; EGeomStart 1 1; EGeomEnd; ERingEnd] =
    Some (EINVAL, $"Incorrect nesting in GeoArrowGeometry visitor (level < 0)" ++ [0%N] ++ r).
Proof.
  split; [apply too_many_ends; reflexivity|]. split; [vm_compute; discriminate|]. split; eexists; vm_compute; reflexivity.
Qed.
