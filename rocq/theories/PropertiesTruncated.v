(** * C14: node lists that end too early *)
From Verif Require Import Base TypesModel GeomSpec NodesModel NodesSpec VisitorModel GeomVisitModel TruncatedSpec GeomTruncated
  PropertiesVisit.
Local Open Scope Z_scope.

(** Every proper prefix of the node list of every geometry: the visit is rejected exactly when the list ends in the rings of a
    polygon, and reads past the end of the list wherever else it ends. It never succeeds. *)
Theorem C14_truncated : forall m nodes missing g, repr_geom m 0 (nodes ++ missing) g -> wf_geom g -> missing <> [] ->
  (ends_in_rings nodes -> snd (trace (view_visit m nodes)) = Err EINVAL) /\
  (~ ends_in_rings nodes -> snd (trace (view_visit m nodes)) = UB).
Proof. exact visit_truncated. Qed.
Print Assumptions C14_truncated.

(** A collection of a polygon and a linestring without the ring of the polygon, and without the linestring *)
Example C14_truncated_ex : repr_geom C13_mem 0 (firstn 2 C13_nodes ++ skipn 2 C13_nodes) C13_geom /\ wf_geom C13_geom /\
  ends_in_rings (firstn 2 C13_nodes) /\ snd (trace (view_visit C13_mem (firstn 2 C13_nodes))) = Err EINVAL /\
  ~ ends_in_rings (firstn 3 C13_nodes) /\ snd (trace (view_visit C13_mem (firstn 3 C13_nodes))) = UB.
Proof.
  destruct C13_ex as (H1 & H2). split; [exact H1|]. split; [exact H2|]. split; [|split; [reflexivity|split; [|reflexivity]]].
  - exists (firstn 1 C13_nodes). do 2 eexists. split; [reflexivity|]. split; reflexivity.
  - intros (before & poly & after & E & Ht & Hs).
    destruct before as [|a [|b [|c [|x before]]]]; cbn in E; injection E; intros; subst; cbn in Ht, Hs; try discriminate; lia.
Qed.
