(** * Geometries without coordinates that are rebuilt *)
From Verif Require Import Base BaseFacts TypesModel TypesSpec GeomSpec NodesModel NodesSpec CoordsModel VisitorModel VisitorSpec VisitorFacts WkbWriterSpec BufferModel
  GeomVisitModel GeomVisitProofs GeomBuildModel GeomBuildSpec GeomBuildProofs GeomBuildRoll GeomBuildSafety.
Local Open Scope Z_scope.

Lemma visit_unset m nd r : nd_size nd = 0%N -> (3 <= nd_type nd <= 7)%N -> r <> [] ->
  trace (view_visit m (nd :: r)) = ([EFeatStart; EGeomStart (nd_type nd) (nd_dims nd); EGeomEnd], Err EINVAL).
Proof.
  intros Hn Ht Hr. unfold view_visit. apply trace_emit_bind. cbn [visit_node]. change (get_node (nd :: r) 0) with (Ok nd : outcome node). cbn [pbind].
  assert (E : (Z.of_nat (length (nd :: r)) - 1 =? 0) = false) by (apply Z.eqb_neq; destruct r; [contradiction | cbn [length]; lia]).
  set (n := Z.of_nat (length (nd :: r)) - 1) in *.
  assert (P : forall {St} (body : St -> prog St) f st, ploop f 0 body st = Ret (Ok st)) by (intros St body [|f] st; reflexivity).
  rewrite Hn.
  assert (C : nd_type nd = 3%N \/ nd_type nd = 4%N \/ nd_type nd = 5%N \/ nd_type nd = 6%N \/ nd_type nd = 7%N) by lia.
  assert (L : (n <? Z.of_N 0) = false) by (apply Z.ltb_ge; subst n; cbn [length]; lia).
  change (Z.of_N 0) with 0 in L. clearbody n.
  destruct C as [->|[->|[->|[->| ->]]]];
    repeat match goal with |- context [N.eqb ?a ?b] => let v := eval vm_compute in (N.eqb a b) in change (N.eqb a b) with v end; cbn [orb]; change (Z.of_N 0) with 0;
    rewrite ?L, ?P; apply (trace_bind_ok _ _ [EGeomStart _ _; EGeomEnd] n []); try (rewrite E; reflexivity);
    apply trace_emit_bind; cbn [pbind]; apply trace_emit_bind; rewrite ?Z.sub_0_r; reflexivity.
Qed.

Lemma rebuild_unset s g e : g_reachable s -> geom_events g e -> (nesting g <= 31)%nat -> geom_coords g = [] -> ~ simple g ->
  exists start rest s', e = start :: rest /\ feed geom_step s ([EFeatStart] ++ e ++ [EFeatEnd]) = Some (s', 0) /\
    trace (view_visit (g_mem s') (g_nodes s')) = ([EFeatStart; start; EGeomEnd], Err EINVAL).
Proof.
  intros Hr He Hn Hc Hs. pose proof (reachable_blk s Hr) as Hb.
  set (s0 := {| g_nodes := []; g_coords := {| b_data := []; b_cap := b_cap (g_coords s) |}; g_blk := g_blk s; g_level := 0 |}).
  assert (H0 : home s0) by (split; [exact Hb | constructor]).
  destruct (geom_feed g e He s0 H0) as (s1 & E1 & G1); [cbn; lia | cbn [s0 g_level]; lia|].
  pose proof (gr_nodes _ _ _ _ _ G1) as N1. cbn [s0 g_nodes map app g_level] in N1.
  pose proof (gr_data _ _ _ _ _ G1) as D1. unfold gbytes in D1. rewrite Hc in D1. cbn in D1.
  assert (S1 : b_size (g_coords s1) = 0) by (unfold b_size; rewrite D1; reflexivity).
  assert (Sh : exists nd r, g_nodes s1 = nd :: r /\ nd_size nd = 0%N /\ (3 <= nd_type nd <= 7)%N /\ r <> [] /\
     exists rest, e = EGeomStart (nd_type nd) (nd_dims nd) :: rest).
  { destruct g as [d cs|d cs|d rings|k d parts]; cbn [simple] in Hs; try (destruct (Hs I)).
    - destruct rings as [|cs rings]; [destruct (Hs I)|]. inversion He; subst. rewrite N1. eexists. eexists.
      split; [reflexivity|]. split; [reflexivity|]. split; [cbn; lia|]. split; [discriminate|]. eexists. reflexivity.
    - destruct parts as [|p parts]; [destruct (Hs I)|]. inversion He; subst. rewrite N1, geom_at_coll. eexists. eexists.
      split; [reflexivity|]. split; [reflexivity|]. split; [apply coll_code_37|]. split; [|eexists; reflexivity].
      cbn [parts_at]. intros E. apply app_eq_nil in E as [E _]. destruct p; discriminate. }
  destruct Sh as (nd & r & N & Z0 & Ty & Hne & rest & Ee). exists (EGeomStart (nd_type nd) (nd_dims nd)), rest, s1. split; [exact Ee|]. split.
  - change (feed geom_step s ([EFeatStart] ++ e ++ [EFeatEnd])) with (feed geom_step s0 (e ++ [EFeatEnd])).
    rewrite (feed_app_ok _ _ _ _ _ E1). cbn [feed geom_step g_feat_end]. unfold g_feat_end. rewrite N, S1. reflexivity.
  - rewrite N. exact (visit_unset _ nd r Z0 Ty Hne).
Qed.
