From Verif Require Import Base BaseFacts TypesModel TypesSpec GeomSpec NodesModel NodesSpec CoordsModel VisitorModel VisitorSpec WkbWriterSpec
  CopyCoordsModel CopyCoordsSpec GeomVisitModel GeomVisitProofs
  GeomBuildModel GeomBuildSpec GeomBuildProofs GeomBuildRoll GeomBuildSafety GeomCopyProofs.
Local Open Scope Z_scope.

Definition swapped_mem : mem := [empty_point_coords; flat_map (be_bytes 8) [1; 1]%N].
Definition swapped_nodes : list node :=
  [{| nd_coords := Quad (1%nat, 0) (1%nat, 8) nan_ptr nan_ptr; nd_stride := Quad 16 16 0 0; nd_size := 1; nd_type := 1;
      nd_dims := 1; nd_swap := true; nd_level := 0 |}].
Lemma swapped_repr : repr_geom swapped_mem 0 swapped_nodes (GPoint XY [[1; 1]%N]).
Proof.
  constructor. split; try reflexivity. intros i j c Hi Hj. destruct i as [|i]; [|destruct i; discriminate]. injection Hi as <-.
  destruct j as [|[|j]]; cbn in Hj; try lia; vm_compute; reflexivity.
Qed.
Lemma swapped_wf : wf_geom (GPoint XY [[1; 1]%N]).
Proof. repeat constructor. Qed.

Definition three_cells : dmem := fun a => if (Nat.eqb (fst a) 5 && (0 <=? snd a) && (snd a <? 3))%bool then Some 0%N else None.
Definition three_out : quad daddr := Quad (5%nat, 0) (5%nat, 1) (5%nat, 2) (0%nat, 0).

Lemma swapped_missing_dim : exists m nodes g out os dm dm',
  nth_error m 0 = Some empty_point_coords /\ repr_geom m 0 nodes g /\ wf_geom g /\
  room dm out os XYZ (length (geom_coords g)) /\
  copy_coords_generic m nodes out os (dim_code XYZ) dm = Ok dm' /\ ~ copied dm dm' out os XYZ (geom_coords g).
Proof.
  destruct (copy_coords_generic swapped_mem swapped_nodes three_out (qconst 3) (dim_code XYZ) three_cells) as [dm'| | |] eqn:E;
    [|vm_compute in E; discriminate E..].
  exists swapped_mem, swapped_nodes, (GPoint XY [[1; 1]%N]), three_out, (qconst 3), three_cells, dm'.
  split; [reflexivity|]. split; [apply swapped_repr|]. split; [apply swapped_wf|]. split; [|split; [exact E|]].
  - change (length (geom_coords (GPoint XY [[1; 1]%N]))) with 1%nat. split.
    + intros k col Hk Hcol. change (ndim XYZ) with 3%nat in Hcol. destruct k; [|lia].
      destruct col as [|[|[|col]]]; try lia; vm_compute; discriminate.
    + intros k col k' col' Hk Hcol Hk' Hcol'. change (ndim XYZ) with 3%nat in *. destruct k; [|lia]. destruct k'; [|lia].
      destruct col as [|[|[|col]]]; try lia; destruct col' as [|[|[|col']]]; try lia; vm_compute; intros H; first [discriminate H|auto].
  - intros [H _]. specialize (H 0%nat XY [1; 1]%N 2%nat eq_refl ltac:(cbn; lia)).
    assert (match copy_coords_generic swapped_mem swapped_nodes three_out (qconst 3) (dim_code XYZ) three_cells with
            | Ok dm => dm (out_cell three_out (qconst 3) 0 2) | _ => None end <> Some qnan) as N by (vm_compute; discriminate).
    rewrite E in N. apply N. rewrite H. reflexivity.
Qed.

Lemma empty_member : exists g e s', geom_events g e /\ wf_geom g /\ counts32 g /\ (nesting g <= 31)%nat /\
  feed geom_step g_init ([EFeatStart] ++ e ++ [EFeatEnd]) = Some (s', 0) /\
  snd (trace (view_visit (g_mem s') (g_nodes s'))) = Err EINVAL.
Proof.
  exists (GColl CCollection XY [GPoint XY []]), [EGeomStart 7 1; EGeomStart 1 1; EGeomEnd; EGeomEnd].
  eexists. split; [|split; [repeat constructor|split; [repeat constructor|split; [cbn; lia|split]]]].
  - apply (ge_coll CCollection XY _ [EGeomStart 1 1; EGeomEnd]). apply (pe_cons _ _ [EGeomStart 1 1; EGeomEnd] []); [|constructor].
    apply (ge_point XY [] []). constructor.
  - reflexivity.
  - vm_compute. reflexivity.
Qed.

Lemma rebuild s g e : g_reachable s -> geom_events g e -> wf_geom g -> counts32 g -> (nesting g <= 31)%nat ->
  geom_coords g <> [] \/ simple g ->
  exists s', feed geom_step s ([EFeatStart] ++ e ++ [EFeatEnd]) = Some (s', 0) /\
    repr_geom (g_mem s') 0 (g_nodes s') g /\
    exists e', trace (view_visit (g_mem s') (g_nodes s')) = ([EFeatStart] ++ e' ++ [EFeatEnd], Ok tt) /\ geom_events g e'.
Proof.
  intros Hr He Hwf Hc Hn Hs. destruct (build_ok g e s He Hwf Hc Hn (reachable_blk s Hr) Hs) as (s' & E & _ & _ & R).
  exists s'. split; [exact E|]. split; [exact R|]. destruct (view_visit_ok _ _ _ R Hwf) as (e' & T & G & _). exists e'. split; assumption.
Qed.

Lemma rebuild_too_deep s g e : g_reachable s -> geom_events g e -> (31 < nesting g)%nat ->
  exists s', feed geom_step s ([EFeatStart] ++ e ++ [EFeatEnd]) = Some (s', EINVAL).
Proof. intros Hr He Hn. exact (build_too_deep g e s He Hn (reachable_blk s Hr)). Qed.

Lemma null_then_ring : exists evs, feed geom_step g_init (EFeatStart :: evs) = None /\
  Forall (fun e => e <> ENullFeat -> plain_event e) evs.
Proof.
  exists [ENullFeat; ERingStart; ECoords 2 [[1; 2]%N]; EFeatEnd]. split; [vm_compute; reflexivity|].
  repeat constructor; intros H; exfalso; apply H; reflexivity.
Qed.

Lemma after_error : exists evs s, Forall plain_event evs /\
  feed geom_step g_init (EFeatStart :: evs) = Some (s, EINVAL) /\ feed geom_step s [EFeatEnd] = None.
Proof.
  remember ([EGeomStart 1 1; ECoords 2 [[1; 2]%N]] ++ repeat (EGeomStart 7 1) 31) as evs eqn:Ev.
  destruct (feed geom_step g_init (EFeatStart :: evs)) as [[s c]|] eqn:E; [|subst evs; vm_compute in E; discriminate E].
  exists evs, s. split; [|split].
  - subst evs. cbn [app repeat]. repeat (constructor; [first [exact I|cbn; lia]|]). constructor.
  - assert (match feed geom_step g_init (EFeatStart :: evs) with Some (_, c) => c | None => 0 end = EINVAL) as H
      by (subst evs; vm_compute; reflexivity). rewrite E in H. subst c. exact E.
  - assert (match feed geom_step g_init (EFeatStart :: evs) with Some (s, _) => feed geom_step s [EFeatEnd] | None => Some (g_init, 0) end = None) as H
      by (subst evs; vm_compute; reflexivity). rewrite E in H. exact H.
Qed.

Lemma swapped_copy : exists m nodes nodes' bs w, 
  repr_geom m 0 nodes (GPoint XY [[w; w]]) /\ wf_geom (GPoint XY [[w; w]]) /\
  deep_copy m (length m) nodes = Ok (nodes', bs) /\ ~ repr_geom (m ++ [bs]) 0 nodes' (GPoint XY [[w; w]]).
Proof.
  destruct (deep_copy swapped_mem (length swapped_mem) swapped_nodes) as [[nodes' bs]| | |] eqn:E; [|vm_compute in E; discriminate E..].
  exists swapped_mem, swapped_nodes, nodes', bs, 1%N. split; [apply swapped_repr|]. split; [apply swapped_wf|]. split; [exact E|].
  intros H. inversion H as [? ? ? nd S| | |]; subst.
  pose proof (sn_ords _ _ _ _ _ _ S 0%nat 0%nat _ eq_refl ltac:(cbn; lia)) as H0.
  assert (match deep_copy swapped_mem (length swapped_mem) swapped_nodes with
          | Ok ([nd], bs) => node_ordinate (swapped_mem ++ [bs]) nd 0 0 | _ => None end <> Some 1%N) as N by (vm_compute; discriminate).
  rewrite E in N. apply N. exact H0.
Qed.

Lemma missing_dims : exists m cs nd, bytes_at m (1%nat, 0) (rows cs) /\ wf_seq XY cs /\
  node_set_interleaved fresh_node 2 (dimN XY) (1%nat, 0) (Z.of_nat (length (rows cs))) = Ok nd /\
  node_ordinate m nd 0 2 = Some 3%N.
Proof.
  exists [empty_point_coords; rows [[1; 2]; [3; 4]]%N], [[1; 2]; [3; 4]]%N. eexists.
  split; [reflexivity|]. split; [repeat constructor|]. split; [reflexivity|]. vm_compute. reflexivity.
Qed.
