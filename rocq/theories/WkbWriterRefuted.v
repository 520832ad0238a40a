From Verif Require Import Base BaseFacts TypesModel GeomSpec GeomFacts WkbSpec NodesModel NodesSpec VisitorModel VisitorSpec
  VisitorFacts GeomVisitModel GeomVisitProofs BufferModel BufferFacts ArraySpec WkbWriterModel WkbWriterProofs WkbWriterSpec
  WkbWriterHistory WkbWriterSafety.
Local Open Scope Z_scope.

(** A linestring of 2^31 coordinates that share their sixteen bytes (all strides are 0). *)
Definition shared_mem : mem := [empty_point_coords; repeat 0%N 16].
Definition shared_node : node :=
  {| nd_coords := Quad (1%nat, 0) (1%nat, 8) nan_ptr nan_ptr; nd_stride := qconst 0; nd_size := 2147483648; nd_type := 2;
     nd_dims := 1; nd_swap := false; nd_level := 0 |}.
Definition shared_line : geom := GLine XY (repeat [0; 0]%N (N.to_nat 2147483648)).

Lemma shared_repr : repr_geom shared_mem 0 [shared_node] shared_line.
Proof.
  apply rg_line. split; [reflexivity|reflexivity|reflexivity| |].
  - rewrite repeat_length, N2Nat.id. reflexivity.
  - intros i j c Hi Hj. apply nth_error_In, repeat_spec in Hi as ->.
    unfold node_ordinate. destruct j as [|[|j]]; [| |cbn in Hj; lia]; cbn [qget shared_node nd_coords nd_stride qconst];
      rewrite Z.mul_0_r; vm_compute; reflexivity.
Qed.
Lemma shared_wf : wf_geom shared_line.
Proof.
  constructor. apply Forall_forall. intros c Hc. apply repeat_spec in Hc as ->. split; [reflexivity|repeat constructor].
Qed.

Lemma write_sequence_overruns m nd dst : nd_dims nd = 1%N -> nd_size nd = 2147483648%N -> 0 <= dst < 2 ^ 32 ->
  write_sequence m nd dst = UB.
Proof.
  intros Hd Hs Hdst. unfold write_sequence. rewrite Hd, Hs. cbn [num_dimensions].
  change (num_dimensions (Z.of_N 1)) with (Some 2). cbn [or_ub obind].
  change (Z.to_N (2 mod 4294967296)) with 2%N. change (Z.of_N (wrap32 (2 * 2147483648) * 8)) with 0.
  change (Z.of_N (2 * 2147483648) * 8) with 34359738368.
  destruct (Z.ltb_spec dst 0); [lia|]. destruct (Z.ltb_spec dst 34359738368); [reflexivity|lia].
Qed.

Lemma shared_append_ub : wkb_append shared_mem [shared_node] wkb_init = VUB.
Proof.
  unfold wkb_append. cbn [append_buffer]. change (0 <? 0)%N with false. cbv iota.
  change (N.eqb (nd_type shared_node) 1) with false. change (N.eqb (nd_type shared_node) 2) with true. cbv iota.
  cbn [append_sequence]. rewrite write_sequence_overruns; [reflexivity|reflexivity|reflexivity|]. vm_compute. split; [discriminate|reflexivity].
Qed.

(** ** Failing appends *)
Definition bad_node : node :=
  {| nd_coords := qconst nan_ptr; nd_stride := qconst 0; nd_size := 0; nd_type := 8; nd_dims := 1; nd_swap := false; nd_level := 0 |}.
Definition line_node : node :=
  {| nd_coords := qconst nan_ptr; nd_stride := qconst 0; nd_size := 0; nd_type := 2; nd_dims := 1; nd_swap := false; nd_level := 0 |}.
Definition nan_mem : mem := [empty_point_coords].

Lemma line_repr : repr_geom nan_mem 0 [line_node] (GLine XY []).
Proof. apply rg_line. split; try reflexivity. intros [|i] j c Hi; discriminate. Qed.

Lemma failed_append_shifts :
  exists s1 s2 s3 a, run_op wkb_init (OpAppend nan_mem [bad_node]) = Some (s1, EINVAL) /\
    run_op s1 (OpAppend nan_mem [line_node]) = Some (s2, 0) /\ wkb_finish s2 = (s3, 0, Some a) /\
    ba_length a = 1 /\ element a 0 = Some [].
Proof. do 4 eexists. repeat split; vm_compute; reflexivity. Qed.

Lemma failed_visit_shifts :
  exists s1 s2 s3 s4 a, run_op wkb_init OpAppendNull = Some (s1, 0) /\
    run_op s1 (OpVisit [EFeatStart; EGeomStart 2 1]) = Some (s2, 0) /\
    run_op s2 (OpAppend nan_mem [line_node]) = Some (s3, 0) /\ wkb_finish s3 = (s4, 0, Some a) /\
    ba_length a = 3 /\ element a 2 = Some (iso_wkb (GLine XY [])) /\ is_valid a 2 = None.
Proof.
  assert (match run_op wkb_init OpAppendNull with
          | Some (s1, c1) => match run_op s1 (OpVisit [EFeatStart; EGeomStart 2 1]) with
            | Some (s2, c2) => match run_op s2 (OpAppend nan_mem [line_node]) with
              | Some (s3, c3) => match wkb_finish s3 with
                | (s4, c4, Some a) => (c1, c2, c3, c4, ba_length a, element a 2, is_valid a 2) =
                                      (0, 0, 0, 0, 3, Some (iso_wkb (GLine XY [])), None)
                | _ => False end
              | None => False end
            | None => False end
          | None => False end) as H by (vm_compute; reflexivity).
  destruct (run_op wkb_init OpAppendNull) as [[s1 c1]|]; [|contradiction].
  destruct (run_op s1 (OpVisit [EFeatStart; EGeomStart 2 1])) as [[s2 c2]|] eqn:E2; [|contradiction].
  destruct (run_op s2 (OpAppend nan_mem [line_node])) as [[s3 c3]|] eqn:E3; [|contradiction].
  destruct (wkb_finish s3) as [[s4 c4] [a|]] eqn:E4; [|contradiction].
  injection H as -> -> -> -> H1 H2 H3. exists s1, s2, s3, s4, a. auto 10.
Qed.

(** ** Unexpected events *)
Lemma extra_geom_end_ub : feed wkb_step wkb_init [EFeatStart; EGeomStart 1 1; EGeomEnd; EGeomEnd] = None.
Proof. vm_compute. reflexivity. Qed.
