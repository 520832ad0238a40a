(** * Offsets that do not fit 32 bits *)
From Verif Require Import Base BaseFacts TypesModel GeomSpec VisitorModel BufferModel BufferFacts CoordsModel BitmapModel BitmapSpec BitmapProofs
  ArrowModel ArrayViewModel NativeSpec NativeProofs GeomFacts NodesModel NodesSpec CopyCoordsModel CopyCoordsSpec CopyCoordsProofs
  BuilderModel BuilderSpec BuilderRun BuilderFacts BuilderCoords BuilderAppend BuilderFinish BuilderProofs
  NativeWriterModel NativeWriterSpec NativeWriterFacts NativeWriterAppend NativeWriterGeom NativeWriterArray NativeWriterFinish NativeWriterRun
  NativeWriterProofs NativeWriterHistory.
Local Open Scope Z_scope.

(** A linestring that repeats one coordinate [n] times: strides of 0. *)
Definition flat_mem : mem := [empty_point_coords; repeat 0%N 16].
Definition flat_line (n : N) : node :=
  {| nd_coords := Quad (1%nat, 0%Z) (1%nat, 8%Z) nan_ptr nan_ptr; nd_stride := qconst 0%Z; nd_size := n; nd_type := 2; nd_dims := 1;
     nd_swap := false; nd_level := 0 |}%N.

Lemma flat_item n : Z.of_nat n < 2 ^ 32 -> item_ok XY flat_mem [flat_line (N.of_nat n)] (GLine XY (repeat [0; 0]%N n)).
Proof.
  intros Hn. constructor.
  - reflexivity.
  - exists 0%N. constructor. constructor; try reflexivity.
    + cbn [nd_size flat_line]. rewrite repeat_length. reflexivity.
    + intros i j c Hi Hj. assert (c = [0; 0]%N) as -> by (eapply repeat_spec; eapply nth_error_In; exact Hi).
      unfold node_ordinate, flat_line, qconst. cbn [nd_coords nd_stride nd_swap]. destruct j as [|[|j]]; [| |cbn in Hj; lia]; cbn [qget]; rewrite Z.mul_0_r; reflexivity.
  - constructor. apply Forall_forall. intros c Hc. apply repeat_spec in Hc. subst c. split; [reflexivity|]. repeat constructor.
  - intros nd s [<-|[]] H. discriminate H.
  - cbn [geom_coords]. rewrite map_length, repeat_length. exact Hn.
Qed.

Section Junk.
  Variable junk : nat -> nat -> N.
  Hypothesis junk_bytes : forall i j, is_byte (junk i j).

  Lemma offsets_wrap n : Z.of_nat n = 2 ^ 31 - 1 ->
    let item := Some (flat_mem, [flat_line (N.of_nat n)]) in
    exists w a offs, writer_init junk (make_type GT_LINESTRING DIM_XY CT_SEPARATE) = Ok w /\ write_arrays junk w [[item; item; item]] = Ok [a] /\
      aa_length a = 3 /\ nth_error (aa_buffers a) 1 = Some (Some offs) /\
      int32_at offs 0 = Some 0 /\ int32_at offs 1 = Some 2147483647 /\ int32_at offs 2 = Some (-2) /\ int32_at offs 3 = Some 2147483645.
  Proof.
    intros Hn item. change (2 ^ 31 - 1) with 2147483647 in Hn.
    assert (Z.of_nat n < 2 ^ 32) as Hn2 by (change (2 ^ 32) with 4294967296; lia). pose proof (flat_item n Hn2) as Hit.
    set (g := GLine XY (repeat [0; 0]%N n)) in *.
    assert (store KLinestring XY g = Some (repeat [0; 0]%N n)) as Hs.
    { unfold store, g. destruct n as [|n']; [cbn in Hn; lia|]. cbn [geom_coords]. cbn [repeat map]. cbn iota. cbn [line_of map]. f_equal. f_equal.
      clear. induction n' as [|n' IH]; [reflexivity|]. cbn [repeat map]. f_equal. exact IH. }
    pose (els := [Some (repeat [0; 0]%N n); Some (repeat [0; 0]%N n); Some (repeat [0; 0]%N n)] : list (option (nest (n_lists KLinestring)))).
    destruct (writer_init_ok junk junk_bytes KLinestring Separate XY ltac:(discriminate)) as (w & E & H).
    destruct (append_items_ok junk junk_bytes KLinestring Separate XY ltac:(discriminate) [item; item; item] [Some g; Some g; Some g]
                els w [] H) as (w1 & E1 & [Hw Hl Hnl Hb]).
    { apply Forall2_cons; [exact Hit|]. apply Forall2_cons; [exact Hit|]. apply Forall2_cons; [exact Hit|]. apply Forall2_nil. }
    { repeat constructor; cbn [option_map]; f_equal; exact Hs. }
    { assert (small 1 (repeat [0; 0]%N n)) as Hsm.
      { split; [rewrite repeat_length, Hn; reflexivity|]. apply Forall_forall. intros ? _. exact I. }
      do 3 (apply Forall_cons; [exact Hsm|]). apply Forall_nil. }
    cbn [app] in *.
    destruct (finish_built junk junk_bytes KLinestring Separate XY w1 _ _ _ ltac:(discriminate) (proj1 Hw) Hb) as (v & cols & Hc & Hv & Hfin & _). cbn zeta in Hfin.
    change (map is_valid els) with [true; true; true] in *. cbn [length] in Hv.
    assert (counts 1 (map (element KLinestring XY) els) 0 = [Z.of_nat n; Z.of_nat n; Z.of_nat n]) as Hcnt.
    { unfold els. cbn [map element counts n_lists lens length]. rewrite repeat_length. reflexivity. }
    cbn [n_lists seq map app] in *. rewrite Hcnt in Hfin. set (o := offset_buffer _) in *.
    assert (length (concat (map (element KLinestring XY) els)) = n + n + n)%nat as Hlen.
    { unfold els. cbn [map element concat]. rewrite !app_length, repeat_length. cbn [length]. lia. }
    assert (int32_at o 0 = Some 0 /\ int32_at o 1 = Some 2147483647 /\ int32_at o 2 = Some (-2) /\ int32_at o 3 = Some 2147483645) as (O0 & O1 & O2 & O3).
    { unfold o. rewrite Hn. repeat split; vm_compute; reflexivity. }
    assert (list_length 4 o = 3) as Ho by (unfold o; rewrite buffer_length; reflexivity).
    destruct Hfin as (w' & Ef & _ & _).
    { split.
      - intros b ->. right. change (aa_length (assembled (ANative KLinestring Separate XY) (Some b) (o :: cols))) with (list_length 4 o). rewrite Ho. apply Hv.
      - cbn [n_lists skipn firstn lists_fit]. split.
        + split; [|exact I]. right. exists 0, 2147483645. rewrite !offset_at_int32, Ho. split; [exact O0|]. split; [exact O3|]. split; [lia|].
          rewrite (coord_array_len Separate XY None _ cols Hc). split; [lia|].
          change (leaves 1 (map (element KLinestring XY) els)) with (concat (map (element KLinestring XY) els)). etransitivity; [|apply inj_le; rewrite Hlen; apply Nat.le_refl]. lia.
        + destruct Hc as [C1 C2 C3 C4]. destruct cols as [|c cols]; [constructor|]. cbn [hd]. pose proof (Forall_inv C2) as Hc0.
          eapply Forall_impl; [|exact C2]. intros c1 Hc1. rewrite Hc0, Hc1. lia. }
    exists w, (set_null_count (nw_null_count w1) (assembled (ANative KLinestring Separate XY) v (o :: cols))), o.
    split; [exact E|]. split; [cbn [write_arrays]; rewrite E1; cbn [obind]; rewrite Ef; reflexivity|].
    split; [exact Ho|]. split; [reflexivity|]. auto.
  Qed.
End Junk.
