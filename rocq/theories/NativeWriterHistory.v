(** * Histories of appends to a native writer *)
From Verif Require Import Base BaseFacts TypesModel GeomSpec VisitorModel BufferModel BufferFacts CoordsModel BitmapModel BitmapSpec BitmapProofs
  ArrowModel ArrayViewModel NativeSpec NativeProofs GeomFacts NodesModel NodesSpec CopyCoordsModel CopyCoordsSpec CopyCoordsProofs
  BuilderModel BuilderSpec BuilderRun BuilderFacts BuilderCoords BuilderAppend BuilderFinish BuilderProofs
  NativeWriterModel NativeWriterSpec NativeWriterFacts NativeWriterAppend NativeWriterGeom NativeWriterArray NativeWriterFinish NativeWriterRun NativeWriterProofs.
Local Open Scope Z_scope.

Lemma concat_length_le {A} (xs : list (list A)) x : In x xs -> (length x <= length (concat xs))%nat.
Proof.
  induction xs as [|y xs IH]; [contradiction|]. cbn [concat]. rewrite app_length. intros [->|H]; [lia|]. specialize (IH H). lia.
Qed.
Lemma total_small_small n : forall xs, total_small n xs -> Forall (small n) xs.
Proof.
  induction n as [|n IH]; intros xs H.
  - apply Forall_forall. intros x _. exact I.
  - destruct H as (H1 & H2). specialize (IH _ H2). apply Forall_forall. intros x Hx. split.
    + eapply Z.le_lt_trans; [|exact H1]. apply inj_le. apply concat_length_le. exact Hx.
    + apply Forall_forall. intros y Hy. rewrite Forall_forall in IH. apply IH. apply in_concat. exists x. split; [exact Hx|exact Hy].
Qed.

Lemma list_array_exact l d cols : forall n (els : list (nest n)) v, columns_ok l d (leaves n els) cols -> total_small n els ->
  exact_offsets n (list_array (offset_buffers n els) (fun v => coord_array l d v cols) v).
Proof.
  induction n as [|n IH]; intros els v Hc Ht; [exact I|].
  pose proof Ht as (Ht1 & Ht2). specialize (IH (concat els) None Hc Ht2).
  destruct (list_array_ok l d cols n (concat els) None Hc Ht2) as (_ & L & _). cbn zeta in L.
  cbn [offset_buffers list_array exact_offsets]. exists (offset_buffer (lens els)). eexists. split; [reflexivity|]. split; [reflexivity|]. split; [reflexivity|].
  cbn [aa_length]. rewrite buffer_length, lens_length.
  assert (forall i, (i <= length els)%nat -> int32_at (offset_buffer (lens els)) (Z.of_nat i) = Some (Z.of_nat (length (concat (firstn i els))))) as Hat.
  { intros i Hi. rewrite buffer_nth by (rewrite lens_length; exact Hi). rewrite firstn_lens, total_lens, to_int32_small; [reflexivity|].
    pose proof (concat_firstn_le i els). unfold nest in *. lia. }
  split; [apply (Hat 0%nat); lia|]. split; [etransitivity; [apply (Hat (length els)); apply Nat.le_refl|]; rewrite firstn_all; f_equal; symmetry; exact L|]. split; [|exact IH].
  intros i Hi. assert (exists k, i = Z.of_nat k /\ (k < length els)%nat) as (k & -> & Hk).
  { exists (Z.to_nat i). split; [lia|]. apply Nat2Z.inj_lt. eapply Z.le_lt_trans; [|apply Hi]. lia. }
  eexists _, _. split; [apply Hat; apply Nat.lt_le_incl; exact Hk|].
  split; [replace (Z.of_nat k + 1) with (Z.of_nat (S k)) by lia; apply Hat; exact Hk|].
  destruct (@nth_error (list (nest n)) els k) as [x|] eqn:Ex; [|apply nth_error_None in Ex; exfalso; apply (Nat.lt_irrefl k); eapply Nat.lt_le_trans; [exact Hk|exact Ex]].
  rewrite (firstn_S _ els x Ex), concat_app, app_length. lia.
Qed.

Lemma exact_null c n a : exact_offsets n a -> exact_offsets n (set_null_count c a).
Proof.
  destruct (set_null_fields c a) as (H1 & H2 & H3 & H4). destruct n; cbn [exact_offsets]; rewrite ?H1, ?H2, ?H3, ?H4; auto.
Qed.

Lemma nulls_count {A} (els : list (option A)) : nulls (map is_valid els) = null_count els.
Proof.
  unfold nulls, null_count. f_equal. induction els as [|[x|] els IH]; cbn [map is_valid filter negb length]; [reflexivity|exact IH|]. f_equal. exact IH.
Qed.

(** ** Geometries of the array's own kind *)
Lemma convert_same d c : length c = ndim d -> convert_coord d d c = c.
Proof.
  intros H. destruct d; repeat (destruct c as [|? c]; try discriminate H); reflexivity.
Qed.

Lemma map_convert_same d cs : wf_seq d cs -> map (convert_coord d d) cs = cs.
Proof.
  intros H. induction H as [|c cs Hc _ IH]; [reflexivity|]. cbn [map]. f_equal; [apply convert_same; apply Hc|exact IH].
Qed.
Lemma map_convert_rings d rings : Forall (wf_seq d) rings -> map (map (convert_coord d d)) rings = rings.
Proof.
  intros H. induction H as [|c cs Hc _ IH]; [reflexivity|]. cbn [map]. f_equal; [apply map_convert_same; exact Hc|exact IH].
Qed.
Lemma points_coords k d cs : geom_coords (GColl k d (map (fun c => GPoint d [c]) cs)) = map (pair d) cs.
Proof. cbn [geom_coords]. induction cs as [|c cs IH]; [reflexivity|]. cbn [map geom_coords app]. f_equal. exact IH. Qed.
Lemma wf_points d cs : wf_geoms (map (fun c => GPoint d [c]) cs) -> wf_seq d cs.
Proof.
  induction cs as [|c cs IH]; intros H; [constructor|]. inversion_clear H as [|? ? H1 H2]. inversion_clear H1 as [? ? H3 _| | |].
  constructor; [apply (Forall_inv H3)|apply IH; exact H2].
Qed.

Lemma all_some_lines d lines : wf_geoms (map (GLine d) lines) -> all_some (line_of d) (map (GLine d) lines) = Some lines.
Proof.
  induction lines as [|cs lines IH]; intros H; [reflexivity|]. inversion_clear H as [|? ? H1 H2]. inversion_clear H1 as [|? ? H3| |].
  cbn [map all_some line_of]. rewrite (IH H2), map_convert_same by exact H3. reflexivity.
Qed.
Lemma all_some_polys d polys : wf_geoms (map (GPoly d) polys) -> all_some (poly_of d) (map (GPoly d) polys) = Some polys.
Proof.
  induction polys as [|cs polys IH]; intros H; [reflexivity|]. inversion_clear H as [|? ? H1 H2]. inversion_clear H1 as [| |? ? H3|].
  cbn [map all_some poly_of]. rewrite (IH H2), map_convert_rings by exact H3. reflexivity.
Qed.

(** A geometry of the array's own kind and dimensions is stored as it is, unless it is an empty polygon, multilinestring or
    multipolygon that still has rings or members. *)
Lemma store_own k d x : k <> KBox -> wf_geom (nest_geom k d x) -> (geom_coords (nest_geom k d x) = [] -> x = nest_empty k d) ->
  store k d (nest_geom k d x) = Some x.
Proof.
  intros Hk Hw He. rewrite store_cases. destruct (geom_coords (nest_geom k d x)) as [|c0 cs0] eqn:Eg; [rewrite (He eq_refl); reflexivity|]. clear He.
  destruct k; try contradiction; cbn [nest_geom n_lists nest store_full] in *.
  - unfold all_coords. inversion_clear Hw as [? ? H1 _| | |]. cbn. rewrite convert_same; [reflexivity|]. apply (Forall_inv H1).
  - inversion_clear Hw as [|? ? H1| |]. cbn [line_of]. rewrite map_convert_same by exact H1. reflexivity.
  - inversion_clear Hw as [| |? ? H1|]. cbn [poly_of]. rewrite map_convert_rings by exact H1. reflexivity.
  - inversion_clear Hw as [| | |? ? ? H1]. apply wf_points in H1. unfold all_coords. rewrite points_coords, map_map. cbn [fst snd].
    rewrite (map_ext _ (convert_coord d d)) by reflexivity. rewrite map_convert_same by exact H1. reflexivity.
  - inversion_clear Hw as [| | |? ? ? H1]. apply all_some_lines. exact H1.
  - inversion_clear Hw as [| | |? ? ? H1]. apply all_some_polys. exact H1.
Qed.

(** ** Rejected geometries *)
Lemma all_some_total {A B} (f : A -> option B) l : Forall (fun x => f x <> None) l -> all_some f l <> None.
Proof.
  induction 1 as [|x l Hx _ IH]; cbn [all_some]; [discriminate|]. destruct (f x); [|contradiction]. destruct (all_some f l); [discriminate|contradiction].
Qed.

Section Junk.
  Variable junk : nat -> nat -> N.
  Hypothesis junk_bytes : forall i j, is_byte (junk i j).

  Lemma append_rejected k l d w els m nodes g : k <> KBox -> holding k l d w els -> item_ok d m nodes g -> proper g ->
    store k d g = None -> append_geom junk w m nodes = VRet w EINVAL.
  Proof.
    intros Hk H Hi Hp Hx. pose proof Hi as [_ (lvl & R) Hwf _ Hc].
    unfold append_geom. rewrite (count_ok d m nodes g Hi). rewrite store_cases in Hx.
    destruct (geom_coords g) as [|c0 cs0] eqn:Eg; [discriminate|]. rewrite <- Eg in *.
    destruct (N.eqb_spec (N.of_nat (length (geom_coords g))) 0) as [H0|_]; [rewrite Eg in H0; discriminate H0|].
    enough (append_offsets junk w nodes (N.of_nat (length (geom_coords g))) = VRet w EINVAL) as -> by reflexivity.
    destruct (cfg_init k l d _ Hk (bu_cfg _ _ _ _ _ _ (proj1 (ho_built _ _ _ _ _ H)))) as (_ & Hg & _).
    unfold append_offsets. destruct (repr_root m lvl nodes g R) as (nd & r & -> & Hty). rewrite Hg, Hty.
    destruct k; try contradiction; cbn [geometry_kind_code store_full] in *.
    - change (1 =? GT_POINT) with true. cbn iota. destruct (N.ltb_spec 1 (N.of_nat (length (geom_coords g)))) as [_|Hle]; [reflexivity|exfalso].
      unfold all_coords in Hx. destruct (geom_coords g) as [|? [|]]; cbn in *; try discriminate; lia.
    - change (2 =? GT_POINT) with false. change (2 =? GT_LINESTRING) with true. cbn iota.
      destruct g as [| | |[] dd parts]; try discriminate Hx; try reflexivity.
      cbn [geom_code coll_code]. change (Z.of_N 5 =? GT_LINESTRING) with false. change (Z.of_N 5 =? GT_MULTILINESTRING) with true. cbn iota.
      inversion R as [| | |? ? ? ? ? ? [Hn1 Hn2 Hn3 Hn4] Hr]; subst. rewrite Hn4.
      destruct parts as [|p [|p2 ps]]; [discriminate Eg| |].
      + cbn [proper] in Hp. apply Forall_inv in Hp. destruct p; try contradiction. discriminate Hx.
      + cbn [length]. destruct (N.ltb_spec 1 (N.of_nat (S (S (length ps))))); [reflexivity|lia].
    - change (3 =? GT_POINT) with false. change (3 =? GT_LINESTRING) with false. change (3 =? GT_POLYGON) with true. cbn iota.
      destruct g as [| | |[] dd parts]; try discriminate Hx; try reflexivity.
      cbn [geom_code coll_code]. change (Z.of_N 6 =? GT_POLYGON) with false. change (Z.of_N 6 =? GT_MULTIPOLYGON) with true. cbn iota.
      inversion R as [| | |? ? ? ? ? ? [Hn1 Hn2 Hn3 Hn4] Hr]; subst. rewrite Hn4.
      destruct parts as [|p [|p2 ps]]; [discriminate Eg| |].
      + cbn [proper] in Hp. apply Forall_inv in Hp. destruct p; try contradiction. discriminate Hx.
      + cbn [length]. destruct (N.ltb_spec 1 (N.of_nat (S (S (length ps))))); [reflexivity|lia].
    - change (4 =? GT_POINT) with false. change (4 =? GT_LINESTRING) with false. change (4 =? GT_POLYGON) with false. change (4 =? GT_MULTIPOINT) with true. cbn iota.
      destruct g as [| | |[] dd parts]; try discriminate Hx; reflexivity.
    - change (5 =? GT_POINT) with false. change (5 =? GT_LINESTRING) with false. change (5 =? GT_POLYGON) with false. change (5 =? GT_MULTIPOINT) with false.
      change (5 =? GT_MULTILINESTRING) with true. cbn iota.
      destruct g as [| | |[] dd parts]; try discriminate Hx; try reflexivity. exfalso. revert Hx. apply all_some_total.
      cbn [proper] in Hp. eapply Forall_impl; [|exact Hp]. intros [] Hq; try contradiction. discriminate.
    - change (6 =? GT_POINT) with false. change (6 =? GT_LINESTRING) with false. change (6 =? GT_POLYGON) with false. change (6 =? GT_MULTIPOINT) with false.
      change (6 =? GT_MULTILINESTRING) with false. change (6 =? GT_MULTIPOLYGON) with true. cbn iota.
      destruct g as [| | |[] dd parts]; try discriminate Hx; try reflexivity. exfalso. revert Hx. apply all_some_total.
      cbn [proper] in Hp. eapply Forall_impl; [|exact Hp]. intros [] Hq; try contradiction. discriminate.
  Qed.

  (** ** Whole arrays *)
  Lemma writer_finish_built k l d w els : k <> KBox ->
    built k l d (nw_builder w) (counts (n_lists k) (map (element k d) els)) (leaves (n_lists k) (map (element k d) els)) ->
    nw_null_count w = nulls (map is_valid els) -> bstate (nw_validity w) (map is_valid els) -> total_small (n_lists k) (map (element k d) els) ->
    exists a w', writer_finish junk w = Ok (a, w') /\ array_of k l d els a /\ holding k l d w' [] /\ nw_dims w' = nw_dims w.
  Proof.
    intros Hk Hw Hn Hb Ht.
    destruct (finish_built junk junk_bytes k l d w _ _ _ Hk Hw Hb) as (v & cols & Hc & Hv & Hfin). cbn zeta in Hfin.
    rewrite <- offset_buffers_counts in Hfin. rewrite map_length in Hv.
    destruct Hfin as (Hfin & _). destruct Hfin as (w' & E & H' & D').
    { apply fits_ok; [exact Hk|exact Hc|exact Ht|]. rewrite map_length. intros b ->. apply Hv. }
    eexists _, w'. split; [exact E|]. split; [|split; [exact H'|exact D']].
    destruct (assembled_ok k l d els v cols (nw_null_count w) Hk Hc Ht Hv) as (N & C). cbn zeta in *.
    split; [exact N|]. split; [exact C|]. split.
    - apply exact_null. unfold assembled. apply exact_null.
      assert (length (offset_buffers (n_lists k) (map (element k d) els)) = n_lists k) as HL by (rewrite offset_buffers_counts, map_length, seq_length; reflexivity).
      assert (firstn (n_lists k) (offset_buffers (n_lists k) (map (element k d) els) ++ cols) = offset_buffers (n_lists k) (map (element k d) els)) as ->.
      { rewrite <- HL at 1. rewrite firstn_app, Nat.sub_diag, firstn_O, app_nil_r. apply firstn_all. }
      assert (skipn (n_lists k) (offset_buffers (n_lists k) (map (element k d) els) ++ cols) = cols) as ->.
      { rewrite <- HL at 1. rewrite skipn_app, Nat.sub_diag, skipn_all. reflexivity. }
      apply list_array_exact; assumption.
    - rewrite <- nulls_count, <- Hn. destruct (assembled _ _ _). reflexivity.
  Qed.

  Lemma writer_finish_ok k l d w els : k <> KBox -> holding k l d w els -> total_small (n_lists k) (map (element k d) els) ->
    exists a w', writer_finish junk w = Ok (a, w') /\ array_of k l d els a /\ holding k l d w' [].
  Proof.
    intros Hk [Hw Hl Hn Hb] Ht. destruct (writer_finish_built k l d w els Hk (proj1 Hw) Hn Hb Ht) as (a & w' & E & A & H & _). eauto.
  Qed.

  Lemma append_items_ok k l d : k <> KBox -> forall items gs els w done, holding k l d w done ->
    Forall2 (denotes d) items gs -> stored_as k d gs els -> Forall (small (n_lists k)) (map (element k d) els) ->
    exists w', append_items junk w items = Ok w' /\ holding k l d w' (done ++ els).
  Proof.
    intros Hk. induction items as [|i items IH]; intros gs els w done Hw Hd Hs Hsm; cbn [append_items].
    - inversion Hd; subst. inversion Hs; subst. exists w. rewrite app_nil_r. auto.
    - inversion Hd as [|? g ? gs' Hd1 Hd2]; subst. inversion Hs as [|? e ? els' Hs1 Hs2]; subst. cbn [map] in Hsm. apply Forall_cons_iff in Hsm. destruct Hsm as (Hsm1 & Hsm2).
      assert (exists w1, append_item junk w i = VRet w1 0 /\ holding k l d w1 (done ++ [e])) as (w1 & E1 & H1).
      { destruct i as [[m nodes]|], g as [g|]; try contradiction Hd1; cbn [append_item denotes option_map] in *.
        - destruct e as [x|]; [|discriminate Hs1]. injection Hs1 as Hs1. eapply append_geom_ok; eassumption.
        - destruct e as [x|]; [discriminate Hs1|]. apply append_null_ok; assumption. }
      rewrite E1. change (0 =? 0) with true. cbn iota. destruct (IH gs' els' w1 _ H1 Hd2 Hs2 Hsm2) as (w' & E & H). exists w'. split; [exact E|].
      rewrite <- app_assoc in H. exact H.
  Qed.

  Lemma write_arrays_ok k l d : k <> KBox -> forall batches gss elss w, holding k l d w [] ->
    Forall2 (Forall2 (denotes d)) batches gss -> Forall2 (stored_as k d) gss elss ->
    Forall (fun els => total_small (n_lists k) (map (element k d) els)) elss ->
    exists arrays, write_arrays junk w batches = Ok arrays /\ Forall2 (array_of k l d) elss arrays.
  Proof.
    intros Hk. induction batches as [|items batches IH]; intros gss elss w Hw Hd Hs Ht; cbn [write_arrays].
    - inversion Hd; subst. inversion Hs; subst. exists []. split; [reflexivity|constructor].
    - inversion Hd as [|? gs ? gss' Hd1 Hd2]; subst. inversion Hs as [|? els ? elss' Hs1 Hs2]; subst. apply Forall_cons_iff in Ht. destruct Ht as (Ht1 & Ht2).
      destruct (append_items_ok k l d Hk items gs els w [] Hw Hd1 Hs1 (total_small_small _ _ Ht1)) as (w1 & E1 & H1). rewrite E1. cbn [obind].
      destruct (writer_finish_ok k l d w1 els Hk H1 Ht1) as (a & w2 & E2 & A2 & H2). rewrite E2. cbn [obind].
      destruct (IH gss' elss' w2 H2 Hd2 Hs2 Ht2) as (arrays & E3 & A3). rewrite E3. cbn [obind]. exists (a :: arrays). split; [reflexivity|].
      constructor; assumption.
  Qed.

  Lemma native_arrays_ok k l d batches gss elss : k <> KBox ->
    Forall2 (Forall2 (denotes d)) batches gss -> Forall2 (stored_as k d) gss elss ->
    Forall (fun els => total_small (n_lists k) (map (element k d) els)) elss ->
    exists w arrays, writer_init junk (make_type (geometry_kind_code k) (dim_code d) (layout_code l)) = Ok w /\
      write_arrays junk w batches = Ok arrays /\ Forall2 (array_of k l d) elss arrays.
  Proof.
    intros Hk Hd Hs Ht. destruct (writer_init_ok junk junk_bytes k l d Hk) as (w & E & H).
    destruct (write_arrays_ok k l d Hk batches gss elss w H Hd Hs Ht) as (arrays & E2 & A). eauto.
  Qed.
End Junk.
