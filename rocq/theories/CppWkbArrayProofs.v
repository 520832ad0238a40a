(** * C++ arrays of WKB: proofs *)
From Verif Require Import Base BaseFacts TypesModel TypesSpec GeomSpec ArrowModel BufferModel BitmapModel BitmapSpec BitmapProofs
  ArrayViewModel NativeSpec NativeProofs NativeVisitProofs SerialSpec CppCoordModel CppWkbModel CppWkbSpec CppWkbTells
  CppWkbReads CppWkbAccepts CppWkbPrefix CppWkbVisit CppWkbWitness CppArrayModel CppArraySpec CppArrayProofs CppArrayInit
  CppArrayMore.
Local Open Scope Z_scope.

(** ** One pass over the elements *)
Section Pass.
Variable A : Type.
Variable body : bytes -> wgeom -> outcome (list A).
Variable h : tree -> list A.
Hypothesis body_ok : forall t g, tree_ok t -> tells (tree_bytes t) g t -> body (tree_bytes t) g = Ok (h t).
Variable s : wkbseq.
Variable valid : Z -> outcome bool.

Definition reads_as (els : list (option bytes)) (i0 : Z) : Prop :=
  forall j e, nth_error els j = Some e ->
    match e with
    | Some b => valid (i0 + Z.of_nat j) = Ok true /\ seq_blob s (i0 + Z.of_nat j) = Ok b /\ wf_bytes b /\ (N.of_nat (length b) < 2 ^ 32)%N
    | None => valid (i0 + Z.of_nat j) = Ok false
    end.

Lemma reads_tail e els i0 : reads_as (e :: els) i0 -> reads_as els (i0 + 1).
Proof.
  intros H j x Hx. specialize (H (S j) x Hx). replace (i0 + 1 + Z.of_nat j) with (i0 + Z.of_nat (S j)) by lia. exact H.
Qed.

Lemma collect_trees : forall ts els, Forall2 (denotes_tree) els ts -> forall i0 p g, reads_as els i0 ->
  wkb_collect (length els) i0 s valid body p g = Ok (flat_map (fun t => match t with Some t => h t | None => [] end) ts).
Proof.
  induction ts as [|t ts IH]; intros els H i0 p g R; inversion H; subst; clear H; [reflexivity|].
  rename x into e, l into els'. pose proof (R 0%nat e eq_refl) as R0. change (Z.of_nat 0) with 0 in R0. rewrite Z.add_0_r in R0.
  cbn [length wkb_collect flat_map]. destruct e as [b|], t as [t|]; try contradiction; cbn [denotes_tree] in *.
  - destruct R0 as (-> & -> & Hwf & Hsz). cbn [obind]. rewrite view_small by exact Hsz.
    match goal with H : tree_ok t /\ _ |- _ => destruct H as (Tok & Tb) end. subst b.
    destruct (parse_exact t p g Tok) as (p' & g' & -> & Tl). cbn [obind]. rewrite (body_ok t g' Tok Tl). cbn [obind].
    rewrite (IH els' ltac:(assumption) (i0 + 1) p' g' (reads_tail _ _ _ R)). reflexivity.
  - rewrite R0. cbn [obind]. rewrite (IH els' ltac:(assumption) (i0 + 1) p g (reads_tail _ _ _ R)). reflexivity.
Qed.

Lemma collect_throws : forall els i0 p g, reads_as els i0 ->
  (exists b, In (Some b) els /\ ~ exists t, tree_ok t /\ tree_bytes t = b) ->
  wkb_collect (length els) i0 s valid body p g = Err THROWN.
Proof.
  induction els as [|e els IH]; intros i0 p g R (b & Hin & Hb); [contradiction|].
  pose proof (R 0%nat e eq_refl) as R0. change (Z.of_nat 0) with 0 in R0. rewrite Z.add_0_r in R0.
  cbn [length wkb_collect]. destruct e as [x|].
  - destruct R0 as (-> & -> & Hwf & Hsz). cbn [obind]. rewrite view_small by exact Hsz.
    destruct (parse_any x p g Hwf) as (st & cur & p' & g' & E & _). rewrite E. cbn [obind].
    destruct st; try reflexivity.
    destruct (parse_accepted x p g cur p' g' Hwf E) as (t & Tok & -> & _ & Tl).
    rewrite (body_ok t g' Tok Tl). cbn [obind].
    rewrite (IH (i0 + 1) p' g' (reads_tail _ _ _ R)); [reflexivity|].
    exists b. split; [|exact Hb]. destruct Hin as [Hin|Hin]; [|exact Hin]. exfalso. apply Hb. exists t.
    split; [exact Tok|]. congruence.
  - rewrite R0. cbn [obind]. apply (IH (i0 + 1) p g (reads_tail _ _ _ R)). exists b. split; [|exact Hb].
    destruct Hin as [Hin|Hin]; [discriminate|exact Hin].
Qed.
End Pass.

(** ** The array *)
Lemma int32_range b i z : wf_bytes b -> int32_at b i = Some z -> - 2 ^ 31 <= z < 2 ^ 31.
Proof.
  unfold int32_at. intros Hwf. destruct (slice b (4 * i) 4) as [bs|] eqn:E; [|discriminate]. cbn [option_map].
  intros [= <-]. pose proof (le_val_bound bs (slice_wf _ _ _ _ Hwf E)) as B.
  rewrite (slice_length _ _ _ _ E) in B. change (256 ^ N.of_nat 4)%N with 4294967296%N in B.
  change (Z.pow_pos 2 31) with 2147483648. change (Z.pow_pos 2 32) with 4294967296. change (2 ^ 31) with 2147483648.
  destruct (Z.ltb_spec (Z.of_N (le_val bs)) 2147483648); lia.
Qed.

Lemma array_reads v a els o n : av_type v = TYPE_WKB -> serial_ok Offsets32 a -> serial_contents Offsets32 a els ->
  (forall b, In (Some b) els -> wf_bytes b) -> (o + n <= length els)%nat ->
  exists v', set_array v a = Ok v' /\
    let w := wkb_array_slice (wkb_array_init v') (Z.of_nat o) (Z.of_nat n) in
    bs_length (ca_value w) = Z.of_nat (length (window els o n)) /\
    reads_as (ca_value w) (fun i => valid_index (ca_validity w) (i + bs_offset (ca_value w))) (window els o n) 0.
Proof.
  intros Hv (Hoff & Hlen & Hmax & Hch & b0 & b1 & rest & Hb & Hnull & Hwf & Hrest) (Hl & Hels) Hbytes Hon.
  destruct rest as [|b2 [|]]; try discriminate Hrest. clear Hrest.
  unfold set_array. rewrite Hv. change ((TYPE_WKB =? TYPE_WKT) || (TYPE_WKB =? TYPE_WKB)) with true. cbn iota.
  unfold set_array_serialized. rewrite Hb. cbn [nth_error or_ub obind].
  eexists. split; [reflexivity|]. unfold wkb_array_slice, wkb_array_init.
  cbn [ca_value ca_validity bs_length bs_offset av_offset av_length av_offsets av_data av_validity with_validity with_data with_offsets
       with_level qset q0].
  split; [rewrite NativeVisitProofs.window_length by exact Hon; reflexivity|].
  intros j e Hj. pose proof Hj as Hj'. apply nth_error_window in Hj'. destruct Hj' as (Hjn & Hj').
  specialize (Hels _ _ Hj').
  assert (0 + Z.of_nat j + (aa_offset a + Z.of_nat o) = aa_offset a + Z.of_nat (o + j)) as -> by lia.
  assert (forall b, valid_at a (Z.of_nat (o + j)) = Some b ->
    valid_index (rptr_of b0) (aa_offset a + Z.of_nat (o + j)) = Ok b) as VI.
  { intros b E. apply (valid_index_ok a b0); [rewrite Hb; reflexivity|exact E]. }
  destruct e as [b|]; [|apply VI, Hels]. destruct Hels as (Hval & offs & Hs & data & from & Hd & Hhas & Ho1 & Ho2).
  split; [apply VI, Hval|]. unfold second_buffer in Hs. rewrite Hb in Hs, Hd. cbn [nth_error] in Hs, Hd.
  destruct b1 as [b1|]; [|discriminate]. injection Hs as ->. injection Hd as ->.
  pose proof (int32_range _ _ _ Hwf Ho1) as R1. pose proof (int32_range _ _ _ Hwf Ho2) as R2.
  assert (wf_bytes b) as Hwb by (apply Hbytes; eapply nth_error_In, Hj').
  split; [|split; [exact Hwb|]].
  - unfold seq_blob. cbn [bs_offsets bs_offset bs_data rptr_of].
    replace (aa_offset a + Z.of_nat o + (0 + Z.of_nat j)) with (aa_offset a + Z.of_nat (o + j)) by lia.
    rewrite (load_int32_ok _ _ _ Hwf Ho1), (load_int32_ok _ _ _ Hwf Ho2). cbn [obind].
    replace (from + Z.of_nat (length b) - from) with (Z.of_nat (length b)) by lia.
    destruct data as [data|]; cbn [rptr_of buffer_has] in *.
    + destruct (Z.ltb_spec (from + Z.of_nat (length b)) from); [lia|]. rewrite Nat2Z.id, Z.add_0_l, Hhas. reflexivity.
    + subst b. reflexivity.
  - change (2 ^ 32)%N with 4294967296%N. change (2 ^ 31) with 2147483648 in *. lia.
Qed.

Lemma wkb_array_trees v a els ts o n : av_type v = TYPE_WKB -> serial_ok Offsets32 a -> serial_contents Offsets32 a els ->
  Forall2 denotes_tree els ts -> (o + n <= length ts)%nat ->
  exists v', set_array v a = Ok v' /\
    let w := wkb_array_slice (wkb_array_init v') (Z.of_nat o) (Z.of_nat n) in
    (forall dst, wkb_array_vertices dst w = Ok (map (as_dims dst) (trees_vertices (window ts o n)))) /\
    (forall dst, wkb_array_edges dst w = Ok (map (both (as_dims dst)) (trees_edges (window ts o n)))).
Proof.
  intros Hv Hok Hc HF Hon.
  assert (length els = length ts) as HL by (clear - HF; induction HF; cbn; lia).
  assert (forall b, In (Some b) els -> wf_bytes b) as Hwf.
  { clear - HF. induction HF as [|x y l l' R HF IH]; intros b Hin; [contradiction|]. destruct Hin as [->|Hin]; [|apply IH, Hin].
    destruct y as [t|]; [|contradiction]. destruct R as (_ & <-). apply tree_bytes_wf. }
  destruct (array_reads v a els o n Hv Hok Hc Hwf ltac:(lia)) as (v' & E & HB & R). exists v'. split; [exact E|].
  set (w := wkb_array_slice _ _ _) in *. cbv zeta.
  assert (Forall2 denotes_tree (window els o n) (window ts o n)) as HW.
  { clear - HF. revert els ts HF. unfold window.
    assert (forall n els ts, Forall2 denotes_tree els ts -> Forall2 denotes_tree (firstn n els) (firstn n ts)) as F
      by (intros m; induction m as [|m IHm]; intros els ts H; [constructor|]; destruct H; cbn; constructor; auto).
    induction o as [|o IH]; intros els ts H; [apply F, H|]. destruct H; [apply F; constructor|]. cbn [skipn]. apply IH. assumption. }
  assert (forall X (body : bytes -> wgeom -> outcome (list X)) h,
    (forall t g, tree_ok t -> tells (tree_bytes t) g t -> body (tree_bytes t) g = Ok (h t)) ->
    wkb_visit body w = Ok (flat_map (fun t => match t with Some t => h t | None => [] end) (window ts o n))) as HV.
  { intros X body h Hb. unfold wkb_visit. rewrite HB. destruct (Z.ltb_spec (Z.of_nat (length (window els o n))) 0); [lia|].
    rewrite Nat2Z.id. exact (collect_trees X body h Hb _ _ _ _ HW 0 _ _ R). }
  split; intros dst.
  - unfold wkb_array_vertices. rewrite (HV _ _ (fun t => map (as_dims dst) (tree_vertices t))).
    + unfold trees_vertices. rewrite CppWkbVisit.map_flat_map. f_equal. apply flat_map_ext. intros [t|]; reflexivity.
    + intros t g. apply geometry_vertices_ok.
  - unfold wkb_array_edges. rewrite (HV _ _ (fun t => map (both (as_dims dst)) (tree_edges t))).
    + unfold trees_edges. rewrite CppWkbVisit.map_flat_map. f_equal. apply flat_map_ext. intros [t|]; reflexivity.
    + intros t g. apply geometry_edges_ok.
Qed.

Lemma wkb_array_throws v a els o n b : av_type v = TYPE_WKB -> serial_ok Offsets32 a -> serial_contents Offsets32 a els ->
  (forall b, In (Some b) els -> wf_bytes b) -> (o + n <= length els)%nat ->
  In (Some b) (window els o n) -> (~ exists t, tree_ok t /\ tree_bytes t = b) ->
  exists v', set_array v a = Ok v' /\
    let w := wkb_array_slice (wkb_array_init v') (Z.of_nat o) (Z.of_nat n) in
    forall dst, wkb_array_vertices dst w = Err THROWN /\ wkb_array_edges dst w = Err THROWN.
Proof.
  intros Hv Hok Hc Hwf Hon Hin Hbad.
  destruct (array_reads v a els o n Hv Hok Hc Hwf Hon) as (v' & E & HB & R). exists v'. split; [exact E|].
  set (w := wkb_array_slice _ _ _) in *. cbv zeta. intros dst.
  assert (forall X (body : bytes -> wgeom -> outcome (list X)) h,
    (forall t g, tree_ok t -> tells (tree_bytes t) g t -> body (tree_bytes t) g = Ok (h t)) ->
    wkb_visit body w = Err THROWN) as HV.
  { intros X body h Hb. unfold wkb_visit. rewrite HB. destruct (Z.ltb_spec (Z.of_nat (length (window els o n))) 0); [lia|].
    rewrite Nat2Z.id. apply (collect_throws X body h Hb _ _ _ _ _ _ R). eauto. }
  split; [apply (HV _ _ (fun t => map (as_dims dst) (tree_vertices t)))|apply (HV _ _ (fun t => map (both (as_dims dst)) (tree_edges t)))].
  - intros t g. apply geometry_vertices_ok.
  - intros t g. apply geometry_edges_ok.
Qed.
