(** * Every type is dispatched to its array class *)
From Verif Require Import Base BaseFacts TypesModel TypesSpec GeomSpec ArrowModel ArrayViewModel NativeSpec SerialSpec
  CppCoordModel CppWkbModel CppWkbSpec CppArrayModel CppArraySpec CppArrayInit CppArrayMore CppWkbArrayProofs PropertiesCppArrays CppDispatchModel.
Local Open Scope Z_scope.

Lemma dispatch_kind A (expr : array_class -> outcome A) k l d : k <> KBox ->
  dispatch_array (make_type (geometry_kind_code k) (dim_code d) (layout_code l)) expr = expr (NativeClass k d) /\
  dispatch_native (make_type (geometry_kind_code k) (dim_code d) (layout_code l)) expr = expr (NativeClass k d).
Proof. intros H. destruct k, d, l; try contradiction; split; reflexivity. Qed.

Definition a_kind (g : Z) : option geometry_kind :=
  if g =? 1 then Some KPoint else if g =? 2 then Some KLinestring else if g =? 3 then Some KPolygon else if g =? 4 then Some KMultipoint
  else if g =? 5 then Some KMultilinestring else if g =? 6 then Some KMultipolygon else None.
Lemma a_kind_code g k : a_kind g = Some k -> k <> KBox /\ g = geometry_kind_code k.
Proof.
  unfold a_kind. intros H. repeat match type of H with context [?x =? ?y] => destruct (Z.eqb_spec x y); [injection H as <-; split; [discriminate|assumption]|] end. discriminate.
Qed.
Definition a_dim (d : Z) : option dim := if d =? 1 then Some XY else if d =? 2 then Some XYZ else if d =? 3 then Some XYM else if d =? 4 then Some XYZM else None.
Lemma dispatch_eq A (expr : array_class -> outcome A) t : dispatch_native t expr =
  match a_kind (geometry_type_from_type t), a_dim (dimensions_from_type t) with Some k, Some d => expr (NativeClass k d) | _, _ => Err THROWN end.
Proof.
  unfold dispatch_native, dispatch_dimensions, a_kind, a_dim, GT_POINT, GT_LINESTRING, GT_POLYGON, GT_MULTIPOINT, GT_MULTILINESTRING, GT_MULTIPOLYGON, DIM_XY, DIM_XYZ, DIM_XYM, DIM_XYZM. cbv zeta.
  generalize (geometry_type_from_type t), (dimensions_from_type t). intros g d.
  destruct (g =? 1); [|destruct (g =? 2); [|destruct (g =? 3); [|destruct (g =? 4); [|destruct (g =? 5); [|destruct (g =? 6); [|reflexivity]]]]]];
    (destruct (d =? 1); [reflexivity|]; destruct (d =? 2); [reflexivity|]; destruct (d =? 3); [reflexivity|]; destruct (d =? 4); reflexivity).
Qed.

(** The numbers that are dispatched are those of types. *)
Lemma native_number t k d : a_kind (geometry_type_from_type t) = Some k -> a_dim (dimensions_from_type t) = Some d ->
  exists l, t = make_type (geometry_kind_code k) (dim_code d) (layout_code l).
Proof.
  intros Hk Hd. apply a_kind_code in Hk. destruct Hk as [Hb Hk]. unfold geometry_type_from_type in Hk. unfold dimensions_from_type in Hd.
  destruct (is_serialized_or_uninit t); [destruct k; discriminate|]. cbv zeta in Hk, Hd.
  set (i := if TYPE_INTERLEAVED_POINT <=? t then t - 10000 else t) in *.
  assert (Z.rem i 1000 = geometry_kind_code k /\ 1 <= geometry_kind_code k <= 6) as [Hr Hc].
  { destruct (Z.rem i 1000 =? GT_BOX); [destruct k; discriminate Hk || contradiction|]. destruct ((Z.rem i 1000 <=? 6) && (1 <=? Z.rem i 1000)) eqn:E; [|destruct k; discriminate Hk].
    apply andb_true_iff in E. split; [exact Hk|]. rewrite <- Hk. lia. }
  assert (Z.quot i 1000 = dim_code d - 1) as Hq.
  { unfold a_dim, DIM_XY, DIM_XYZ, DIM_XYM, DIM_XYZM, DIM_UNKNOWN in Hd.
    destruct (Z.eqb_spec (Z.quot i 1000) 0) as [->|]; [injection Hd as <-; reflexivity|]. destruct (Z.eqb_spec (Z.quot i 1000) 1) as [->|]; [injection Hd as <-; reflexivity|].
    destruct (Z.eqb_spec (Z.quot i 1000) 2) as [->|]; [injection Hd as <-; reflexivity|]. destruct (Z.eqb_spec (Z.quot i 1000) 3) as [->|]; [injection Hd as <-; reflexivity|discriminate]. }
  pose proof (Z.quot_rem' i 1000) as E. rewrite Hr, Hq in E. exists (if TYPE_INTERLEAVED_POINT <=? t then Interleaved else Separate). subst i. clear -E Hb.
  destruct (TYPE_INTERLEAVED_POINT <=? t); destruct k, d; try contradiction; cbn [dim_code geometry_kind_code] in E; match goal with |- t = ?m => let m' := eval vm_compute in m in change (t = m') end; lia.
Qed.

Theorem dispatch_spec t :
  (exists k l d, k <> KBox /\ t = make_type (geometry_kind_code k) (dim_code d) (layout_code l) /\ forall A (expr : array_class -> outcome A), dispatch_array t expr = expr (NativeClass k d)) \/
  (t = TYPE_WKB /\ forall A (expr : array_class -> outcome A), dispatch_array t expr = expr WkbClass) \/
  ((forall k l d, k <> KBox -> t <> make_type (geometry_kind_code k) (dim_code d) (layout_code l)) /\ t <> TYPE_WKB /\ forall A (expr : array_class -> outcome A), dispatch_array t expr = Err THROWN).
Proof.
  destruct (Z.eq_dec t TYPE_WKB) as [->|Hw]; [right; left; split; [reflexivity|intros; reflexivity]|].
  destruct (a_kind (geometry_type_from_type t)) as [k|] eqn:Ek; [destruct (a_dim (dimensions_from_type t)) as [d|] eqn:Ed|].
  - left. destruct (native_number t k d Ek Ed) as (l & ->). apply a_kind_code in Ek. destruct Ek as [Hb _]. exists k, l, d. split; [exact Hb|]. split; [reflexivity|]. intros A expr. apply (dispatch_kind A expr k l d Hb).
  - right. right. split; [|split; [exact Hw|]].
    + intros k' l' d' Hb ->. destruct k', l', d'; try contradiction; vm_compute in Ed; discriminate.
    + intros A expr. unfold dispatch_array. destruct (t =? TYPE_WKB) eqn:E; [apply Z.eqb_eq in E; contradiction|]. destruct (_ || _ || _); [reflexivity|]. rewrite dispatch_eq, Ek, Ed. reflexivity.
  - right. right. split; [|split; [exact Hw|]].
    + intros k' l' d' Hb ->. destruct k', l', d'; try contradiction; vm_compute in Ek; discriminate.
    + intros A expr. unfold dispatch_array. destruct (t =? TYPE_WKB) eqn:E; [apply Z.eqb_eq in E; contradiction|]. destruct (_ || _ || _); [reflexivity|]. rewrite dispatch_eq, Ek. reflexivity.
Qed.

Lemma window_all {A} (els : list A) : window els 0 (length els) = els.
Proof. unfold window. rewrite skipn_O. apply firstn_all. Qed.

Theorem dispatch_vertices k l d v a els : k <> KBox ->
  let t := make_type (geometry_kind_code k) (dim_code d) (layout_code l) in
  view_history t v -> native_ok k l d a -> contents k l d a els ->
  exists v', set_array v a = Ok v' /\
    (forall dst, dispatch_array t (init_and_visit_vertices v' dst) = Ok (map (fun p => as_dims dst (read_as d p)) (elements_vertices els))) /\
    dispatch_array t (init_and_visit_edges v') = Ok (map (both (fun p => snd (read_as d p))) (elements_edges els)).
Proof.
  intros Hb t Hv Ho Hc. destruct (C41_visits k l d d v a els (fun H => match Hb H with end) Hb Hv Ho Hc (le_n _)) as (v' & arr & E1 & E2 & H).
  exists v'. split; [exact E1|]. specialize (H 0%nat (length els) (le_n _)). cbv zeta in H. rewrite window_all in H.
  assert (seq_length (array_depth k) (ca_value arr) = Z.of_nat (length els)) as Hl.
  { destruct (C41_elements k l d d v a els (fun H => match Hb H with end) Hb Hv Ho Hc (le_n _)) as (v2 & arr2 & E3 & E4 & L & _). assert (v2 = v') as -> by congruence. assert (arr2 = arr) as -> by congruence. exact L. }
  assert (array_slice arr (Z.of_nat 0) (Z.of_nat (length els)) = arr) as Es.
  { unfold array_slice. rewrite <- Hl. cbn [Z.of_nat]. rewrite Z.add_0_r. destruct arr as [s p]. cbn [ca_value ca_validity]. f_equal. destruct (array_depth k); destruct s; reflexivity. }
  rewrite Es in H. destruct H as (H1 & H2 & _). subst t. split.
  - intros dst. destruct (dispatch_kind _ (init_and_visit_vertices v' dst) k l d Hb) as [-> _]. cbn [init_and_visit_vertices]. rewrite E2. apply H1.
  - destruct (dispatch_kind _ (init_and_visit_edges v') k l d Hb) as [-> _]. cbn [init_and_visit_edges]. rewrite E2. exact H2.
Qed.

Theorem dispatch_wkb v a els ts : av_type v = TYPE_WKB -> serial_ok Offsets32 a -> serial_contents Offsets32 a els -> Forall2 denotes_tree els ts ->
  exists v', set_array v a = Ok v' /\
    (forall dst, dispatch_array TYPE_WKB (init_and_visit_vertices v' dst) = Ok (map (as_dims dst) (trees_vertices ts))) /\
    dispatch_array TYPE_WKB (init_and_visit_edges v') = Ok (map (both (as_dims XYZM)) (trees_edges ts)).
Proof.
  intros Hv Ho Hc Ht. destruct (C56_visits v a els ts 0 (length ts) Hv Ho Hc Ht (le_n _)) as (v' & E & H1 & H2). rewrite window_all in H1, H2.
  exists v'. split; [exact E|].
  assert (wkb_array_slice (wkb_array_init v') (Z.of_nat 0) (Z.of_nat (length ts)) = wkb_array_init v') as Es.
  { unfold wkb_array_slice, wkb_array_init. cbn [ca_value ca_validity bs_offset bs_offsets bs_data Z.of_nat]. rewrite Z.add_0_r. repeat f_equal.
    apply set_array_length in E. rewrite E, (proj1 Hc), (Forall2_length _ _ _ Ht). reflexivity. }
  rewrite Es in H1, H2. split; [intros dst; apply H1|apply H2].
Qed.
