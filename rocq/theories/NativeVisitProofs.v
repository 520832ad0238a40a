(** Visiting windows of native arrays; boxes; nesting; counts. *)
From Verif Require Import Base BaseFacts TypesModel TypesProofs GeomSpec GeomFacts VisitorModel VisitorSpec VisitorFacts
  BufferModel ArrowModel BitmapModel BitmapSpec BitmapProofs FloatModel FloatSpec FloatFacts ArrayViewModel NativeSpec NativeProofs.
Local Open Scope Z_scope.

(** ** Setting *)
Lemma set_array_native_ok k l d v a : typed k l d v -> supported k d l -> k <> KBox -> native_ok k l d a ->
  exists v' b0, set_array v a = Ok v' /\ typed k l d v' /\ bound l d (list_levels k) v' 0 a /\
    nested l d (list_levels k) a /\ nth_error (aa_buffers a) 0 = Some b0 /\ av_validity v' = rptr_of b0.
Proof.
  intros T Hs Hk (Hv & Hok). unfold set_array.
  assert (av_type v =? TYPE_WKT = false /\ av_type v =? TYPE_WKB = false /\ av_type v =? 990 = false /\
          av_type v =? 1990 = false /\ av_type v =? 2990 = false /\ av_type v =? 3990 = false) as (-> & -> & -> & -> & -> & ->).
  { rewrite (ty_type _ _ _ _ T). destruct l, k, d; try contradiction; vm_compute; auto 10. }
  cbn [orb].
  assert (nested l d (list_levels k) a) as N by (destruct k; try contradiction; exact Hok).
  destruct (set_internal_ok k l d (list_levels k) a v 0 T Hk) as (v' & E & T' & B & _).
  - rewrite (ty_offsets _ _ _ _ T). destruct k; try contradiction; reflexivity.
  - destruct k; cbn; lia.
  - exact N.
  - discriminate.
  - rewrite E. cbn [obind]. unfold validity_ok in Hv. destruct (nth_error (aa_buffers a) 0) as [b0|]; [|contradiction].
    cbn [or_ub obind]. exists (with_validity v' (rptr_of b0)), b0. split; [reflexivity|]. split; [apply typed_validity; exact T'|].
    split; [|auto].
    clear - B. revert B. generalize 0%nat. generalize a. induction (list_levels k) as [|n IH]; intros a0 lev; cbn [bound].
    + intros H; exact H.
    + intros (H1 & child & H2 & H3 & H4). split; [exact H1|]. exists child. split; [exact H2|]. split; [apply IH; exact H3|exact H4].
Qed.

Lemma set_array_box_ok d v a : typed KBox Separate d v -> native_ok KBox Separate d a ->
  exists v' b0, set_array v a = Ok v' /\ typed KBox Separate d v' /\ q0 (av_offset v') = aa_offset a /\
    values_bound Separate (2 * ndim d) v' a /\ nth_error (aa_buffers a) 0 = Some b0 /\ av_validity v' = rptr_of b0.
Proof.
  intros T (Hv & Ho & Hn & Hb & Hc & Hf). unfold set_array.
  assert (av_type v =? TYPE_WKT = false /\ av_type v =? TYPE_WKB = false /\
    (av_type v =? 990) || (av_type v =? 1990) || (av_type v =? 2990) || (av_type v =? 3990) = true) as (-> & -> & ->).
  { rewrite (ty_type _ _ _ _ T). destruct d; vm_compute; auto. }
  cbn [orb]. unfold set_array_box. cbv zeta.
  change (av_coords (with_level v 0 (aa_offset a) (aa_length a))) with (av_coords v).
  rewrite (ty_values _ _ _ _ T). change (geometry_kind_code KBox =? 990) with true. cbn iota.
  replace (2 * Z.of_nat (ndim d)) with (Z.of_nat (2 * ndim d)) by lia. rewrite Nat2Z.id, Hc, Z.eqb_refl. cbn [negb].
  destruct (child_values_ok _ _ _ Hc Hf) as (vs & E & Lv & Hvs). rewrite E. cbn [obind].
  unfold validity_ok in Hv. destruct (nth_error (aa_buffers a) 0) as [b0|]; [|contradiction]. cbn [or_ub obind].
  eexists _, b0. split; [reflexivity|]. split.
  { apply typed_validity, typed_coords, typed_level, T. rewrite app_length, skipn_length, Lv, (ty_len _ _ _ _ T). destruct d; reflexivity. }
  split; [reflexivity|]. split; [|auto].
  intros j Hj. destruct (nth_error (aa_children a) j) as [ch|] eqn:Ech.
  - destruct (Hvs j ch Ech) as (b & B1 & B2). exists ch, b. split; [reflexivity|]. split; [exact B1|].
    cbn [with_validity with_coords av_coords rc_values]. rewrite nth_error_app1 by lia. rewrite Z.add_0_r. exact B2.
  - apply nth_error_None in Ech. lia.
Qed.

Lemma child_values_length n : forall chs vs, child_values n chs = Ok vs -> length vs = n.
Proof.
  induction n as [|n IH]; intros chs vs; cbn [child_values].
  - intros E; injection E as <-. reflexivity.
  - destruct chs as [|ch chs]; [discriminate|]. destruct (negb _); [discriminate|].
    destruct (nth_error (aa_buffers ch) 1); cbn [or_ub obind]; [|discriminate].
    destruct (child_values n chs) eqn:E; cbn [obind]; try discriminate. intros H; injection H as <-. cbn. f_equal. eauto.
Qed.

Lemma n_values_le k l d v : typed k l d v -> (Z.to_nat (rc_n_values (av_coords v)) <= 8)%nat.
Proof. intros T. rewrite (ty_values _ _ _ _ T). destruct k, d; vm_compute; lia. Qed.

Lemma set_coord_typed k l d v a lev v' : typed k l d v -> set_coord_array v a lev = Ok v' -> typed k l d v'.
Proof.
  intros T. pose proof (n_values_le _ _ _ _ T) as L8. unfold set_coord_array. destruct (coord_count v a lev); cbn [obind]; try discriminate.
  destruct (_ =? CT_SEPARATE).
  - destruct (negb _); [discriminate|]. destruct (child_values _ _) eqn:E; cbn [obind]; try discriminate.
    intros H; injection H as <-. apply typed_coords; [|exact T].
    rewrite app_length, (child_values_length _ _ _ E), skipn_length, (ty_len _ _ _ _ T). lia.
  - destruct (_ =? CT_INTERLEAVED); [|discriminate]. destruct (aa_children a) as [|ch [|]]; try discriminate.
    destruct (negb _); [discriminate|]. destruct (nth_error (aa_buffers ch) 1); cbn [or_ub obind]; [|discriminate].
    intros H; injection H as <-. apply typed_coords; [|exact T].
    rewrite app_length, map_length, seq_length, skipn_length, (ty_len _ _ _ _ T). lia.
Qed.

Fixpoint set_internal_typed k l d (a : arrow_array) {struct a} : forall v lev v',
  typed k l d v -> set_array_internal v a lev = Ok v' -> typed k l d v'.
Proof.
  destruct a as [len off nc bufs chs]. intros v lev v' T. cbn [set_array_internal].
  destruct (_ =? _); [apply set_coord_typed, typed_level, T|].
  destruct (negb _); [discriminate|]. destruct chs as [|c [|]]; try discriminate.
  destruct (0 <? len).
  - destruct (nth_error bufs 1); cbn [or_ub obind]; [|discriminate].
    destruct (load_int32 _ off); cbn [obind]; try discriminate. destruct (load_int32 _ (off + len)); cbn [obind]; try discriminate.
    apply set_internal_typed, typed_offsets, typed_level, T.
  - cbn [obind]. apply set_internal_typed, typed_offsets, typed_level, T.
Qed.

Lemma set_array_typed k l d v a v' : typed k l d v -> set_array v a = Ok v' -> typed k l d v'.
Proof.
  intros T. pose proof (n_values_le _ _ _ _ T) as L8. unfold set_array.
  assert (forall o : outcome aview, (forall x, o = Ok x -> typed k l d x) ->
    (do v <- o; do b0 <- or_ub (nth_error (aa_buffers a) 0); Ok (with_validity v (rptr_of b0))) = Ok v' -> typed k l d v') as K.
  { intros o Ho. destruct o as [x| | |]; cbn [obind]; try discriminate. destruct (nth_error _ 0); cbn [or_ub obind]; [|discriminate].
    intros E; injection E as <-. apply typed_validity, Ho. reflexivity. }
  apply K. intros x. destruct (_ || _).
  - unfold set_array_serialized. destruct (nth_error _ 1); cbn [or_ub obind]; [|discriminate].
    destruct (nth_error _ 2); cbn [or_ub obind]; [|discriminate]. intros E; injection E as <-.
    pose proof (typed_offsets _ _ _ _ 0 (rptr_of o) (q0 (av_first v)) (q0 (av_last v)) (typed_level _ _ _ v 0 (aa_offset a) (aa_length a) T)) as [].
    constructor; assumption.
  - destruct (_ || _ || _ || _).
    + unfold set_array_box. destruct (negb _); [discriminate|]. destruct (child_values _ _) eqn:E; cbn [obind]; try discriminate.
      intros H; injection H as <-. apply typed_coords, typed_level, T.
      rewrite app_length, (child_values_length _ _ _ E), skipn_length. cbn [with_level av_coords]. rewrite (ty_len _ _ _ _ T). lia.
    + apply set_internal_typed. exact T.
Qed.

Lemma history_typed k l d v : supported k d l ->
  view_history (make_type (geometry_kind_code k) (dim_code d) (layout_code l)) v -> typed k l d v.
Proof.
  intros Hs H. induction H as [v E|v a v' _ IH E].
  - destruct (init_typed k l d Hs) as (v0 & E0 & T). congruence.
  - exact (set_array_typed _ _ _ _ _ _ IH E).
Qed.

(** ** Features *)
Lemma nth_error_window {A} (els : list A) o n j x :
  nth_error (window els o n) j = Some x -> (j < n)%nat /\ nth_error els (o + j) = Some x.
Proof.
  unfold window. intros H. assert (j < n)%nat.
  { assert (j < length (firstn n (skipn o els)))%nat by (apply nth_error_Some; congruence). rewrite firstn_length in *. lia. }
  split; [assumption|]. rewrite nth_error_firstn' in H by assumption. rewrite nth_error_skipn' in H. exact H.
Qed.
Lemma window_length {A} (els : list A) o n : (o + n <= length els)%nat -> length (window els o n) = n.
Proof. intros H. unfold window. rewrite firstn_length, skipn_length. lia. Qed.

Lemma valid_bit_ok v a b0 i b : nth_error (aa_buffers a) 0 = Some b0 -> av_validity v = rptr_of b0 ->
  valid_at a i = Some b -> is_valid_bit v (aa_offset a + i) = Ok b.
Proof.
  intros H0 Hv H. unfold valid_at in H. rewrite H0 in H. unfold is_valid_bit. rewrite Hv.
  destruct b0 as [m|]; cbn [rptr_of].
  - apply bit_get_ok. exact H.
  - injection H as <-. reflexivity.
Qed.

Lemma visit_features_ok k l d v a b0 els o n geometry :
  contents k l d a els -> nth_error (aa_buffers a) 0 = Some b0 -> av_validity v = rptr_of b0 ->
  q0 (av_offset v) = aa_offset a ->
  (forall i g, 0 <= i < aa_length a -> geom_at k l d a i g -> trace (geometry (aa_offset a + i)) = (canon_events g, Ok tt)) ->
  (o + n <= length els)%nat ->
  trace (visit_features v (Z.of_nat o) (Z.of_nat n) geometry) = (flat_map canon_feature (window els o n), Ok tt).
Proof.
  intros (Hlen & Hels) H0 Hv Hq Hg Hon. unfold visit_features. rewrite Nat2Z.id.
  rewrite <- (window_length els o n Hon) at 1. apply trace_for_each. intros j e He.
  apply nth_error_window in He. destruct He as (Hj & He). specialize (Hels _ _ He). rewrite Z.add_0_l.
  rewrite Hq. replace (aa_offset a + Z.of_nat o + Z.of_nat j) with (aa_offset a + Z.of_nat (o + j)) by lia.
  unfold canon_feature. cbn [app]. apply trace_emit_bind. destruct e as [g|]; cbn [element_at] in Hels.
  - destruct Hels as (V & G). rewrite (valid_bit_ok v a b0 _ _ H0 Hv V). cbn [pbind].
    apply (trace_bind_ok _ _ (canon_events g) tt [EFeatEnd] (Ok tt)); [|reflexivity].
    apply Hg; [|exact G]. assert (o + j < length els)%nat by (apply nth_error_Some; congruence). lia.
  - rewrite (valid_bit_ok v a b0 _ _ H0 Hv Hels). reflexivity.
Qed.

Lemma visit_native_kind k l d v o n : typed k l d v -> k <> KBox -> visit_native v o n = visit_features v o n (visit_kind k v).
Proof. intros T Hk. unfold visit_native. rewrite (ty_geom _ _ _ _ T). destruct k; try contradiction; reflexivity. Qed.

Lemma visit_native_box d v o n : typed KBox Separate d v ->
  visit_native v o n = if dim_code d =? 1 then visit_features v o n (visit_box v) else Ret (Err ENOTSUP).
Proof.
  intros T. unfold visit_native. rewrite (ty_geom _ _ _ _ T), (ty_dims _ _ _ _ T).
  change (geometry_kind_code KBox =? GT_BOX) with true. cbn iota. destruct d; reflexivity.
Qed.

(** ** Boxes *)
Lemma visit_box_ok v a i g : typed KBox Separate XY v -> values_bound Separate 4 v a ->
  geom_at KBox Separate XY a i g -> trace (visit_box v (aa_offset a + i)) = (canon_events g, Ok tt).
Proof.
  intros T V (_ & x0 & y0 & x1 & y1 & B & ->).
  assert (forall j w, nth_error [x0; y0; x1; y1] j = Some w -> view_value (av_coords v) (aa_offset a + i) j = Ok w) as VV.
  { intros j w Hj. apply (view_value_ok Separate XY 4 v a i j w V (ty_stride _ _ _ _ T)).
    - change 4%nat with (length [x0; y0; x1; y1]). apply nth_error_Some. congruence.
    - apply B. exact Hj. }
  pose proof (VV 0%nat x0 eq_refl) as V0. pose proof (VV 1%nat y0 eq_refl) as V1.
  pose proof (VV 2%nat x1 eq_refl) as V2. pose proof (VV 3%nat y1 eq_refl) as V3. clear VV.
  unfold visit_box. rewrite (ty_values _ _ _ _ T).
  change (Z.to_nat (Z.quot ((if geometry_kind_code KBox =? 990 then 2 else 1) * Z.of_nat (ndim XY)) 2)) with 2%nat.
  cbn [empty_dims Nat.add]. rewrite V0, V1, V2, V3. cbn [obind pbind]. rewrite !dgt_spec.
  unfold box_geom.
  destruct (double_lt x1 x0), (double_lt y1 y0); cbn [Nat.add Nat.eqb orb];
    apply (trace_bind_ok _ _ _ tt _ _ (trace_start KBox Separate XY v T GT_POLYGON)); try reflexivity.
  cbn [box_corners Nat.add]. rewrite V0, V1, V2, V3. reflexivity.
Qed.

(** ** The visit of a window *)
Theorem native_visit_ok k l d v a els : supported k d l ->
  view_history (make_type (geometry_kind_code k) (dim_code d) (layout_code l)) v ->
  native_ok k l d a -> contents k l d a els -> (k = KBox -> d = XY) ->
  exists v', set_array v a = Ok v' /\
    forall o n, (o + n <= length els)%nat ->
      trace (visit_native v' (Z.of_nat o) (Z.of_nat n)) = (flat_map canon_feature (window els o n), Ok tt).
Proof.
  intros Hs Hh Hok Hc Hbox. pose proof (history_typed _ _ _ _ Hs Hh) as T.
  assert (k = KBox \/ k <> KBox) as [->|Hk] by (destruct k; [right; discriminate..|left; reflexivity]).
  - rewrite (Hbox eq_refl) in *. pose proof (Hs eq_refl). subst l.
    destruct (set_array_box_ok XY v a T Hok) as (v' & b0 & E & T' & Q & V & H0 & Hv).
    exists v'. split; [exact E|]. intros o n Hon. rewrite (visit_native_box XY v' _ _ T'). change (dim_code XY =? 1) with true. cbn iota.
    apply (visit_features_ok KBox Separate XY v' a b0 els o n _ Hc H0 Hv Q); [|exact Hon].
    intros i g _ G. apply visit_box_ok; assumption.
  - destruct (set_array_native_ok k l d v a T Hs Hk Hok) as (v' & b0 & E & T' & B & N & H0 & Hv).
    exists v'. split; [exact E|]. intros o n Hon. rewrite (visit_native_kind k l d v' _ _ T' Hk).
    apply (visit_features_ok k l d v' a b0 els o n _ Hc H0 Hv).
    + destruct (list_levels k); cbn [bound qget] in B; destruct B as (B & _); injection B as B; exact B.
    + intros i g Hi G. apply (visit_kind_ok k l d v' a i g T' Hk B N Hi G).
    + exact Hon.
Qed.

(** ** Valid arrays have contents *)
Lemma finite_choice {X} (P : nat -> X -> Prop) n : (forall j, (j < n)%nat -> exists x, P j x) ->
  exists xs, length xs = n /\ forall j x, nth_error xs j = Some x -> P j x.
Proof.
  revert P. induction n as [|n IH]; intros P H.
  - exists []. split; [reflexivity|]. intros [|j] x E; discriminate.
  - destruct (H 0%nat ltac:(lia)) as (x & Hx).
    destruct (IH (fun j => P (S j))) as (xs & L & Hxs). { intros j Hj. apply H. lia. }
    exists (x :: xs). split; [cbn; lia|]. intros [|j] y E; cbn in E; [injection E as <-; exact Hx|apply Hxs; exact E].
Qed.

Lemma float_elt_exists m ch i : floats_ok m ch -> 0 <= i < m -> exists w, float_elt ch i = Some w.
Proof.
  intros (Ho & Hm & v & b & Hb & Hh) Hi. unfold float_elt, second_buffer. rewrite Hb. cbn [nth_error].
  destruct b as [b|]; cbn [buffer_holds] in Hh; [|lia].
  unfold double_at. destruct (slice b (8 * (aa_offset ch + i)) 8) as [bs|] eqn:E; [eexists; reflexivity|].
  assert (exists x, slice b (8 * (aa_offset ch + i)) 8 = Some x) as (x & Hx) by (apply slice_some_iff; lia). congruence.
Qed.

Lemma coord_exists l d a i : coords_ok l d a -> 0 <= i < aa_length a -> exists c, coord_at l d a i c.
Proof.
  intros (Ho & Hn & _ & Hc) Hi.
  destruct (finite_choice (fun j w => ordinate_at l d a i j = Some w) (ndim d)) as (c & L & H).
  - intros j Hj. unfold ordinate_at. destruct l.
    + destruct Hc as (Hl & Hf). destruct (nth_error (aa_children a) j) as [ch|] eqn:E.
      * apply (float_elt_exists (aa_offset a + aa_length a)); [|lia].
        rewrite Forall_forall in Hf. apply Hf. apply nth_error_In with j. exact E.
      * apply nth_error_None in E. lia.
    + destruct Hc as (ch & -> & Hf). apply (float_elt_exists _ _ _ Hf). nia.
  - exists c. split; [exact L|exact H].
Qed.

Lemma list_exists {X} (R : arrow_array -> Z -> X -> Prop) (child_ok : arrow_array -> Prop) a i :
  (forall ch j, child_ok ch -> 0 <= j < aa_length ch -> exists x, R ch j x) ->
  list_ok child_ok a -> 0 <= i < aa_length a -> exists xs, list_at R a i xs.
Proof.
  intros HR (Ho & Hl & v & b & ch & Hb & Hch & Hok & Hoff) Hi.
  destruct (Hoff ltac:(lia)) as (ob & -> & _ & Hm). destruct (Hm i Hi) as (lo & hi & L & H & Hlh & Hhi).
  destruct (finite_choice (fun j x => R ch (lo + Z.of_nat j) x) (Z.to_nat (hi - lo))) as (xs & Lx & Hx).
  - intros j Hj. apply HR; [exact Hok|lia].
  - exists xs, ob, lo, hi, ch. unfold second_buffer. rewrite Hb. repeat split; try assumption; try reflexivity. lia.
Qed.

Lemma geom_exists k l d a i : native_ok k l d a -> supported k d l -> (k = KBox -> d = XY) -> 0 <= i < aa_length a ->
  exists g, geom_at k l d a i g.
Proof.
  intros (_ & Hok) Hs Hbox Hi.
  pose proof (coord_exists l d) as C0.
  pose proof (fun a i => list_exists (coord_at l d) (coords_ok l d) a i C0) as C1.
  pose proof (fun a i => list_exists (list_at (coord_at l d)) (list_ok (coords_ok l d)) a i C1) as C2.
  pose proof (fun a i => list_exists (list_at (list_at (coord_at l d))) (list_ok (list_ok (coords_ok l d))) a i C2) as C3.
  destruct k; cbn [geom_at].
  - destruct (C0 _ _ Hok Hi) as (c & Hc). eauto.
  - destruct (C1 _ _ Hok Hi) as (c & Hc). eauto.
  - destruct (C2 _ _ Hok Hi) as (c & Hc). eauto.
  - destruct (C1 _ _ Hok Hi) as (c & Hc). eauto.
  - destruct (C2 _ _ Hok Hi) as (c & Hc). eauto.
  - destruct (C3 _ _ Hok Hi) as (c & Hc). eauto.
  - rewrite (Hbox eq_refl) in *. destruct Hok as (Ho & Hn & _ & Hl & Hf).
    assert (forall j, (j < 4)%nat -> exists w, ordinate_at Separate XY a i j = Some w) as W.
    { intros j Hj. cbn [ordinate_at]. destruct (nth_error (aa_children a) j) as [ch|] eqn:E.
      - apply (float_elt_exists (aa_offset a + aa_length a)); [|lia].
        rewrite Forall_forall in Hf. apply Hf. apply nth_error_In with j. exact E.
      - apply nth_error_None in E. cbn in Hl. lia. }
    destruct (W 0%nat ltac:(lia)) as (x0 & W0). destruct (W 1%nat ltac:(lia)) as (y0 & W1).
    destruct (W 2%nat ltac:(lia)) as (x1 & W2). destruct (W 3%nat ltac:(lia)) as (y1 & W3).
    exists (box_geom x0 y0 x1 y1). split; [reflexivity|]. exists x0, y0, x1, y1. split; [|reflexivity].
    intros [|[|[|[|j]]]] w E; cbn in E; try (injection E as <-; assumption). destruct j; discriminate.
Qed.

Theorem contents_exist k l d a : native_ok k l d a -> supported k d l -> (k = KBox -> d = XY) ->
  exists els, contents k l d a els.
Proof.
  intros Hok Hs Hbox.
  assert (0 <= aa_offset a /\ 0 <= aa_length a) as (Ho & Hn).
  { destruct Hok as (_ & Hok). destruct k; destruct Hok as (A & B & _); auto. }
  destruct (finite_choice (fun j e => element_at k l d a (Z.of_nat j) e) (Z.to_nat (aa_length a))) as (els & L & H).
  - intros j Hj. destruct Hok as (Hv & Hok).
    assert (exists b, valid_at a (Z.of_nat j) = Some b) as (b & Hb).
    { unfold validity_ok, valid_at in *. destruct (nth_error (aa_buffers a) 0) as [[m|]|]; [|eauto|contradiction].
      destruct (bit_of_Some m (aa_offset a + Z.of_nat j) ltac:(lia)) as (x & _ & ->). eauto. }
    destruct b.
    + destruct (geom_exists k l d a (Z.of_nat j) (conj Hv Hok) Hs Hbox) as (g & Hg); [lia|]. exists (Some g). split; assumption.
    + exists None. exact Hb.
  - exists els. split; [lia|exact H].
Qed.

(** ** Windows *)
Lemma run_bind {S A B} (vis : visitor S) (p : prog A) (f : A -> prog B) : forall s,
  run vis (pbind p f) s = match run vis p s with
                          | Some (s', Ok a) => run vis (f a) s'
                          | Some (s', Err c) => Some (s', Err c)
                          | Some (s', UB) => Some (s', UB)
                          | Some (s', NoFuel) => Some (s', NoFuel)
                          | None => None
                          end.
Proof.
  induction p as [[a|c| |]|e k IH]; intros s; cbn [pbind run]; try reflexivity.
  destruct (vis s e); [apply IH|reflexivity].
Qed.

Lemma for_each_app {S} (vis : visitor S) body m : forall n i s,
  run vis (for_each (n + m) i body) s =
  run vis (pbind (for_each n i body) (fun _ => for_each m (i + Z.of_nat n) body)) s.
Proof.
  induction n as [|n IH]; intros i s; cbn [Nat.add for_each].
  - cbn [pbind]. rewrite Z.add_0_r. reflexivity.
  - rewrite !run_bind. destruct (run vis (body i) s) as [[s' [u|c| |]]|]; try reflexivity.
    rewrite IH, run_bind. replace (i + 1 + Z.of_nat n) with (i + Z.of_nat (Datatypes.S n)) by lia. reflexivity.
Qed.

Lemma for_each_shift b1 b2 c m : (forall i, b1 (c + i) = b2 i) -> forall i, for_each m (c + i) b1 = for_each m i b2.
Proof.
  intros H. induction m as [|m IH]; intros i; cbn [for_each]; [reflexivity|].
  rewrite H. rewrite <- (IH (i + 1)). rewrite Z.add_assoc. reflexivity.
Qed.

Lemma visit_features_app {S} (vis : visitor S) v o n m geometry s : 0 <= n -> 0 <= m ->
  run vis (visit_features v o (n + m) geometry) s =
  run vis (pbind (visit_features v o n geometry) (fun _ => visit_features v (o + n) m geometry)) s.
Proof.
  intros Hn Hm. unfold visit_features. rewrite Z2Nat.inj_add by assumption. rewrite for_each_app, !run_bind.
  rewrite Z2Nat.id by assumption. rewrite Z.add_0_l.
  match goal with |- context [for_each (Z.to_nat m) n ?b1] => match goal with |- context [for_each (Z.to_nat m) 0 ?b2] =>
    pose proof (for_each_shift b1 b2 n (Z.to_nat m)) as K end end.
  rewrite <- K; [rewrite Z.add_0_r; reflexivity|].
  intros i. replace (q0 (av_offset v) + o + (n + i)) with (q0 (av_offset v) + (o + n) + i) by lia. reflexivity.
Qed.

Theorem visit_native_app {S} (vis : visitor S) v o n m s : 0 <= n -> 0 <= m ->
  run vis (visit_native v o (n + m)) s =
  run vis (pbind (visit_native v o n) (fun _ => visit_native v (o + n) m)) s.
Proof.
  intros Hn Hm. unfold visit_native.
  repeat match goal with |- context [if ?c then _ else _] => destruct c end;
    try (apply visit_features_app; assumption); reflexivity.
Qed.

(** ** Nesting and error propagation, for any view *)
Lemma nests_for_each st body : (forall i, nests (body i) st st) -> forall k i, nests (for_each k i body) st st.
Proof.
  intros H. induction k as [|k IH]; intros i; cbn [for_each]; [apply nests_ret|].
  apply nests_bind with st; [apply H|]. intros _. apply IH.
Qed.
Lemma lawful_for_each body : (forall i, lawful (body i)) -> forall k i, lawful (for_each k i body).
Proof.
  intros H. induction k as [|k IH]; intros i; cbn [for_each]; [constructor|].
  apply lawful_bind; [apply H|]. intros _. apply IH.
Qed.

Lemma nests_coords v o n f st : nests (visit_coords v o n) (match f with true => FGeom | false => FRing end :: st)
  (match f with true => FGeom | false => FRing end :: st).
Proof.
  unfold visit_coords. destruct (n <? 0); [apply nests_ret|].
  apply nests_bind with (match f with true => FGeom | false => FRing end :: st); [apply nests_ret|].
  intros rows. apply nests_emit. destruct f; reflexivity.
Qed.
Lemma nests_seq v lev i f st : nests (visit_seq v lev i) (match f with true => FGeom | false => FRing end :: st)
  (match f with true => FGeom | false => FRing end :: st).
Proof.
  unfold visit_seq. eapply nests_bind; [apply nests_ret|]. intros [x y].
  eapply nests_bind; [apply nests_ret|]. intros z. apply nests_coords.
Qed.
Lemma nests_rings v lev i st : nests (visit_rings v lev i) (FGeom :: st) (FGeom :: st).
Proof.
  unfold visit_rings. eapply nests_bind; [apply nests_ret|]. intros [x y].
  eapply nests_bind; [apply nests_ret|]. intros z. apply nests_for_each. intros j.
  eapply nests_bind; [apply nests_emit; reflexivity|]. intros _.
  eapply nests_bind; [apply (nests_seq v (S lev) (x + z + j) false)|]. intros _. apply nests_emit. reflexivity.
Qed.
Lemma nests_start v g f st : f <> FRing -> nests (start v g) (f :: st) (FGeom :: f :: st).
Proof. intros H. apply nests_emit. destruct f; [reflexivity|reflexivity|contradiction]. Qed.

Lemma nests_geometry v k i : nests (visit_kind k v i) [FFeat] [FFeat].
Proof.
  assert (FFeat <> FRing) as F1 by discriminate. assert (FGeom <> FRing) as F2 by discriminate.
  destruct k; cbn [visit_kind].
  - eapply nests_bind; [apply nests_start; exact F1|]. intros _.
    eapply nests_bind; [apply (nests_coords v i 1 true)|]. intros _. apply nests_emit. reflexivity.
  - eapply nests_bind; [apply nests_start; exact F1|]. intros _.
    eapply nests_bind; [apply (nests_seq v 0 i true)|]. intros _. apply nests_emit. reflexivity.
  - eapply nests_bind; [apply nests_start; exact F1|]. intros _.
    eapply nests_bind; [apply nests_rings|]. intros _. apply nests_emit. reflexivity.
  - eapply nests_bind; [apply nests_start; exact F1|]. intros _.
    eapply nests_bind; [apply nests_ret|]. intros [x y].
    eapply nests_bind; [apply nests_for_each; intros j|intros _; apply nests_emit; reflexivity].
    eapply nests_bind; [apply nests_start; exact F2|]. intros _.
    eapply nests_bind; [apply (nests_coords v _ 1 true)|]. intros _. apply nests_emit. reflexivity.
  - eapply nests_bind; [apply nests_start; exact F1|]. intros _.
    eapply nests_bind; [apply nests_ret|]. intros [x y].
    eapply nests_bind; [apply nests_for_each; intros j|intros _; apply nests_emit; reflexivity].
    eapply nests_bind; [apply nests_start; exact F2|]. intros _.
    eapply nests_bind; [apply (nests_seq v 1 _ true)|]. intros _. apply nests_emit. reflexivity.
  - eapply nests_bind; [apply nests_start; exact F1|]. intros _.
    eapply nests_bind; [apply nests_ret|]. intros [x y].
    eapply nests_bind; [apply nests_for_each; intros j|intros _; apply nests_emit; reflexivity].
    eapply nests_bind; [apply nests_start; exact F2|]. intros _.
    eapply nests_bind; [apply nests_rings|]. intros _. apply nests_emit. reflexivity.
  - unfold visit_box. eapply nests_bind; [apply nests_ret|]. intros ne.
    eapply nests_bind; [apply nests_start; exact F1|]. intros _.
    apply nests_bind with [FGeom; FFeat]; [|intros _; apply nests_emit; reflexivity].
    destruct (Nat.eqb ne 0); [|apply nests_ret].
    eapply nests_bind; [apply nests_ret|]. intros ring.
    eapply nests_bind; [apply nests_emit; reflexivity|]. intros _.
    eapply nests_bind; [apply nests_emit; reflexivity|]. intros _. apply nests_emit. reflexivity.
Qed.

Lemma nests_features v o n g : (forall i, nests (g i) [FFeat] [FFeat]) -> nests (visit_features v o n g) [] [].
Proof.
  intros H. apply nests_for_each. intros i.
  eapply nests_bind; [apply nests_emit; reflexivity|]. intros _.
  eapply nests_bind; [apply nests_ret|]. intros b.
  apply nests_bind with [FFeat]; [destruct b; [apply H|apply nests_emit; reflexivity]|].
  intros _. apply nests_emit. reflexivity.
Qed.

Theorem nests_visit_native v o n : nests (visit_native v o n) [] [].
Proof.
  unfold visit_native.
  repeat match goal with |- context [if ?c then _ else _] => destruct c end; try apply nests_ret; apply nests_features; intros i.
  - apply (nests_geometry v KBox).
  - apply (nests_geometry v KPoint).
  - apply (nests_geometry v KLinestring).
  - apply (nests_geometry v KPolygon).
  - apply (nests_geometry v KMultipoint).
  - apply (nests_geometry v KMultilinestring).
  - apply (nests_geometry v KMultipolygon).
Qed.

Ltac law := repeat first
  [ apply lawful_emit
  | apply law_ret
  | match goal with |- lawful (pbind _ _) => apply lawful_bind; [|intros ?] end
  | match goal with |- lawful (for_each _ _ _) => apply lawful_for_each; intros ? end
  | match goal with |- lawful (if ?c then _ else _) => destruct c end
  | match goal with |- lawful (let (_, _) := ?x in _) => destruct x end ].

Theorem lawful_visit_native v o n : lawful (visit_native v o n).
Proof.
  unfold visit_native, visit_features, visit_point, visit_linestring, visit_polygon, visit_multipoint, visit_multilinestring,
    visit_multipolygon, visit_box, visit_rings, visit_seq, visit_coords, start.
  law.
Qed.
