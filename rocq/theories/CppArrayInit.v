(** * C++ views of native arrays: from the array view to the visits *)
From Verif Require Import Base BaseFacts TypesModel TypesSpec GeomSpec GeomFacts ArrowModel BufferModel BitmapModel BitmapSpec
  BitmapProofs ArrayViewModel NativeSpec NativeProofs NativeVisitProofs CppCoordModel CppWkbModel CppWkbSpec CppWkbVisit
  CppArrayModel CppArraySpec CppArrayProofs.
Local Open Scope Z_scope.

(** ** Lengths in the view *)
Lemma set_coord_length v a lev v' : set_coord_array v a lev = Ok v' -> av_length v' = av_length v.
Proof.
  unfold set_coord_array. destruct (coord_count v a lev); cbn [obind]; try discriminate.
  destruct (_ =? CT_SEPARATE).
  - destruct (negb _); [discriminate|]. destruct (child_values _ _); cbn [obind]; try discriminate.
    intros E; injection E as <-. reflexivity.
  - destruct (_ =? CT_INTERLEAVED); [|discriminate]. destruct (aa_children a) as [|ch [|]]; try discriminate.
    destruct (negb _); [discriminate|]. destruct (nth_error _ 1); cbn [or_ub obind]; [|discriminate].
    intros E; injection E as <-. reflexivity.
Qed.

Fixpoint set_internal_length (a : arrow_array) {struct a} : forall v lev v',
  set_array_internal v a lev = Ok v' ->
  q0 (av_length v') = match lev with O => aa_length a | S _ => q0 (av_length v) end.
Proof.
  destruct a as [len off nc bufs chs]. intros v lev v'. cbn [set_array_internal].
  assert (q0 (av_length (with_level v lev off len)) = match lev with O => len | S _ => q0 (av_length v) end) as W
    by (destruct lev as [|[|[|]]]; reflexivity).
  destruct (_ =? _); [intros E; rewrite (set_coord_length _ _ _ _ E); exact W|].
  destruct (negb _); [discriminate|]. destruct chs as [|c [|]]; try discriminate.
  destruct (0 <? len).
  - destruct (nth_error bufs 1); cbn [or_ub obind]; [|discriminate].
    destruct (load_int32 _ off); cbn [obind]; try discriminate. destruct (load_int32 _ (off + len)); cbn [obind]; try discriminate.
    intros E. apply set_internal_length in E. rewrite E. exact W.
  - cbn [obind]. intros E. apply set_internal_length in E. rewrite E. exact W.
Qed.

Lemma set_array_length v a v' : set_array v a = Ok v' -> q0 (av_length v') = aa_length a.
Proof.
  unfold set_array.
  assert (forall o : outcome aview, (forall x, o = Ok x -> q0 (av_length x) = aa_length a) ->
    (do v <- o; do b0 <- or_ub (nth_error (aa_buffers a) 0); Ok (with_validity v (rptr_of b0))) = Ok v' ->
    q0 (av_length v') = aa_length a) as K.
  { intros o Ho. destruct o as [x| | |]; cbn [obind]; try discriminate. destruct (nth_error _ 0); cbn [or_ub obind]; [|discriminate].
    intros E; injection E as <-. exact (Ho x eq_refl). }
  apply K. intros x. destruct (_ || _).
  - unfold set_array_serialized. destruct (nth_error _ 1); cbn [or_ub obind]; [|discriminate].
    destruct (nth_error _ 2); cbn [or_ub obind]; [|discriminate]. intros E; injection E as <-. reflexivity.
  - destruct (_ || _ || _ || _).
    + unfold set_array_box. destruct (negb _); [discriminate|]. destruct (child_values _ _); cbn [obind]; try discriminate.
      intros H; injection H as <-. reflexivity.
    + apply (set_internal_length a v 0).
Qed.

(** ** Init *)
Lemma cseq_init_ok size c : Z.of_nat size <= rc_n_values c -> (size <= length (rc_values c))%nat ->
  cseq_init_coords size c = Ok (CSeq 0 (rc_n_coords c) (firstn size (rc_values c)) (rc_stride c)).
Proof.
  intros H1 H2. unfold cseq_init_coords. destruct (Z.ltb_spec (rc_n_values c) (Z.of_nat size)); [lia|].
  destruct (Nat.ltb_spec (length (rc_values c)) size); [lia|]. reflexivity.
Qed.

(** The pointers of the first [size] values. *)
Lemma values_shown l d n size v a : values_bound l n v a -> (size <= n)%nat ->
  rc_stride (av_coords v) = match l with Separate => 1 | Interleaved => Z.of_nat (ndim d) end ->
  forall j p, nth_error (firstn size (rc_values (av_coords v))) j = Some p -> forall i w,
    ordinate_at l d a i j = Some w -> load_double p ((aa_offset a + i) * rc_stride (av_coords v)) = Ok w.
Proof.
  intros V Hsz St j p Hp i w Hw.
  assert (j < size)%nat as Hj.
  { assert (j < length (firstn size (rc_values (av_coords v))))%nat by (apply nth_error_Some; congruence).
    rewrite firstn_length in *. lia. }
  apply nth_error_firstn_some in Hp.
  pose proof (view_value_ok l d n v a i j w V St ltac:(lia) Hw) as E. unfold view_value in E. rewrite Hp in E. exact E.
Qed.

Lemma seq_init_ok k l d size v : typed k l d v -> k <> KBox -> (size <= ndim d)%nat -> forall n level a,
  bound l d n v level a -> nested l d n a -> av_n_offsets v = Z.of_nat (level + n) -> (level + n <= 3)%nat ->
  exists s, seq_init size n v level = Ok s /\ seq_offset n s = aa_offset a /\ shows l d size n s a /\
    qget (av_length v) level = Some (seq_length n s).
Proof.
  intros T Hk Hsz. induction n as [|n IH]; intros level a B N Hn Hle.
  - destruct B as (Bo & V). cbn [seq_init]. rewrite Nat.add_0_r in Hn. rewrite Hn, Z.eqb_refl. cbn [negb].
    rewrite cseq_init_ok; [|rewrite (n_values_dim _ _ _ _ T Hk); lia|rewrite (ty_len _ _ _ _ T); destruct d; cbn in *; lia].
    cbn [obind cs_values cs_stride]. rewrite Bo. cbn [or_ub obind].
    destruct (qget (av_length v) level) as [len|] eqn:El.
    2:{ exfalso. destruct level as [|[|[|[|]]]]; cbn in El; try discriminate; lia. }
    cbn [or_ub obind]. eexists. split; [reflexivity|]. split; [reflexivity|]. split; [|reflexivity].
    split; [cbn [cs_values]; rewrite firstn_length, (ty_len _ _ _ _ T); destruct d; cbn in *; lia|].
    cbn [cs_values cs_stride]. exact (values_shown l d (ndim d) size v a V Hsz (ty_stride _ _ _ _ T)).
  - destruct B as (Bo & child & Hch & Bc & Hp). cbn [seq_init]. rewrite Hn.
    destruct (Z.gtb_spec (Z.of_nat level) (Z.of_nat (level + S n) - 1)); [lia|].
    destruct (qget (av_offsets v) level) as [p|] eqn:Ep.
    2:{ exfalso. destruct level as [|[|[|[|]]]]; cbn in Ep; try discriminate; lia. }
    destruct (qget (av_length v) level) as [len|] eqn:El.
    2:{ exfalso. destruct level as [|[|[|[|]]]]; cbn in El; try discriminate; lia. }
    cbn [or_ub obind].
    destruct (IH (S level) child Bc (nested_child l d n a child N Hch) ltac:(rewrite Hn; lia) ltac:(lia)) as (c & Ec & Ho & Sh & _).
    rewrite Ec. cbn [obind]. rewrite Bo. cbn [or_ub obind].
    eexists. split; [reflexivity|]. split; [reflexivity|]. split; [|reflexivity].
    exists child. split; [exact Hch|]. split; [exact Ho|]. split; [exact Sh|].
    intros Hpos. destruct (Hp Hpos) as (b & Hb & Hq). injection Hq as ->. cbn [ls_offsets].
    destruct b as [b|]; [exists b; unfold second_buffer; rewrite Hb; auto|].
    exfalso. destruct N as (_ & _ & v0 & b0 & child0 & Hbuf & _ & _ & Hoff). rewrite Hbuf in Hb. cbn in Hb.
    destruct (Hoff Hpos) as (ob & Eb & _). congruence.
Qed.

(** A native array set on a view with any history, seen through the C++ array type. *)
Lemma array_init_ok k l d size v a : supported k d l -> k <> KBox ->
  view_history (make_type (geometry_kind_code k) (dim_code d) (layout_code l)) v ->
  native_ok k l d a -> (size <= ndim d)%nat ->
  exists v' arr b0, set_array v a = Ok v' /\ array_init size (list_levels k) v' = Ok arr /\
    nested l d (list_levels k) a /\ seq_offset (list_levels k) (ca_value arr) = aa_offset a /\
    seq_length (list_levels k) (ca_value arr) = aa_length a /\ shows l d size (list_levels k) (ca_value arr) a /\
    nth_error (aa_buffers a) 0 = Some b0 /\ ca_validity arr = rptr_of b0.
Proof.
  intros Hs Hk Hh Hok Hsz. pose proof (history_typed _ _ _ _ Hs Hh) as T.
  destruct (set_array_native_ok k l d v a T Hs Hk Hok) as (v' & b0 & E & T' & B & N & Hb & Hv).
  pose proof (set_array_length _ _ _ E) as Hlen.
  destruct (seq_init_ok k l d size v' T' Hk Hsz (list_levels k) 0 a B N) as (s & Es & Ho & Sh & Hl).
  - rewrite (ty_offsets _ _ _ _ T'). destruct k; try contradiction; reflexivity.
  - destruct k; cbn; lia.
  - exists v', (CArray s (av_validity v')), b0. split; [exact E|]. unfold array_init. rewrite Es. cbn [obind].
    split; [reflexivity|]. cbn [ca_value ca_validity]. cbn [qget] in Hl. injection Hl as Hl. rewrite <- Hl, Hlen. auto 8.
Qed.

(** ** The geometries *)
Lemma pairs_map {A B} (f : A -> B) xs : pairs (map f xs) = map (both f) (pairs xs).
Proof.
  induction xs as [|x xs IH]; [reflexivity|]. destruct xs as [|y xs]; [reflexivity|].
  change (pairs (map f (x :: y :: xs))) with ((f x, f y) :: pairs (map f (y :: xs))). rewrite IH. reflexivity.
Qed.
Lemma degenerate_map {A B} (f : A -> B) xs : degenerate (map f xs) = map (both f) (degenerate xs).
Proof. unfold degenerate. rewrite !map_map. reflexivity. Qed.

Lemma flat_leaves {A} (xs : list A) : flat_map (fun c => [c]) xs = xs.
Proof. induction xs as [|x xs IH]; cbn; [reflexivity|]. rewrite IH. reflexivity. Qed.
Lemma flat_map_id {A} (xss : list (list A)) : flat_map (fun x => x) xss = concat xss.
Proof. symmetry. rewrite <- (map_id xss) at 1. symmetry. apply flat_map_concat_map. Qed.

Lemma flat1 (cs : list coord) : flat 1 cs = cs.
Proof. apply flat_leaves. Qed.
Lemma flat2 (rings : list (list coord)) : flat 2 rings = concat rings.
Proof.
  induction rings as [|r rings IH]; [reflexivity|].
  change (flat 2 (r :: rings)) with (flat 1 r ++ flat 2 rings). rewrite flat1, IH. reflexivity.
Qed.
Lemma flat3 (polys : list (list (list coord))) : flat 3 polys = flat_map (@concat _) polys.
Proof.
  induction polys as [|r polys IH]; [reflexivity|].
  change (flat 3 (r :: polys)) with (flat 2 r ++ flat 3 polys). rewrite flat2, IH. reflexivity.
Qed.

Definition cut_of (d' : dim) (v : dim * coord) : coord := snd (read_as d' v).

Lemma geom_elt k l d d' a i g : k <> KBox -> geom_at k l d a i g ->
  exists x : tt_of (list_levels k), elt l d (list_levels k) a i x /\
    geom_coords g = map (pair d) (flat (list_levels k) x) /\
    map (both (cut_of d')) (geom_edges g) =
      match k with
      | KPoint | KMultipoint => map (fun c => (c, c)) (map (cut (ndim d')) (flat (list_levels k) x))
      | _ => edges_of (ndim d') (list_levels k) x
      end.
Proof.
  intros Hk. destruct k; cbn [geom_at list_levels]; [| | | | | |contradiction].
  - intros (c & Hc & ->). exists c. split; [exact Hc|]. split; reflexivity.
  - intros (cs & Hc & ->). exists cs. split; [exact Hc|]. split.
    + rewrite flat1. reflexivity.
    + cbn [geom_edges edges_of lists_edges]. rewrite <- pairs_map, map_map. reflexivity.
  - intros (rings & Hc & ->). exists rings. split; [exact Hc|]. split.
    + rewrite flat2. reflexivity.
    + cbn [geom_edges edges_of lists_edges]. rewrite map_flat_map'. apply flat_map_ext. intros cs.
      rewrite <- pairs_map, map_map. reflexivity.
  - intros (cs & Hc & ->). exists cs. split; [exact Hc|]. rewrite geom_coords_coll, flat1. split.
    + rewrite flat_map_map. cbn [geom_coords map]. induction cs as [|c cs IH] in |- *; cbn; [reflexivity|].
      rewrite IH. reflexivity.
    + cbn [geom_edges]. rewrite flat_map_map, map_flat_map', !map_map. clear.
      induction cs as [|c cs IH]; cbn [flat_map map]; [reflexivity|]. rewrite IH. reflexivity.
  - intros (lines & Hc & ->). exists lines. split; [exact Hc|]. rewrite geom_coords_coll. split.
    + rewrite flat2, flat_map_map. clear. induction lines as [|cs lines IH]; cbn [flat_map concat]; [reflexivity|].
      rewrite IH, map_app. reflexivity.
    + cbn [geom_edges edges_of lists_edges]. rewrite flat_map_map, map_flat_map'. apply flat_map_ext. intros cs.
      cbn [geom_edges]. rewrite <- pairs_map, map_map. reflexivity.
  - intros (polys & Hc & ->). exists polys. split; [exact Hc|]. rewrite geom_coords_coll. split.
    + rewrite flat3, flat_map_map, map_flat_map'. reflexivity.
    + cbn [geom_edges edges_of lists_edges]. rewrite flat_map_map, map_flat_map'. apply flat_map_ext. intros rings.
      cbn [geom_edges]. rewrite map_flat_map'. apply flat_map_ext. intros cs. rewrite <- pairs_map, map_map. reflexivity.
Qed.

Definition opt_flat (depth : nat) (e : option (tt_of depth)) : list coord :=
  match e with Some x => flat depth x | None => [] end.

Lemma elements_elt k l d d' a : k <> KBox -> forall els o,
  (forall j e, nth_error els j = Some e -> element_at k l d a (o + Z.of_nat j) e) ->
  exists es, length es = length els /\
    (forall j e, nth_error es j = Some e -> elt_or_null l d (list_levels k) a (o + Z.of_nat j) e) /\
    elements_vertices els = map (pair d) (flat_map (opt_flat (list_levels k)) es) /\
    map (both (cut_of d')) (elements_edges els) =
      match k with
      | KPoint | KMultipoint => map (fun c => (c, c)) (map (cut (ndim d')) (flat_map (opt_flat (list_levels k)) es))
      | _ => flat_map (fun e => match e with Some x => edges_of (ndim d') (list_levels k) x | None => [] end) es
      end /\
    (forall j, nth_error es j = Some None <-> nth_error els j = Some None).
Proof.
  intros Hk. induction els as [|e els IH]; intros o H.
  - exists []. split; [reflexivity|]. split; [intros [|j] e Hj; discriminate|]. split; [reflexivity|]. split; [destruct k; reflexivity|].
    intros j. destruct j; split; discriminate.
  - destruct (IH (o + 1)) as (es & Hl & He & Hv & Hg & Hnull).
    { intros j x Hx. replace (o + 1 + Z.of_nat j) with (o + Z.of_nat (S j)) by lia. apply H, Hx. }
    pose proof (H 0%nat e eq_refl) as H0. change (Z.of_nat 0) with 0 in H0. rewrite Z.add_0_r in H0.
    assert (exists x, elt_or_null l d (list_levels k) a o x /\
      match e with Some g => geom_coords g | None => [] end = map (pair d) (opt_flat (list_levels k) x) /\
      map (both (cut_of d')) match e with Some g => geom_edges g | None => [] end =
        match k with
        | KPoint | KMultipoint => map (fun c => (c, c)) (map (cut (ndim d')) (opt_flat (list_levels k) x))
        | _ => match x with Some x => edges_of (ndim d') (list_levels k) x | None => [] end
        end /\ (x = None <-> e = None)) as (x & X1 & X2 & X3 & X4).
    { destruct e as [g|].
      - destruct H0 as (V & G). destruct (geom_elt k l d d' a o g Hk G) as (x & E1 & E2 & E3).
        exists (Some x). split; [split; assumption|]. split; [exact E2|]. split; [exact E3|split; discriminate].
      - exists None. split; [exact H0|]. split; [reflexivity|]. split; [destruct k; reflexivity|tauto]. }
    exists (x :: es). split; [cbn; lia|]. split.
    { intros [|j] y Hy; cbn in Hy.
      - injection Hy as <-. rewrite Z.add_0_r. exact X1.
      - replace (o + Z.of_nat (S j)) with (o + 1 + Z.of_nat j) by lia. apply He, Hy. }
    split; [unfold elements_vertices in *; cbn [flat_map]; rewrite map_app, Hv, X2; reflexivity|].
    split.
    { unfold elements_edges in *. cbn [flat_map]. rewrite map_app, Hg, X3. destruct k; rewrite ?map_app; reflexivity. }
    intros [|j]; cbn [nth_error]; [|apply Hnull].
    split; intros E; injection E as E; f_equal; apply X4, E.
Qed.

(** ** The theorems *)
Section Visits.
Variables (k : geometry_kind) (l : layout) (d d' : dim) (v : aview) (a : arrow_array) (els : list (option geom)).
Hypothesis Hs : supported k d l.
Hypothesis Hk : k <> KBox.
Hypothesis Hh : view_history (make_type (geometry_kind_code k) (dim_code d) (layout_code l)) v.
Hypothesis Hok : native_ok k l d a.
Hypothesis Hc : contents k l d a els.
Hypothesis Hd : (ndim d' <= ndim d)%nat.

Lemma native_visits :
  exists v' arr, set_array v a = Ok v' /\ array_init (coord_size d') (list_levels k) v' = Ok arr /\
    forall o n, (o + n <= length els)%nat ->
      let w := array_slice arr (Z.of_nat o) (Z.of_nat n) in
      (forall dst, array_vertices d' dst (list_levels k) w =
                   Ok (map (fun p => as_dims dst (read_as d' p)) (elements_vertices (window els o n)))) /\
      kind_edges k d' (list_levels k) w = Ok (map (both (fun p => snd (read_as d' p))) (elements_edges (window els o n))) /\
      (forall i e, nth_error (window els o n) i = Some e ->
         array_is_valid w (Z.of_nat i) = Ok (match e with Some _ => true | None => false end) /\
         array_is_null w (Z.of_nat i) = Ok (match e with Some _ => false | None => true end)) /\
      (Forall (fun e => e <> None) (window els o n) -> exists cs, seq_coords (list_levels k) (ca_value w) = Ok cs /\
         forall dst, seq_vertices d' dst 0 cs =
                     Ok (map (fun p => as_dims dst (read_as d' p)) (elements_vertices (window els o n)))).
Proof.
  destruct (array_init_ok k l d (ndim d') v a Hs Hk Hh Hok Hd) as (v' & arr & b0 & E & Ei & N & Ho & Hl & Sh & Hb & Hv).
  exists v', arr. split; [exact E|]. split; [rewrite coord_size_ndim; exact Ei|]. intros o n Hon w.
  destruct Hc as (Hlen & Hel).
  destruct (elements_elt k l d d' a Hk (window els o n) (Z.of_nat o)) as (es & L & He & Hve & Hge & Hnull).
  { intros j e Hj. apply nth_error_window in Hj. destruct Hj as (_ & Hj). rewrite <- Nat2Z.inj_add. apply Hel, Hj. }
  rewrite (NativeVisitProofs.window_length els o n Hon) in L.
  assert (covers l d (ndim d') (list_levels k) (ca_value w) a (Z.of_nat o) (length es)) as C.
  { subst w. unfold array_slice. cbn [ca_value]. split; [rewrite window_offset, Ho; reflexivity|].
    split; [rewrite CppArrayProofs.window_length, L; reflexivity|apply window_shows, Sh]. }
  assert (Z.of_nat o + Z.of_nat (length es) <= aa_length a) as Hle by lia.
  assert (ca_validity w = rptr_of b0) as Hval by exact Hv.
  assert (forall dst x, map (seen (ndim d') d' dst) x = map (fun p => as_dims dst (read_as d' p)) (map (pair d) x)) as Hseen
    by (intros; rewrite map_map; reflexivity).
  assert (forall dst, array_vertices d' dst (list_levels k) w =
    Ok (map (fun p => as_dims dst (read_as d' p)) (elements_vertices (window els o n)))) as HV.
  { intros dst. rewrite (array_vertices_ok l d (ndim d') d' dst eq_refl Hd (list_levels k) w a b0 (Z.of_nat o) es N C
      (Nat2Z.is_nonneg o) Hle Hb Hval He). rewrite Hve. rewrite <- Hseen. reflexivity. }
  split; [exact HV|]. split; [|split].
  - change (fun p : dim * coord => snd (read_as d' p)) with (cut_of d'). rewrite Hge. unfold kind_edges.
    assert (point_edges d' (list_levels k) w =
      Ok (map (fun c => (c, c)) (map (cut (ndim d')) (flat_map (opt_flat (list_levels k)) es)))) as P.
    { unfold point_edges. rewrite HV. cbn [obind]. do 2 f_equal. rewrite Hve, map_map. apply map_ext_in. intros c Hin.
      unfold as_dims, read_as, cut. cbn [fst snd]. rewrite <- coord_cast_spec.
      - unfold coord_cast. replace (dim_eqb d' d') with true by (destruct d'; reflexivity). reflexivity.
      - rewrite firstn_length. apply in_flat_map in Hin. destruct Hin as (e & Hine & Hcx).
        assert (length c = ndim d); [|lia]. apply In_nth_error in Hine. destruct Hine as (j & Hj).
        specialize (He j e Hj). destruct e as [x|]; [|contradiction]. destruct He as (_ & He).
        revert He Hcx. generalize (Z.of_nat o + Z.of_nat j). clear. revert a x. induction (list_levels k) as [|m IH]; intros a x z He Hin.
        + destruct He as (He & _). cbn in Hin. destruct Hin as [<-|[]]. exact He.
        + destruct He as (b & lo & hi & child & _ & _ & _ & _ & _ & HR). cbn [flat] in Hin. apply in_flat_map in Hin.
          destruct Hin as (y & Hy & Hcy). apply In_nth_error in Hy. destruct Hy as (q & Hq). exact (IH child y _ (HR q y Hq) Hcy). }
    assert ((0 < list_levels k)%nat -> array_edges (list_levels k) w =
      Ok (flat_map (fun e => match e with Some x => edges_of (ndim d') (list_levels k) x | None => [] end) es)) as A.
    { intros Hp. exact (array_edges_ok l d (ndim d') d' eq_refl Hd (list_levels k) w a b0 (Z.of_nat o) es N C
        (Nat2Z.is_nonneg o) Hle Hb Hval He Hp). }
    destruct k; try contradiction; try exact P; apply A; cbn; lia.
  - intros i e Hi.
    assert (exists x, nth_error es i = Some x /\ (x = None <-> e = None)) as (x & Hx & Hxe).
    { destruct (nth_error es i) as [x|] eqn:Ex.
      - exists x. split; [reflexivity|]. destruct (Hnull i) as (A1 & A2). rewrite Ex, Hi in *.
        split; intros ->; [specialize (A1 eq_refl)|specialize (A2 eq_refl)]; congruence.
      - apply nth_error_None in Ex. assert (i < length (window els o n))%nat by (apply nth_error_Some; congruence).
        rewrite (NativeVisitProofs.window_length els o n Hon) in *. lia. }
    rewrite (is_valid_ok l d (ndim d') d' eq_refl Hd (list_levels k) w a b0 (Z.of_nat o) es C Hb Hval He i x Hx).
    rewrite (is_null_ok l d (ndim d') d' eq_refl Hd (list_levels k) w a b0 (Z.of_nat o) es C Hb Hval He i x Hx).
    destruct x, e; try (split; reflexivity); exfalso; destruct Hxe as (A1 & A2);
      [specialize (A2 eq_refl)|specialize (A1 eq_refl)]; discriminate.
  - intros Hall.
    assert (forall e, In e es -> e <> None) as Hn.
    { intros e Hin ->. apply In_nth_error in Hin. destruct Hin as (j & Hj). apply Hnull in Hj.
      apply nth_error_In in Hj. rewrite Forall_forall in Hall. exact (Hall None Hj eq_refl). }
    destruct (coords_ok_all l d (ndim d') d' XY eq_refl Hd (list_levels k) w a (Z.of_nat o) es N C
      (Nat2Z.is_nonneg o) Hle He Hn) as (cs & xs & Ecs & Exs & _).
    exists cs. split; [exact Ecs|]. intros dst.
    destruct (coords_ok_all l d (ndim d') d' dst eq_refl Hd (list_levels k) w a (Z.of_nat o) es N C
      (Nat2Z.is_nonneg o) Hle He Hn) as (cs2 & xs2 & Ecs2 & Exs2 & Ev).
    rewrite Ecs in Ecs2. injection Ecs2 as <-. rewrite Ev, Hve, Exs2, <- Hseen, flat_map_map. reflexivity.
Qed.
End Visits.
