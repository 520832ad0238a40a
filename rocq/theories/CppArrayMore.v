(** * C++ views of arrays: refusals, slices, boxes, coordinate memory and dimension iterators *)
From Verif Require Import Base BaseFacts TypesModel TypesSpec GeomSpec GeomFacts ArrowModel BufferModel BitmapModel BitmapSpec BitmapProofs
  ArrayViewModel NativeSpec NativeProofs NativeVisitProofs CppCoordModel CppWkbModel CppWkbSpec CppArrayModel CppArraySpec
  CppArrayProofs CppArrayInit.
Local Open Scope Z_scope.

(** ** Initialization *)
Lemma values_count k l d v : typed k l d v -> rc_n_values (av_coords v) = Z.of_nat (array_size k d).
Proof. intros T. rewrite (ty_values _ _ _ _ T). destruct k, d; reflexivity. Qed.

Lemma seq_init_iff size v N : av_n_offsets v = Z.of_nat N -> (N <= 3)%nat -> length (rc_values (av_coords v)) = 8%nat ->
  0 <= rc_n_values (av_coords v) <= 8 -> forall depth level, (level <= N)%nat ->
  ((level + depth = N)%nat /\ Z.of_nat size <= rc_n_values (av_coords v) /\ exists s, seq_init size depth v level = Ok s) \/
  (~ ((level + depth = N)%nat /\ Z.of_nat size <= rc_n_values (av_coords v)) /\ seq_init size depth v level = Err EINVAL).
Proof.
  intros HN Hle Hlen Hv. induction depth as [|depth IH]; intros level Hlev; cbn [seq_init]; rewrite HN.
  - destruct (Z.eqb_spec (Z.of_nat level) (Z.of_nat N)) as [E|E]; cbn [negb].
    + destruct (Z.leb_spec (Z.of_nat size) (rc_n_values (av_coords v))).
      * left. split; [lia|]. split; [assumption|]. rewrite cseq_init_ok by lia. cbn [obind].
        destruct level as [|[|[|[|]]]]; [..|lia]; cbn [qget or_ub obind]; eexists; reflexivity.
      * right. split; [lia|]. unfold cseq_init_coords. destruct (Z.ltb_spec (rc_n_values (av_coords v)) (Z.of_nat size)); [reflexivity|lia].
    + right. split; [lia|reflexivity].
  - destruct (Z.gtb_spec (Z.of_nat level) (Z.of_nat N - 1)) as [E|E].
    + right. split; [lia|reflexivity].
    + assert (exists p o n, qget (av_offsets v) level = Some p /\ qget (av_offset v) level = Some o /\ qget (av_length v) level = Some n)
        as (p & o & n & -> & -> & ->).
      { destruct level as [|[|[|[|]]]]; [..|lia]; cbn [qget]; do 3 eexists; (split; [reflexivity|]; split; reflexivity). }
      cbn [or_ub obind].
      destruct (IH (S level) ltac:(lia)) as [(A & B & s & Es)|(A & Es)]; rewrite Es; cbn [obind].
      * left. split; [lia|]. split; [exact B|]. eexists. reflexivity.
      * right. split; [lia|reflexivity].
Qed.

(** An array is initialized if and only if it has the nesting of the view and no more ordinates. *)
Lemma array_init_iff k l d v size depth : supported k d l ->
  view_history (make_type (geometry_kind_code k) (dim_code d) (layout_code l)) v ->
  (depth = array_depth k /\ (size <= array_size k d)%nat -> exists arr, array_init size depth v = Ok arr) /\
  (~ (depth = array_depth k /\ (size <= array_size k d)%nat) -> array_init size depth v = Err EINVAL).
Proof.
  intros Hs Hh. pose proof (history_typed _ _ _ _ Hs Hh) as T.
  assert (av_n_offsets v = Z.of_nat (array_depth k)) as HN by (rewrite (ty_offsets _ _ _ _ T); destruct k; reflexivity).
  pose proof (values_count _ _ _ _ T) as HV.
  assert (0 <= rc_n_values (av_coords v) <= 8) as HV8 by (rewrite HV; destruct k, d; vm_compute; split; discriminate).
  destruct (seq_init_iff size v (array_depth k) HN ltac:(destruct k; cbn; lia) (ty_len _ _ _ _ T) HV8 depth 0 ltac:(lia))
    as [(A & B & s & Es)|(A & Es)]; unfold array_init; rewrite Es; cbn [obind]; rewrite HV in *.
  - split; [eauto|]. intros X. exfalso. apply X. lia.
  - split; [|reflexivity]. intros X. exfalso. apply A. lia.
Qed.

(** ** Slices of slices *)
Lemma slice_slice depth (arr : carray (seq_of depth)) o1 n1 o2 n2 :
  array_slice (array_slice arr o1 n1) o2 n2 = array_slice arr (o1 + o2) n2.
Proof.
  unfold array_slice. cbn [ca_value ca_validity]. rewrite window_offset. f_equal.
  rewrite <- Z.add_assoc. destruct depth; reflexivity.
Qed.

(** ** One element *)
Lemma native_item k l d d' v a els : supported k d l -> k <> KBox ->
  view_history (make_type (geometry_kind_code k) (dim_code d) (layout_code l)) v ->
  native_ok k l d a -> contents k l d a els -> (ndim d' <= ndim d)%nat ->
  exists v' arr, set_array v a = Ok v' /\ array_init (coord_size d') (array_depth k) v' = Ok arr /\
    seq_length (array_depth k) (ca_value arr) = Z.of_nat (length els) /\
    forall i g, nth_error els i = Some (Some g) -> forall dst,
      item_vertices d' dst (array_depth k) (ca_value arr) (Z.of_nat i) =
      Ok (map (fun p => as_dims dst (read_as d' p)) (geom_coords g)).
Proof.
  intros Hs Hk Hh Hok Hc Hd. change array_depth with list_levels.
  destruct (array_init_ok k l d (ndim d') v a Hs Hk Hh Hok Hd) as (v' & arr & b0 & E & Ei & N & Ho & Hl & Sh & Hb & Hv).
  exists v', arr. split; [exact E|]. split; [rewrite coord_size_ndim; exact Ei|]. destruct Hc as (Hlen & Hel).
  split; [congruence|]. intros i g Hi dst. destruct (Hel i _ Hi) as (_ & G).
  destruct (geom_elt k l d d' a _ g Hk G) as (x & X1 & X2 & _).
  assert (i < length els)%nat by (apply nth_error_Some; congruence).
  rewrite (item_vertices_ok l d (ndim d') d' dst eq_refl Hd (list_levels k) (ca_value arr) a 0 (Z.of_nat i) x N Sh); [|lia|lia|exact X1].
  rewrite X2, map_map. reflexivity.
Qed.

(** ** Boxes *)
Lemma box_bounds_exist d a i : native_ok KBox Separate d a -> 0 <= i < aa_length a -> exists lo hi, box_bounds_at d a i lo hi.
Proof.
  intros (_ & Ho & Hn & _ & Hc & Hf) Hi.
  destruct (finite_choice (fun j w => ordinate_at Separate d a i j = Some w) (2 * ndim d)) as (ws & L & Hw).
  { intros j Hj. cbn [ordinate_at]. destruct (nth_error (aa_children a) j) as [ch|] eqn:E.
    - apply (float_elt_exists (aa_offset a + aa_length a)); [|lia].
      rewrite Forall_forall in Hf. apply Hf. apply nth_error_In with j. exact E.
    - apply nth_error_None in E. lia. }
  exists (firstn (ndim d) ws), (skipn (ndim d) ws). unfold box_bounds_at. rewrite firstn_length, skipn_length, L.
  split; [lia|]. split; [lia|]. rewrite firstn_skipn. exact Hw.
Qed.

Lemma box_array_ok d v a : view_history (make_type 990 (dim_code d) 1) v -> native_ok KBox Separate d a ->
  exists v' arr, set_array v a = Ok v' /\ array_init (array_size KBox d) (array_depth KBox) v' = Ok arr /\
    forall o n, 0 <= o -> 0 <= n -> o + n <= aa_length a ->
      let w := array_slice arr o n in
      seq_length 0 (ca_value w) = n /\
      seq_length 0 (ca_value (lower_bound d w)) = n /\ seq_length 0 (ca_value (upper_bound d w)) = n /\
      forall i, 0 <= i < n -> exists lo hi, box_bounds_at d a (o + i) lo hi /\
        cseq_coord (ca_value (lower_bound d w)) i = Ok lo /\ cseq_coord (ca_value (upper_bound d w)) i = Ok hi /\
        (exists box, cseq_coord (ca_value w) i = Ok box /\ box_lower d box = lo /\ box_upper d box = hi) /\
        exists b, valid_at a (o + i) = Some b /\ array_is_valid w i = Ok b /\
          array_is_valid (lower_bound d w) i = Ok b /\ array_is_valid (upper_bound d w) i = Ok b.
Proof.
  intros Hh Hok. assert (supported KBox d Separate) as Hs by (intros X; discriminate X || reflexivity).
  pose proof (history_typed KBox Separate d v Hs Hh) as T.
  destruct (set_array_box_ok d v a T Hok) as (v' & b0 & E & T' & Eo & V & Hb & Hv).
  pose proof (set_array_length _ _ _ E) as Hlen.
  exists v'. unfold array_init, array_size, array_depth. cbn [seq_init].
  rewrite (ty_offsets _ _ _ _ T'). change (offsets_of_geometry (geometry_kind_code KBox)) with 0.
  change (Z.of_nat 0 =? 0) with true. cbn [negb].
  rewrite cseq_init_ok; cycle 1.
  { rewrite (values_count _ _ _ _ T'). cbn [array_size]. lia. }
  { rewrite (ty_len _ _ _ _ T'). destruct d; cbn; lia. }
  cbn [obind qget or_ub cs_values cs_stride]. rewrite Eo, Hlen, coord_size_ndim.
  set (vs := firstn (2 * ndim d) (rc_values (av_coords v'))) in *.
  set (st := rc_stride (av_coords v')) in *.
  exists (CArray (CSeq (aa_offset a) (aa_length a) vs st) (av_validity v')). split; [exact E|]. split; [reflexivity|].
  intros o n Ho Hn Hon. unfold array_slice, lower_bound, upper_bound.
  cbn [ca_value ca_validity cs_length cs_offset cs_values cs_stride seq_offset seq_length seq_window].
  split; [reflexivity|]. split; [reflexivity|]. split; [reflexivity|].
  intros i Hi. destruct (box_bounds_exist d a (o + i) Hok ltac:(lia)) as (lo & hi & B).
  exists lo, hi. split; [exact B|]. destruct B as (Llo & Lhi & B).
  assert (length vs = (2 * ndim d)%nat) as Lvs.
  { subst vs. rewrite firstn_length, (ty_len _ _ _ _ T'). destruct d; reflexivity. }
  assert (forall j p x, nth_error vs j = Some p -> nth_error (lo ++ hi) j = Some x ->
    load_double p ((aa_offset a + o + i) * st) = Ok x) as Ld.
  { intros j p x Hp Hx. rewrite <- Z.add_assoc.
    exact (values_shown Separate d (2 * ndim d) (2 * ndim d) v' a V (le_n _) (ty_stride _ _ _ _ T') j p Hp (o + i) x (B j x Hx)). }
  rewrite coord_size_ndim. unfold cseq_coord. cbn [cs_values cs_offset cs_stride]. split; [|split; [|split]].
    - apply (values_at_ok 0); [rewrite (@firstn_length rptr); lia|]. intros j p x Hp Hx.
    assert (j < length lo)%nat by (apply nth_error_Some; congruence).
    apply (Ld j); [apply nth_error_firstn_some in Hp; exact Hp|]. rewrite nth_error_app1 by assumption. exact Hx.
  - apply (values_at_ok 0); [rewrite (@firstn_length rptr), (@skipn_length rptr); lia|]. intros j p x Hp Hx.
    assert (j < length hi)%nat by (apply nth_error_Some; congruence).
    apply nth_error_firstn_some in Hp. rewrite BitmapProofs.nth_error_skipn' in Hp.
    apply (Ld (ndim d + j)%nat); [exact Hp|]. rewrite nth_error_app2 by lia. rewrite Llo.
    replace (ndim d + j - ndim d)%nat with j by lia. exact Hx.
  - exists (lo ++ hi). split; [apply (values_at_ok 0); [rewrite app_length; lia|exact Ld]|]. clear - Llo Lhi.
    destruct d; cbn [ndim] in *;
      repeat (let x := fresh "x" in destruct lo as [|x lo]; try discriminate Llo);
      repeat (let x := fresh "x" in destruct hi as [|x hi]; try discriminate Lhi); split; reflexivity.
  - assert (exists b, valid_at a (o + i) = Some b) as (b & Eb).
    { destruct Hok as (Hval & Hof & _). unfold validity_ok in Hval. unfold valid_at. rewrite Hb in *.
      destruct b0 as [m|]; [|eauto]. destruct (bit_of_Some m (aa_offset a + (o + i)) ltac:(lia)) as (x & _ & ->). eauto. }
    exists b. split; [exact Eb|].
    pose proof (valid_index_ok a b0 (o + i) b Hb Eb) as VI. rewrite <- Hv in VI.
    unfold array_is_valid. cbn [ca_value ca_validity seq_offset cs_offset].
    replace (i + (aa_offset a + o)) with (aa_offset a + (o + i)) by lia. auto.
Qed.

(** ** Memory of the caller *)
Lemma nth_seq_map {B} (f : nat -> B) n j p : nth_error (map f (seq 0 n)) j = Some p -> (j < n)%nat /\ p = f j.
Proof.
  intros H. assert (j < n)%nat as L.
  { assert (j < length (map f (seq 0 n)))%nat as L by (apply nth_error_Some; congruence).
    rewrite map_length, List.seq_length in L. exact L. }
  split; [exact L|]. rewrite nth_error_map in H.
  destruct (nth_error (seq 0 n) j) as [x|] eqn:E; [|discriminate]. injection H as <-. f_equal.
  apply nth_error_nth with (d := 0%nat) in E. rewrite seq_nth in E by exact L. lia.
Qed.

Lemma double_load b o i w : double_at b i = Some w -> load_double (RPtr b (8 * o)) (i - o) = Ok w.
Proof.
  unfold double_at, load_double. intros H. replace (8 * o + 8 * (i - o)) with (8 * i) by lia.
  destruct (slice b (8 * i) 8); [|discriminate]. cbn in *. congruence.
Qed.

(** Coordinate [i] of a slice of a sequence over interleaved memory. *)
Lemma interleaved_ok d b n stride : exists s, init_interleaved (coord_size d) n (RPtr b 0) stride = Ok s /\
  seq_length 0 s = n /\
  forall o m i c, length c = ndim d ->
    (forall j w, nth_error c j = Some w -> double_at b ((o + i) * stride + Z.of_nat j) = Some w) ->
    cseq_coord (seq_slice 0 s o m) i = Ok c.
Proof.
  eexists. split; [reflexivity|]. split; [reflexivity|]. intros o m i c L H.
  unfold cseq_coord, seq_slice. cbn [seq_window seq_offset cs_values cs_offset cs_stride].
  apply (values_at_ok 0); [rewrite map_length, List.seq_length, coord_size_ndim; congruence|].
  intros j p w Hp Hw. apply nth_seq_map in Hp. destruct Hp as (_ & ->). cbn [rptr_add]. rewrite Z.add_0_l.
  replace ((0 + o + i) * stride) with ((o + i) * stride + Z.of_nat j - Z.of_nat j) by lia. apply double_load, H, Hw.
Qed.

Lemma interleaved_null d n stride : init_interleaved (coord_size d) n RNull stride =
  if n =? 0 then Ok (CSeq 0 0 (repeat RNull (coord_size d)) stride) else Err EINVAL.
Proof. unfold init_interleaved. destruct (Z.eqb_spec n 0) as [->|]; reflexivity. Qed.

Lemma separated_ok bs n stride o m i c : length c = length bs ->
  (forall j b w, nth_error bs j = Some b -> nth_error c j = Some w -> double_at b ((o + i) * stride) = Some w) ->
  seq_length 0 (init_separated n (map (fun b => RPtr b 0) bs) stride) = n /\
  cseq_coord (seq_slice 0 (init_separated n (map (fun b => RPtr b 0) bs) stride) o m) i = Ok c.
Proof.
  intros L H. split; [reflexivity|]. unfold cseq_coord, seq_slice, init_separated.
  cbn [seq_window seq_offset cs_values cs_offset cs_stride].
  apply (values_at_ok 0); [rewrite map_length; congruence|]. intros j p w Hp Hw. rewrite nth_error_map in Hp.
  destruct (nth_error bs j) as [b|] eqn:E; [|discriminate]. injection Hp as <-.
  pose proof (double_load b 0 _ _ (H j b w E Hw)) as D. rewrite Z.sub_0_r in D. replace (0 + o + i) with (o + i) by lia. exact D.
Qed.

(** ** Dimension iterators *)
Lemma values_at_nth : forall vs idx ws j p w, values_at vs idx = Ok ws -> nth_error vs j = Some p -> nth_error ws j = Some w ->
  load_double p idx = Ok w.
Proof.
  induction vs as [|q vs IH]; intros idx ws j p w H Hp Hw; [destruct j; discriminate|]. cbn [values_at] in H.
  destruct (load_double q idx) as [x| | |] eqn:E; try discriminate. cbn [obind] in H.
  destruct (values_at vs idx) as [xs| | |] eqn:E'; try discriminate. cbn [obind] in H. injection H as <-.
  destruct j as [|j]; cbn in Hp, Hw.
  - congruence.
  - exact (IH idx xs j p w E' Hp Hw).
Qed.
Lemma dimension_ok (s : cseq) j : (j < length (cs_values s))%nat -> exists b e, dbegin s j = Ok b /\ dend s j = Ok e /\
  it_add b (cs_length s) = e /\
  (cs_stride s <> 0 -> it_sub e b = Ok (cs_length s) /\
     forall m n, it_sub (it_add b m) (it_add b n) = Ok (m - n) /\ it_eqb (it_add b m) (it_add b n) = (m =? n)) /\
  (forall n, Nat.iter n it_next b = it_add b (Z.of_nat n)) /\ (forall m n, it_add (it_add b m) n = it_add b (m + n)) /\
  forall i c w, cseq_coord s i = Ok c -> nth_error c j = Some w -> it_deref (it_add b i) = Ok w.
Proof.
  intros L. destruct (nth_error (cs_values s) j) as [p|] eqn:E; [|apply nth_error_None in E; lia].
  unfold dbegin, dend. rewrite E. cbn [or_ub obind]. do 2 eexists. split; [reflexivity|]. split; [reflexivity|].
  unfold it_add, it_sub, it_eqb, it_deref. cbn [it_base it_index it_stride]. split; [f_equal; lia|]. split; [|split; [|split]].
  - intros Hst. apply Z.eqb_neq in Hst as Hst'. rewrite Hst'. split.
    + replace ((cs_offset s + cs_length s) * cs_stride s - cs_offset s * cs_stride s) with (cs_length s * cs_stride s) by lia.
      rewrite Z.quot_mul by exact Hst. reflexivity.
    + intros m n. split.
      * replace (cs_offset s * cs_stride s + m * cs_stride s - (cs_offset s * cs_stride s + n * cs_stride s))
          with ((m - n) * cs_stride s) by lia. rewrite Z.quot_mul by exact Hst. reflexivity.
      * destruct (Z.eqb_spec m n) as [->|Hne]; [apply Z.eqb_refl|]. apply Z.eqb_neq. intros X. apply Hne.
        apply (Z.mul_reg_r _ _ (cs_stride s) Hst). lia.
  - induction n as [|n IH]; [cbn; f_equal; lia|].
    match goal with |- Nat.iter _ _ ?x = _ => change (Nat.iter (S n) it_next x) with (it_next (Nat.iter n it_next x)) end.
    rewrite IH. unfold it_next. cbn [it_base it_index it_stride]. f_equal. lia.
  - intros m n. f_equal. lia.
  - intros i c w Hc Hw. unfold cseq_coord in Hc. pose proof (values_at_nth _ _ _ _ _ _ Hc E Hw) as H.
    rewrite <- H. f_equal. lia.
Qed.

(** operator[] of an iterator over a sequence with a stride of 1. *)
Lemma dimension_at_one (s : cseq) j : (j < length (cs_values s))%nat -> cs_stride s = 1 -> exists b, dbegin s j = Ok b /\
  forall i c w, cseq_coord s i = Ok c -> nth_error c j = Some w -> it_at b i = Ok w.
Proof.
  intros L St. destruct (dimension_ok s j L) as (b & e & B & _ & _ & _ & _ & _ & H). exists b. split; [exact B|].
  intros i c w Hc Hw. rewrite <- (H i c w Hc Hw). unfold it_at, it_deref, it_add. cbn [it_base it_index].
  unfold dbegin in B. destruct (nth_error _ _); [|discriminate]. injection B as <-. cbn [it_index it_stride]. rewrite St.
  f_equal. lia.
Qed.
