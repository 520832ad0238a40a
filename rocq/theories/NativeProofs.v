(** Setting and visiting native arrays. *)
From Verif Require Import Base BaseFacts TypesModel TypesProofs GeomSpec GeomFacts VisitorModel VisitorSpec VisitorFacts
  BufferModel ArrowModel BitmapModel BitmapSpec BitmapProofs FloatModel FloatSpec FloatFacts ArrayViewModel NativeSpec.
Local Open Scope Z_scope.

(** ** Loads *)
Lemma load_int32_ok b i z : wf_bytes b -> int32_at b i = Some z -> load_int32 (RPtr b 0) i = Ok z.
Proof.
  unfold int32_at, load_int32. intros W H. change (0 + 4 * i) with (4 * i).
  destruct (slice b (4 * i) 4) as [bs|] eqn:E; [|discriminate]. cbn [option_map or_ub obind] in *.
  injection H as H. subst z. f_equal. unfold to_int32. cbv zeta.
  pose proof (le_val_bound bs (slice_wf _ _ _ _ W E)) as L. rewrite (slice_length _ _ _ _ E) in L.
  change (256 ^ N.of_nat 4)%N with 4294967296%N in L. change (Z.pow_pos 2 31) with 2147483648. change (Z.pow_pos 2 32) with 4294967296.
  assert (0 <= Z.of_N (le_val bs) < 4294967296) by lia. set (n := Z.of_N (le_val bs)) in *. clearbody n. clear - H.
  destruct (Z.ltb_spec n 2147483648).
  - rewrite Z.mod_small by lia. lia.
  - replace (n + 2147483648) with (n - 2147483648 + 1 * 4294967296) by lia. rewrite Z.mod_add by lia.
    rewrite Z.mod_small by lia. lia.
Qed.

Lemma load_double_ok b o i w : double_at b (o + i) = Some w -> load_double (RPtr b (8 * o)) i = Ok w.
Proof.
  unfold double_at, load_double. intros H. replace (8 * o + 8 * i) with (8 * (o + i)) by lia.
  destruct (slice _ _ _); [|discriminate]. injection H as <-. reflexivity.
Qed.

(** ** Quads *)
Lemma qget_qset_same {A} (q : quad A) j a : (j < 4)%nat -> qget (qset q j a) j = Some a.
Proof. destruct j as [|[|[|[|]]]]; intros; try lia; reflexivity. Qed.
Lemma qget_qset_other {A} (q : quad A) j j' a : (j < 4)%nat -> j <> j' -> qget (qset q j a) j' = qget q j'.
Proof. destruct j as [|[|[|[|]]]], j' as [|[|[|[|]]]]; intros; try congruence; try lia; reflexivity. Qed.

(** ** Loops *)
Lemma trace_for_each {T} (f : T -> list event) body xs : forall i,
  (forall j x, nth_error xs j = Some x -> trace (body (i + Z.of_nat j)) = (f x, Ok tt)) ->
  trace (for_each (length xs) i body) = (flat_map f xs, Ok tt).
Proof.
  induction xs as [|x xs IH]; intros i H; cbn [length for_each flat_map]; [reflexivity|].
  apply (trace_bind_ok _ _ (f x) tt).
  - specialize (H 0%nat x eq_refl). change (Z.of_nat 0) with 0 in H. rewrite Z.add_0_r in H. exact H.
  - apply IH. intros j y Hy. replace (i + 1 + Z.of_nat j) with (i + Z.of_nat (S j)) by lia. apply H. exact Hy.
Qed.

(** ** Views of a known type *)
Record typed (k : geometry_kind) (l : layout) (d : dim) (v : aview) : Prop := {
  ty_type : av_type v = make_type (geometry_kind_code k) (dim_code d) (layout_code l);
  ty_geom : av_geom v = geometry_kind_code k;
  ty_dims : av_dims v = dim_code d;
  ty_ctype : av_ctype v = layout_code l;
  ty_offsets : av_n_offsets v = offsets_of_geometry (geometry_kind_code k);
  ty_values : rc_n_values (av_coords v) = (if geometry_kind_code k =? 990 then 2 else 1) * Z.of_nat (ndim d);
  ty_stride : rc_stride (av_coords v) = match l with Separate => 1 | Interleaved => Z.of_nat (ndim d) end;
  ty_len : length (rc_values (av_coords v)) = 8%nat
}.

Lemma init_typed k l d : supported k d l ->
  exists v, array_view_init (make_type (geometry_kind_code k) (dim_code d) (layout_code l)) = Ok v /\ typed k l d v.
Proof.
  intros H. eexists. split.
  - destruct l; destruct k; try (discriminate (H eq_refl)); destruct d; reflexivity.
  - destruct l; destruct k; try (discriminate (H eq_refl)); destruct d; constructor; reflexivity.
Qed.

Lemma typed_level k l d v lev o n : typed k l d v -> typed k l d (with_level v lev o n).
Proof. intros []. constructor; assumption. Qed.
Lemma typed_offsets k l d v lev p a b : typed k l d v -> typed k l d (with_offsets v lev p a b).
Proof. intros []. constructor; assumption. Qed.
Lemma typed_validity k l d v p : typed k l d v -> typed k l d (with_validity v p).
Proof. intros []. constructor; assumption. Qed.
Lemma typed_coords k l d v n vs : length vs = 8%nat -> typed k l d v -> typed k l d (with_coords v n vs).
Proof. intros Hl []. constructor; assumption. Qed.

(** ** What a view knows about the array it was set to *)

(** The value pointers. *)
Definition values_bound (l : layout) (n : nat) (v : aview) (a : arrow_array) : Prop :=
  forall j, (j < n)%nat -> exists ch b,
    nth_error (aa_children a) (match l with Separate => j | Interleaved => 0%nat end) = Some ch /\
    nth_error (aa_buffers ch) 1 = Some b /\
    nth_error (rc_values (av_coords v)) j =
      Some (rptr_add (rptr_of b) (8 * (aa_offset ch + match l with Separate => 0 | Interleaved => Z.of_nat j end))).

Fixpoint bound (l : layout) (d : dim) (n : nat) (v : aview) (level : nat) (a : arrow_array) : Prop :=
  qget (av_offset v) level = Some (aa_offset a) /\
  match n with
  | O => values_bound l (ndim d) v a
  | S n' => exists child, aa_children a = [child] /\ bound l d n' v (S level) child /\
      (0 < aa_length a -> exists b, nth_error (aa_buffers a) 1 = Some b /\ qget (av_offsets v) level = Some (rptr_of b))
  end.

Fixpoint nested (l : layout) (d : dim) (n : nat) : arrow_array -> Prop :=
  match n with O => coords_ok l d | S n' => list_ok (nested l d n') end.

(** ** Setting the array *)
Lemma child_values_ok bound_n : forall n chs, length chs = n -> Forall (floats_ok bound_n) chs ->
  exists vs, child_values n chs = Ok vs /\ length vs = n /\
    forall j ch, nth_error chs j = Some ch -> exists b, nth_error (aa_buffers ch) 1 = Some b /\
      nth_error vs j = Some (rptr_add (rptr_of b) (8 * aa_offset ch)).
Proof.
  induction n as [|n IH]; intros chs Hl Hf.
  - destruct chs; [|discriminate]. exists []. split; [reflexivity|]. split; [reflexivity|]. intros [|j] ch H; discriminate.
  - destruct chs as [|ch chs]; [discriminate|]. inversion Hf as [|x y Hx Hy]; subst.
    injection Hl as Hl. destruct (IH chs Hl Hy) as (vs & E & Lv & Hv).
    destruct Hx as (_ & _ & v & b & Hb & _).
    exists (rptr_add (rptr_of b) (8 * aa_offset ch) :: vs). cbn [child_values]. rewrite Hb. cbn [length nth_error or_ub obind].
    change (Z.of_nat 2 =? 2) with true. cbn [negb]. rewrite E. cbn [obind].
    split; [reflexivity|]. split; [cbn; lia|].
    intros [|j] c Hc; cbn [nth_error] in *.
    + injection Hc as <-. exists b. rewrite Hb. split; reflexivity.
    + exact (Hv j c Hc).
Qed.

Lemma set_coord_ok k l d v a level : typed k l d v -> k <> KBox -> coords_ok l d a ->
  (forall m, level = S m -> exists x y, qget (av_first v) m = Some x /\ qget (av_last v) m = Some y /\
     -2147483648 <= y - x <= 2147483647) ->
  exists v', set_coord_array v a level = Ok v' /\ typed k l d v' /\ values_bound l (ndim d) v' a /\
    av_offset v' = av_offset v /\ av_offsets v' = av_offsets v.
Proof.
  intros T Hk (Ho & Hn & Hb & Hc) Hlev.
  unfold set_coord_array.
  assert (exists nc, coord_count v a level = Ok nc) as (nc & Enc).
  { unfold coord_count. destruct level as [|m]; [eauto|]. destruct (Hlev m eq_refl) as (x & y & Ex & Ey & R).
    rewrite Ex, Ey. cbn [or_ub obind]. cbv zeta.
    destruct (Z.ltb_spec (y - x) (-2147483648)); [lia|]. destruct (Z.ltb_spec 2147483647 (y - x)); [lia|]. exists (y - x). reflexivity. }
  rewrite Enc. cbn [obind]. rewrite (ty_ctype _ _ _ _ T), (ty_values _ _ _ _ T).
  replace (geometry_kind_code k =? 990) with false by (destruct k; [reflexivity..|contradiction]).
  rewrite Z.mul_1_l, Nat2Z.id. destruct l; cbn [layout_code].
  - change (1 =? CT_SEPARATE) with true. cbn iota. destruct Hc as (Hl & Hf).
    rewrite Hl, Z.eqb_refl. cbn [negb].
    destruct (child_values_ok _ _ _ Hl Hf) as (vs & E & Lv & Hv). rewrite E. cbn [obind].
    eexists. split; [reflexivity|].
    assert (length (vs ++ skipn (ndim d) (rc_values (av_coords v))) = 8%nat) as L8.
    { rewrite app_length, skipn_length, Lv, (ty_len _ _ _ _ T). destruct d; reflexivity. }
    split; [apply typed_coords; assumption|]. split; [|split; reflexivity].
    intros j Hj. destruct (nth_error (aa_children a) j) as [ch|] eqn:Ech.
    + destruct (Hv j ch Ech) as (b & B1 & B2). exists ch, b. split; [reflexivity|]. split; [exact B1|].
      cbn [with_coords av_coords rc_values]. rewrite nth_error_app1 by lia. rewrite Z.add_0_r. exact B2.
    + apply nth_error_None in Ech. lia.
  - change (2 =? CT_SEPARATE) with false. change (2 =? CT_INTERLEAVED) with true. cbn iota.
    destruct Hc as (ch & Hch & (_ & _ & vv & b & Hbb & _)). rewrite Hch, Hbb. cbn [length nth_error or_ub obind].
    change (Z.of_nat 2 =? 2) with true. cbn [negb].
    eexists. split; [reflexivity|].
    split; [apply typed_coords; [|assumption]|].
    { rewrite app_length, map_length, seq_length, skipn_length, (ty_len _ _ _ _ T). destruct d; reflexivity. }
    split; [|split; reflexivity].
    intros j Hj. exists ch, b. rewrite Hch, Hbb. split; [reflexivity|]. split; [reflexivity|].
    cbn [with_coords av_coords rc_values]. rewrite nth_error_app1 by (rewrite map_length, seq_length; lia).
    rewrite nth_error_map. rewrite (nth_error_nth' _ 0%nat) by (rewrite seq_length; lia).
    rewrite seq_nth by lia. reflexivity.
Qed.

Lemma int32_range b i z : wf_bytes b -> int32_at b i = Some z -> -2147483648 <= z <= 2147483647.
Proof.
  unfold int32_at. intros W H. destruct (slice b (4 * i) 4) as [bs|] eqn:E; [|discriminate].
  pose proof (le_val_bound bs (slice_wf _ _ _ _ W E)) as L. rewrite (slice_length _ _ _ _ E) in L.
  change (256 ^ N.of_nat 4)%N with 4294967296%N in L. cbn [option_map] in H. injection H as <-.
  change (Z.pow_pos 2 31) with 2147483648. change (Z.pow_pos 2 32) with 4294967296.
  destruct (Z.ltb_spec (Z.of_N (le_val bs)) 2147483648); lia.
Qed.

(** The last offset of a non-empty list array. *)
Lemma list_ok_ends (child_ok : arrow_array -> Prop) a child ob :
  0 < aa_length a ->
  (forall i, 0 <= i < aa_length a ->
         exists lo hi, int32_at ob (aa_offset a + i) = Some lo /\ int32_at ob (aa_offset a + i + 1) = Some hi /\
                       0 <= lo <= hi /\ hi <= aa_length child) ->
  exists f z, int32_at ob (aa_offset a) = Some f /\ int32_at ob (aa_offset a + aa_length a) = Some z /\ 0 <= f /\ 0 <= z.
Proof.
  intros Hl H.
  destruct (H 0 ltac:(lia)) as (f & f' & F1 & _ & F2 & _).
  destruct (H (aa_length a - 1) ltac:(lia)) as (z' & z & _ & Z1 & Z2 & _).
  exists f, z. rewrite Z.add_0_r in F1. replace (aa_offset a + (aa_length a - 1) + 1) with (aa_offset a + aa_length a) in Z1 by lia.
  repeat split; try assumption; lia.
Qed.

Lemma set_internal_ok k l d n : forall a v level, typed k l d v -> k <> KBox -> av_n_offsets v = Z.of_nat (level + n) ->
  (level + n <= 3)%nat -> nested l d n a ->
  (forall m, level = S m -> exists x y, qget (av_first v) m = Some x /\ qget (av_last v) m = Some y /\
     -2147483648 <= y - x <= 2147483647) ->
  exists v', set_array_internal v a level = Ok v' /\ typed k l d v' /\ bound l d n v' level a /\
    (forall m, (m < level)%nat -> qget (av_offset v') m = qget (av_offset v) m /\ qget (av_offsets v') m = qget (av_offsets v) m).
Proof.
  induction n as [|n IH]; intros a v level T Hk Hn Hle Hok Hlev.
  - destruct a as [len off nc bufs chs] eqn:Ea. cbn [set_array_internal].
    change (av_n_offsets (with_level v level off len)) with (av_n_offsets v). rewrite Hn, Nat.add_0_r, Z.eqb_refl.
    rewrite <- Ea in *.
    destruct (set_coord_ok k l d (with_level v level off len) a level (typed_level _ _ _ _ _ _ _ T) Hk Hok Hlev)
      as (v' & E & T' & V & O1 & O2).
    exists v'. split; [exact E|]. split; [exact T'|]. split.
    + cbn [bound]. split; [|exact V]. rewrite O1. cbn [with_level av_offset]. rewrite qget_qset_same by lia. subst a. reflexivity.
    + intros m Hm. rewrite O1, O2. cbn [with_level av_offset av_offsets]. rewrite qget_qset_other by lia. split; reflexivity.
  - destruct a as [len off nc bufs chs] eqn:Ea. cbn [set_array_internal].
    change (av_n_offsets (with_level v level off len)) with (av_n_offsets v). rewrite Hn.
    destruct (Z.eqb_spec (Z.of_nat level) (Z.of_nat (level + S n))); [lia|].
    cbn [nested] in Hok. destruct Hok as (Ho & Hl & vb & b & child & Hbuf & Hch & Hcok & Hoff).
    cbn [aa_buffers aa_children aa_offset aa_length] in Hbuf, Hch, Hoff, Ho, Hl. subst bufs chs. cbn [length nth_error or_ub obind].
    change (Z.of_nat 2 =? 2) with true. cbn [negb].
    assert (exists p f z, (if 0 <? len then
              do first <- load_int32 (rptr_of b) off;
              do last <- load_int32 (rptr_of b) (off + len);
              Ok (with_offsets (with_level v level off len) level (rptr_of b) first last)
            else Ok (with_offsets (with_level v level off len) level (RPtr zero_int32 0) 0 0)) =
            Ok (with_offsets (with_level v level off len) level p f z) /\ -2147483648 <= z - f <= 2147483647 /\
            (0 < len -> p = rptr_of b)) as (p & f & z & E & Hfz & Hp).
    { destruct (Z.ltb_spec 0 len) as [Hpos|Hz].
      - destruct (Hoff Hpos) as (ob & -> & W & Hmono).
        destruct (list_ok_ends (nested l d n) (ArrowArray len off nc [vb; Some ob] [child]) child ob Hpos Hmono)
          as (f & z & F & Z & F0 & Z0). cbn [aa_offset aa_length] in F, Z.
        pose proof (int32_range _ _ _ W F). pose proof (int32_range _ _ _ W Z).
        cbn [rptr_of]. rewrite (load_int32_ok _ _ _ W F), (load_int32_ok _ _ _ W Z). cbn [obind].
        exists (RPtr ob 0), f, z. split; [reflexivity|]. split; [lia|]. auto.
      - exists (RPtr zero_int32 0), 0, 0. split; [reflexivity|]. split; [lia|]. lia. }
    rewrite E. cbn [obind].
    set (v1 := with_offsets (with_level v level off len) level p f z).
    destruct (IH child v1 (S level)) as (v' & E' & T' & B & U).
    + apply typed_offsets, typed_level, T.
    + exact Hk.
    + cbn. rewrite Hn. f_equal. lia.
    + lia.
    + exact Hcok.
    + intros m Hm. injection Hm as <-. exists f, z. cbn [v1 with_offsets av_first av_last].
      rewrite !qget_qset_same by lia. split; [reflexivity|]. split; [reflexivity|exact Hfz].
    + exists v'. split; [exact E'|]. split; [exact T'|]. split.
      * cbn [bound]. destruct (U level ltac:(lia)) as (U1 & U2). rewrite U1, U2.
        cbn [v1 with_offsets with_level av_offset av_offsets]. rewrite !qget_qset_same by lia.
        split; [reflexivity|]. exists child. split; [reflexivity|]. split; [exact B|].
        intros Hpos. exists b. split; [reflexivity|]. rewrite Hp by exact Hpos. reflexivity.
      * intros m Hm. destruct (U m ltac:(lia)) as (U1 & U2). rewrite U1, U2.
        cbn [v1 with_offsets with_level av_offset av_offsets]. rewrite !qget_qset_other by lia. split; reflexivity.
Qed.

(** ** Visiting *)
Lemma view_value_ok l d n v a i j w : values_bound l n v a ->
  rc_stride (av_coords v) = match l with Separate => 1 | Interleaved => Z.of_nat (ndim d) end ->
  (j < n)%nat -> ordinate_at l d a i j = Some w -> view_value (av_coords v) (aa_offset a + i) j = Ok w.
Proof.
  intros V S Hj H. destruct (V j Hj) as (ch & b & Hch & Hb & Hp). unfold view_value. rewrite Hp, S. cbn [or_ub obind].
  unfold ordinate_at in H. destruct l.
  - rewrite Hch in H. unfold float_elt, second_buffer in H. rewrite Hb in H.
    destruct b as [b|]; [|discriminate]. cbn [rptr_of rptr_add].
    rewrite Z.add_0_r, Z.mul_1_r. replace (0 + 8 * aa_offset ch) with (8 * aa_offset ch) by lia. apply load_double_ok. exact H.
  - destruct (aa_children a) as [|c [|]]; try discriminate. cbn in Hch. injection Hch as ->.
    unfold float_elt, second_buffer in H. rewrite Hb in H. destruct b as [b|]; [|discriminate]. cbn [rptr_of rptr_add].
    replace (0 + 8 * (aa_offset ch + Z.of_nat j)) with (8 * (aa_offset ch + Z.of_nat j)) by lia. apply load_double_ok.
    rewrite <- H. f_equal. lia.
Qed.

Lemma view_row_gen c row : forall k col (ws : list N), length ws = k ->
  (forall j w, nth_error ws j = Some w -> view_value c row (col + j) = Ok w) -> view_row c row col k = Ok ws.
Proof.
  induction k as [|k IH]; intros col ws Hl H; destruct ws as [|w ws]; try discriminate; cbn [view_row]; [reflexivity|].
  pose proof (H 0%nat w eq_refl) as H0. rewrite Nat.add_0_r in H0. rewrite H0. cbn [obind].
  rewrite (IH (S col) ws); [reflexivity|cbn in Hl; lia|].
  intros j x Hx. rewrite Nat.add_succ_comm. apply H. exact Hx.
Qed.

Section Typed.
Variables (k : geometry_kind) (l : layout) (d : dim) (v : aview).
Hypothesis T : typed k l d v.
Hypothesis Hk : k <> KBox.

Lemma n_values_dim : rc_n_values (av_coords v) = Z.of_nat (ndim d).
Proof.
  rewrite (ty_values _ _ _ _ T). replace (geometry_kind_code k =? 990) with false by (destruct k; [reflexivity..|contradiction]). lia.
Qed.

Lemma view_rows_ok a : values_bound l (ndim d) v a -> forall cs i,
  (forall j c, nth_error cs j = Some c -> coord_at l d a (i + Z.of_nat j) c) ->
  view_rows (av_coords v) (aa_offset a + i) (length cs) = Ok cs.
Proof.
  intros V. induction cs as [|c cs IH]; intros i H; cbn [length view_rows]; [reflexivity|].
  destruct (H 0%nat c eq_refl) as (Hl & Hc). change (Z.of_nat 0) with 0 in Hc. rewrite Z.add_0_r in Hc.
  rewrite n_values_dim, Nat2Z.id.
  rewrite (view_row_gen _ _ (ndim d) 0 c).
  - cbn [obind]. replace (aa_offset a + i + 1) with (aa_offset a + (i + 1)) by lia. rewrite IH; [reflexivity|].
    intros j x Hx. replace (i + 1 + Z.of_nat j) with (i + Z.of_nat (S j)) by lia. apply H. exact Hx.
  - exact Hl.
  - intros j w Hw. apply (view_value_ok l d (ndim d) v a i (0 + j) w V (ty_stride _ _ _ _ T)).
    + cbn. rewrite <- Hl. apply nth_error_Some. congruence.
    + apply Hc. exact Hw.
Qed.

Lemma visit_coords_ok a cs i : values_bound l (ndim d) v a ->
  (forall j c, nth_error cs j = Some c -> coord_at l d a (i + Z.of_nat j) c) ->
  trace (visit_coords v (aa_offset a + i) (Z.of_nat (length cs))) = ([ECoords (N.of_nat (ndim d)) cs], Ok tt).
Proof.
  intros V H. unfold visit_coords. destruct (Z.ltb_spec (Z.of_nat (length cs)) 0); [lia|].
  rewrite Nat2Z.id, (view_rows_ok a V cs i H). cbn [pbind]. rewrite n_values_dim.
  replace (Z.to_N (Z.of_nat (ndim d))) with (N.of_nat (ndim d)) by (destruct d; reflexivity). reflexivity.
Qed.

Lemma visit_coord_ok a c i : values_bound l (ndim d) v a -> coord_at l d a i c ->
  trace (visit_coords v (aa_offset a + i) 1) = ([ECoords (N.of_nat (ndim d)) [c]], Ok tt).
Proof.
  intros V H. apply (visit_coords_ok a [c] i V). intros [|j] x Hx; [|destruct j; discriminate].
  cbn in Hx. injection Hx as <-. rewrite Z.add_0_r. exact H.
Qed.

Lemma trace_start g : trace (start v g) = ([EGeomStart (Z.to_N g) (dimN d)], Ok tt).
Proof.
  unfold start. rewrite (ty_dims _ _ _ _ T). replace (Z.to_N (dim_code d)) with (dimN d) by (destruct d; reflexivity). reflexivity.
Qed.

Lemma offsets_at_ok {X} (R : arrow_array -> Z -> X -> Prop) n level a i (xs : list X) :
  bound l d (S n) v level a -> nested l d (S n) a -> 0 <= i < aa_length a -> list_at R a i xs ->
  exists lo child, offsets_at v level (aa_offset a + i) = Ok (lo, Z.of_nat (length xs)) /\
    aa_children a = [child] /\ bound l d n v (S level) child /\ nested l d n child /\
    qget (av_offset v) (S level) = Some (aa_offset child) /\
    0 <= lo /\ lo + Z.of_nat (length xs) <= aa_length child /\
    forall k x, nth_error xs k = Some x -> R child (lo + Z.of_nat k) x.
Proof.
  intros (_ & child & Hch & B & HB) (_ & _ & v0 & b0 & child0 & Hbuf & Hch0 & Hok & Hoff) Hi.
  intros (b & lo & hi & child' & Hsb & Hch' & Hlo & Hhi & Hlen & HR).
  assert (child0 = child) by congruence. assert (child' = child) by congruence. subst child0 child'.
  assert (Hpos : 0 < aa_length a) by lia.
  destruct (Hoff Hpos) as (ob & -> & W & Hmono).
  unfold second_buffer in Hsb. rewrite Hbuf in Hsb. cbn [nth_error] in Hsb. injection Hsb as <-.
  destruct (HB Hpos) as (b' & Hb' & Hq). rewrite Hbuf in Hb'. cbn [nth_error] in Hb'. injection Hb' as <-.
  destruct (Hmono i Hi) as (lo' & hi' & L1 & L2 & R1 & R2).
  assert (lo' = lo) by congruence. assert (hi' = hi) by congruence. subst lo' hi'.
  exists lo, child. split.
  { unfold offsets_at. rewrite Hq. cbn [or_ub obind rptr_of].
    rewrite (load_int32_ok _ _ _ W Hlo), (load_int32_ok _ _ _ W Hhi). cbn [obind]. rewrite Hlen.
    replace (lo + Z.of_nat (length xs) - lo) with (Z.of_nat (length xs)) by lia. reflexivity. }
  split; [exact Hch|]. split; [exact B|]. split; [exact Hok|].
  split; [destruct n; apply B|]. split; [lia|]. split; [lia|]. exact HR.
Qed.

Lemma visit_seq_ok level a i cs : bound l d 1 v level a -> nested l d 1 a -> 0 <= i < aa_length a ->
  list_at (coord_at l d) a i cs ->
  trace (visit_seq v level (aa_offset a + i)) = ([ECoords (N.of_nat (ndim d)) cs], Ok tt).
Proof.
  intros B N Hi H. destruct (offsets_at_ok _ 0 level a i cs B N Hi H) as (lo & child & E & _ & B' & _ & Q & _ & _ & HR).
  unfold visit_seq. rewrite E. cbn [pbind]. rewrite Q. cbn [or_ub pbind].
  replace (lo + aa_offset child) with (aa_offset child + lo) by lia.
  apply visit_coords_ok; [apply B'|exact HR].
Qed.

Lemma visit_rings_ok level a i rings : bound l d 2 v level a -> nested l d 2 a -> 0 <= i < aa_length a ->
  list_at (list_at (coord_at l d)) a i rings ->
  trace (visit_rings v level (aa_offset a + i)) =
  (flat_map (fun cs => [ERingStart; ECoords (N.of_nat (ndim d)) cs; ERingEnd]) rings, Ok tt).
Proof.
  intros B N Hi H. destruct (offsets_at_ok _ 1 level a i rings B N Hi H) as (lo & child & E & _ & B' & N' & Q & L0 & L1 & HR).
  unfold visit_rings. rewrite E. cbn [pbind]. rewrite Q. cbn [or_ub pbind]. rewrite Nat2Z.id.
  apply trace_for_each. intros j cs Hj. rewrite Z.add_0_l.
  assert (j < length rings)%nat by (apply nth_error_Some; congruence).
  apply trace_emit_bind. apply (trace_bind_ok _ _ [ECoords (N.of_nat (ndim d)) cs] tt [ERingEnd] (Ok tt)); [|reflexivity].
  replace (lo + aa_offset child + Z.of_nat j) with (aa_offset child + (lo + Z.of_nat j)) by lia.
  apply visit_seq_ok; [exact B'|exact N'|lia|]. apply HR. exact Hj.
Qed.

End Typed.

Definition list_levels (k : geometry_kind) : nat :=
  match k with KPoint | KBox => 0 | KLinestring | KMultipoint => 1 | KPolygon | KMultilinestring => 2 | KMultipolygon => 3 end.

Definition visit_kind (k : geometry_kind) : aview -> Z -> prog unit :=
  match k with
  | KPoint => visit_point | KLinestring => visit_linestring | KPolygon => visit_polygon | KMultipoint => visit_multipoint
  | KMultilinestring => visit_multilinestring | KMultipolygon => visit_multipolygon | KBox => visit_box
  end.

Lemma flat_map_map {A B C} (f : B -> list C) (g : A -> B) l : flat_map f (map g l) = flat_map (fun x => f (g x)) l.
Proof. induction l as [|x l IH]; cbn; [reflexivity|]. rewrite IH. reflexivity. Qed.

Lemma visit_kind_ok k l d v a i g : typed k l d v -> k <> KBox ->
  bound l d (list_levels k) v 0 a -> nested l d (list_levels k) a -> 0 <= i < aa_length a -> geom_at k l d a i g ->
  trace (visit_kind k v (aa_offset a + i)) = (canon_events g, Ok tt).
Proof.
  intros T Hk B N Hi H.
  pose proof (trace_start k l d v T) as ST.
  destruct k; cbn [geom_at list_levels visit_kind] in *; [| | | | | |contradiction].
  - destruct H as (c & Hc & ->). unfold visit_point. cbn [canon_events].
    apply (trace_bind_ok _ _ _ tt _ _ (ST GT_POINT)).
    apply (trace_bind_ok _ _ _ tt [EGeomEnd] (Ok tt) (visit_coord_ok _ l d v T Hk a c i (proj2 B) Hc)). reflexivity.
  - destruct H as (cs & Hc & ->). unfold visit_linestring. cbn [canon_events].
    apply (trace_bind_ok _ _ _ tt _ _ (ST GT_LINESTRING)).
    apply (trace_bind_ok _ _ _ tt [EGeomEnd] (Ok tt) (visit_seq_ok _ l d v T Hk 0 a i cs B N Hi Hc)). reflexivity.
  - destruct H as (rings & Hc & ->). unfold visit_polygon. cbn [canon_events].
    apply (trace_bind_ok _ _ _ tt _ _ (ST GT_POLYGON)).
    apply (trace_bind_ok _ _ _ tt [EGeomEnd] (Ok tt) (visit_rings_ok _ l d v T Hk 0 a i rings B N Hi Hc)). reflexivity.
  - destruct H as (cs & Hc & ->). unfold visit_multipoint. rewrite canon_events_coll.
    apply (trace_bind_ok _ _ _ tt _ _ (ST GT_MULTIPOINT)).
    destruct (offsets_at_ok l d v _ 0 0 a i cs B N Hi Hc) as (lo & child & E & _ & B' & N' & Q & L0 & L1 & HR).
    rewrite E. cbn [pbind]. rewrite Nat2Z.id.
    apply (trace_bind_ok _ _ (flat_map canon_events (map (fun c => GPoint d [c]) cs)) tt [EGeomEnd] (Ok tt)); [|reflexivity].
    rewrite flat_map_map. apply trace_for_each. intros j c Hj. rewrite Z.add_0_l.
    apply (trace_bind_ok _ _ _ tt _ _ (ST GT_POINT)).
    apply (trace_bind_ok _ _ [ECoords (N.of_nat (ndim d)) [c]] tt [EGeomEnd] (Ok tt)); [|reflexivity].
    cbn [qget] in Q. injection Q as Q. rewrite Q.
    replace (lo + aa_offset child + Z.of_nat j) with (aa_offset child + (lo + Z.of_nat j)) by lia.
    apply (visit_coord_ok _ l d v T Hk child c _ (proj2 B')). apply HR. exact Hj.
  - destruct H as (lines & Hc & ->). unfold visit_multilinestring. rewrite canon_events_coll.
    apply (trace_bind_ok _ _ _ tt _ _ (ST GT_MULTILINESTRING)).
    destruct (offsets_at_ok l d v _ 1 0 a i lines B N Hi Hc) as (lo & child & E & _ & B' & N' & Q & L0 & L1 & HR).
    rewrite E. cbn [pbind]. rewrite Nat2Z.id.
    apply (trace_bind_ok _ _ (flat_map canon_events (map (GLine d) lines)) tt [EGeomEnd] (Ok tt)); [|reflexivity].
    rewrite flat_map_map. apply trace_for_each. intros j cs Hj. rewrite Z.add_0_l.
    assert (j < length lines)%nat by (apply nth_error_Some; congruence).
    apply (trace_bind_ok _ _ _ tt _ _ (ST GT_LINESTRING)).
    apply (trace_bind_ok _ _ [ECoords (N.of_nat (ndim d)) cs] tt [EGeomEnd] (Ok tt)); [|reflexivity].
    cbn [qget] in Q. injection Q as Q. rewrite Q.
    replace (lo + aa_offset child + Z.of_nat j) with (aa_offset child + (lo + Z.of_nat j)) by lia.
    apply (visit_seq_ok _ l d v T Hk 1 child _ cs B' N'); [lia|]. apply HR. exact Hj.
  - destruct H as (polys & Hc & ->). unfold visit_multipolygon. rewrite canon_events_coll.
    apply (trace_bind_ok _ _ _ tt _ _ (ST GT_MULTIPOLYGON)).
    destruct (offsets_at_ok l d v _ 2 0 a i polys B N Hi Hc) as (lo & child & E & _ & B' & N' & Q & L0 & L1 & HR).
    rewrite E. cbn [pbind]. rewrite Nat2Z.id.
    apply (trace_bind_ok _ _ (flat_map canon_events (map (GPoly d) polys)) tt [EGeomEnd] (Ok tt)); [|reflexivity].
    rewrite flat_map_map. apply trace_for_each. intros j rings Hj. rewrite Z.add_0_l.
    assert (j < length polys)%nat by (apply nth_error_Some; congruence).
    apply (trace_bind_ok _ _ _ tt _ _ (ST GT_POLYGON)).
    apply (trace_bind_ok _ _ _ tt [EGeomEnd] (Ok tt)).
    + cbn [qget] in Q. injection Q as Q. rewrite Q.
      replace (lo + aa_offset child + Z.of_nat j) with (aa_offset child + (lo + Z.of_nat j)) by lia.
      apply (visit_rings_ok _ l d v T Hk 1 child _ rings B' N'); [lia|]. apply HR. exact Hj.
    + reflexivity.
Qed.
