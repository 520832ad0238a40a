From Verif Require Import Base BaseFacts TypesModel GeomSpec GeomFacts VisitorModel VisitorSpec VisitorFacts FloatModel FloatSpec FloatFacts BufferModel BufferFacts ArrowModel BitmapModel
  BitmapSpec BitmapProofs ArrayViewModel BuilderModel NativeSpec WktGrammar WktReaderModel WktReaderProofs ArrayReaderModel SerialSpec ArrayReaderProofs
  KernelModel KernelSpec KernelProofs.
Local Open Scope Z_scope.

(** ** Coordinates *)
Lemma widen_app_inv j a : forall r b r', widen j r (a ++ b) = Some r' -> exists r1, widen j r a = Some r1 /\ widen j r1 b = Some r'.
Proof.
  induction a as [|c a IH]; intros r b r'; cbn [widen app]; [eauto|].
  destruct (nth_error c j); [apply IH|discriminate].
Qed.

Lemma feed_box v : (forall s n cs, v s (ECoords n cs) = coords_box s cs) ->
  (forall s e, inner_event e -> (forall n cs, e <> ECoords n cs) -> v s e = VRet s 0) ->
  forall evs cs s x y, delivers cs evs -> widen 0 (bx_x s) cs = Some x -> widen 1 (bx_y s) cs = Some y ->
  feed v s evs = Some (bset_range s (bx_null s) x y, 0).
Proof.
  intros Hc Hv. induction evs as [|e evs IH]; intros cs s x y (<- & Hi) Hx Hy.
  - cbn in Hx, Hy |- *. injection Hx as <-. injection Hy as <-. destruct s; reflexivity.
  - inversion Hi as [|? ? He Hi']; subst. cbn [flat_map] in Hx, Hy.
    destruct (widen_app_inv _ _ _ _ _ Hx) as (x1 & Hx1 & Hx2). destruct (widen_app_inv _ _ _ _ _ Hy) as (y1 & Hy1 & Hy2).
    cbn [feed].
    assert (v s e = VRet (bset_range s (bx_null s) x1 y1) 0) as ->.
    { destruct e as [| |ty dm| |n cs| | |]; try contradiction;
        try (cbn in Hx1, Hy1; injection Hx1 as <-; injection Hy1 as <-; rewrite Hv by (try exact I; discriminate); destruct s; reflexivity).
      cbn [event_coords] in Hx1, Hy1. rewrite Hc. unfold coords_box. rewrite Hx1, Hy1. reflexivity. }
    cbn [Z.eqb]. rewrite (IH _ (bset_range s (bx_null s) x1 y1) x y (conj eq_refl Hi') Hx2 Hy2). destruct s; reflexivity.
Qed.

Lemma coords_long g : wf_geom g -> Forall (fun c : coord => (1 < length c)%nat) (map snd (geom_coords g)) /\
  Forall (Forall (fun w => (w < 2 ^ 64)%N)) (map snd (geom_coords g)).
Proof.
  intros H. apply geom_coords_wf in H. split; apply Forall_map; (eapply Forall_impl; [|exact H]); intros (d, c) (Hl & Hw); cbn [fst snd] in *.
  - rewrite Hl. destruct d; cbn; lia.
  - exact Hw.
Qed.
Lemma map_ordinates j g : map (fun c => nth j c 0%N) (map snd (geom_coords g)) = ordinates j g.
Proof. unfold ordinates. rewrite map_map. reflexivity. Qed.

(** ** The rows that have been flushed *)
Definition row := (bool * (N * N) * (N * N))%type.
Definition column (k : nat) (w : row) : N :=
  match w with (_, (x0, x1), (y0, y1)) => match k with 0 => x0 | 1 => y0 | 2 => x1 | _ => y1 end%nat end.
Definition row_valid (w : row) : bool := fst (fst w).
Definition row_small (w : row) : Prop := forall k, (column k w < 2 ^ 64)%N.

Record box_holds (s : boxst) (rows : list row) : Prop := {
  bh_0 : b_data (q0 (bx_values s)) = flat_map (fun w => le_bytes 8 (column 0 w)) rows;
  bh_1 : b_data (q1 (bx_values s)) = flat_map (fun w => le_bytes 8 (column 1 w)) rows;
  bh_2 : b_data (q2 (bx_values s)) = flat_map (fun w => le_bytes 8 (column 2 w)) rows;
  bh_3 : b_data (q3 (bx_values s)) = flat_map (fun w => le_bytes 8 (column 3 w)) rows;
  bh_nulls : bx_null_count s = Z.of_nat (length (filter (fun w => negb (row_valid w)) rows));
  bh_validity : if forallb row_valid rows then bx_validity s = bitmap_init
                else bitmap_ok (bx_validity s) (map row_valid rows) /\ w_null (bm_buffer (bx_validity s)) = false
}.

Lemma column_length {A} (f : A -> N) l : length (flat_map (fun w => le_bytes 8 (f w)) l) = (8 * length l)%nat.
Proof. induction l as [|x l IH]; [reflexivity|]. cbn [flat_map length]. rewrite app_length, le_bytes_length, IH. lia. Qed.
Lemma holds_length s rows : box_holds s rows -> box_length s = Z.of_nat (length rows).
Proof.
  intros H. unfold box_length, b_size. rewrite (bh_0 _ _ H), column_length.
  replace (Z.of_nat (8 * length rows)) with (Z.of_nat (length rows) * 8) by lia. apply Z.quot_mul. lia.
Qed.

Lemma valid_all rows : forallb row_valid rows = true -> map row_valid rows = repeat true (length rows).
Proof.
  induction rows as [|w rows IH]; [reflexivity|]. cbn [forallb map length repeat]. rewrite Bool.andb_true_iff. intros (-> & H).
  rewrite IH by exact H. reflexivity.
Qed.
Lemma none_null rows : forallb row_valid rows = true -> filter (fun w => negb (row_valid w)) rows = [].
Proof.
  induction rows as [|w rows IH]; [reflexivity|]. cbn [forallb filter]. rewrite Bool.andb_true_iff. intros (-> & H). exact (IH H).
Qed.
Lemma some_null rows : forallb row_valid rows = false -> filter (fun w => negb (row_valid w)) rows <> [].
Proof.
  induction rows as [|w rows IH]; [discriminate|]. cbn [forallb filter]. destruct (row_valid w); cbn [andb negb]; [exact IH|discriminate].
Qed.

Lemma flush_holds s rows (valid : bool) v nulls : box_holds s rows ->
  bx_null_count s + (if valid then 0 else 1) = nulls ->
  (if forallb row_valid (rows ++ [(valid, bx_x s, bx_y s)]) then v = bitmap_init
   else bitmap_ok v (map row_valid (rows ++ [(valid, bx_x s, bx_y s)])) /\ w_null (bm_buffer v) = false) ->
  box_holds (box_flush (bset_out s v (bx_values s) nulls)) (rows ++ [(valid, bx_x s, bx_y s)]).
Proof.
  intros [H0 H1 H2 H3 Hn Hv] <- Hv'. destruct (bx_x s) as (x0, x1) eqn:Ex, (bx_y s) as (y0, y1) eqn:Ey.
  constructor; unfold box_flush; cbn [bset_out bx_values bx_x bx_y bx_null_count bx_validity q0 q1 q2 q3 fst snd];
    rewrite ?Ex, ?Ey; cbn [fst snd]; rewrite ?flat_map_app, ?buf_append_data; cbn [flat_map column app]; rewrite ?app_nil_r; try congruence.
  rewrite filter_app, app_length. cbn [filter row_valid fst]. destruct valid; cbn [negb length]; lia.
Qed.

Section Junk.
  Variable junk : nat -> N.

  Lemma feat_end_ok s rows : box_holds s rows ->
    exists s', feat_end_box junk s = VRet s' 0 /\ box_holds s' (rows ++ [(negb (bx_null s), bx_x s, bx_y s)]).
  Proof.
    intros H. pose proof (bh_validity _ _ H) as Hv. unfold feat_end_box. rewrite (holds_length _ _ H).
    destruct (bx_null s) eqn:En; cbn [negb].
    - destruct (forallb row_valid rows) eqn:Ea.
      + rewrite Hv. cbn [bm_buffer bitmap_init w_null wbuf_init w_mem].
        destruct (bitmap_append_ok junk bitmap_init [] true (Z.of_nat (length rows)) bitmap_init_ok ltac:(lia)) as (v1 & E1 & O1 & _).
        rewrite E1. cbn [obind]. destruct (bitmap_append_ok junk v1 _ false 1 O1 ltac:(lia)) as (v2 & E2 & O2 & N2). rewrite E2. cbn [obind].
        eexists; split; [reflexivity|]. apply flush_holds; [exact H|reflexivity|].
        rewrite forallb_app. cbn [forallb row_valid fst andb]. rewrite Bool.andb_false_r. split; [|apply N2; lia].
        rewrite map_app, (valid_all _ Ea). rewrite Nat2Z.id in O2. exact O2.
      + destruct Hv as (Ho & Hw). rewrite Hw. cbn [obind].
        destruct (bitmap_append_ok junk _ _ false 1 Ho ltac:(lia)) as (v2 & E2 & O2 & N2). rewrite E2. cbn [obind].
        eexists; split; [reflexivity|]. apply flush_holds; [exact H|reflexivity|].
        rewrite forallb_app, Ea. cbn [andb]. split; [|apply N2; lia]. rewrite map_app. exact O2.
    - destruct (forallb row_valid rows) eqn:Ea.
      + rewrite Hv. cbn [bm_buffer bitmap_init w_null wbuf_init w_mem negb]. eexists; split; [reflexivity|].
        assert (s = bset_out s bitmap_init (bx_values s) (bx_null_count s)) as Es by (rewrite <- Hv; destruct s; reflexivity).
        rewrite Es at 1. apply flush_holds; [exact H|lia|]. rewrite forallb_app, Ea. reflexivity.
      + destruct Hv as (Ho & Hw). rewrite Hw. cbn [negb].
        destruct (bitmap_append_ok junk _ _ true 1 Ho ltac:(lia)) as (v2 & E2 & O2 & N2). rewrite E2. cbn [obind].
        eexists; split; [reflexivity|]. apply flush_holds; [exact H|lia|].
        rewrite forallb_app, Ea. cbn [andb]. split; [|apply N2; lia]. rewrite map_app. exact O2.
  Qed.

  (** A feature and its row. *)
  Definition row_of (f : option geom) (w : row) : Prop :=
    row_small w /\
    match f with
    | None => row_valid w = false
    | Some g => row_valid w = true /\ tight (ordinates 0 g) (ordinates 1 g) (column 0 w) (column 1 w) (column 2 w) (column 3 w)
    end.

  Lemma inf_small : (fst (inf_word, neg_inf_word) < 2 ^ 64)%N /\ (snd (inf_word, neg_inf_word) < 2 ^ 64)%N.
  Proof. split; reflexivity. Qed.

  Lemma small_row (v : bool) (x y : N * N) : (fst x < 2 ^ 64)%N /\ (snd x < 2 ^ 64)%N -> (fst y < 2 ^ 64)%N /\ (snd y < 2 ^ 64)%N -> row_small (v, x, y).
  Proof. destruct x, y. cbn [fst snd]. intros (? & ?) (? & ?) [|[|[|k]]]; assumption. Qed.

  Lemma box_feature s rows f evs : box_holds s rows -> wf_feature f -> feature_events f evs ->
    exists s' w, feed (box_visitor junk) s evs = Some (s', 0) /\ box_holds s' (rows ++ [w]) /\ row_of f w.
  Proof.
    intros H Hf He. assert (forall nl x y, box_holds (bset_range s nl x y) rows) as Hr by (intros; destruct H; constructor; assumption).
    inversion He as [|g e Hg]; subst.
    - cbn [feed box_visitor Z.eqb].
      change (0 =? 0) with true. cbn iota.
      set (s1 := bset_range (box_reset s) true (bx_x (box_reset s)) (bx_y (box_reset s))).
      assert (box_holds s1 rows) as H1 by (destruct H; constructor; assumption).
      destruct (feat_end_ok s1 rows H1) as (s' & E & Hs'). rewrite E. change (0 =? 0) with true. cbn iota.
      eexists; eexists. split; [reflexivity|]. split; [exact Hs'|]. split; [|reflexivity]. apply small_row; exact inf_small.
    - pose proof (geom_delivers g e Hg) as Hd. destruct (coords_long g (Hf g eq_refl)) as (Hl & Hw).
      destruct (widen_total 0 (map snd (geom_coords g)) ltac:(eapply Forall_impl; [|exact Hl]; cbn; intros; lia) (inf_word, neg_inf_word)) as (x & Ex).
      destruct (widen_total 1 (map snd (geom_coords g)) ltac:(eapply Forall_impl; [|exact Hl]; cbn; intros; lia) (inf_word, neg_inf_word)) as (y & Ey).
      rewrite (feed_app_ok _ s (box_reset s) [EFeatStart]) by reflexivity.
      rewrite (feed_app_ok _ _ _ _ _ (feed_box (box_visitor junk) ltac:(reflexivity) ltac:(intros ? [] ? Hne; try contradiction; try reflexivity; exfalso; eapply Hne; reflexivity) e _ (box_reset s) x y Hd Ex Ey)).
      cbn [feed box_visitor].
      destruct (feat_end_ok (bset_range (box_reset s) false x y) rows ltac:(destruct H; constructor; assumption)) as (s' & E & Hs').
      change (bx_null (box_reset s)) with false. rewrite E. change (0 =? 0) with true. cbn iota.
      eexists; eexists. split; [reflexivity|]. split; [exact Hs'|]. cbn [bset_range bx_null bx_x bx_y negb].
      pose proof (widen_bound 0 _ Hw _ _ (proj1 inf_small) (proj2 inf_small) Ex) as Bx.
      pose proof (widen_bound 1 _ Hw _ _ (proj1 inf_small) (proj2 inf_small) Ey) as By.
      split; [apply small_row; assumption|]. split; [reflexivity|].
      pose proof (widen_range 0 _ [] _ _ range_empty Ex) as (Hx0 & Hx1). pose proof (widen_range 1 _ [] _ _ range_empty Ey) as (Hy0 & Hy1).
      rewrite app_nil_l, map_ordinates in Hx0, Hx1, Hy0, Hy1. destruct x, y. cbn [column fst snd] in *. exact (conj Hx0 (conj Hy0 (conj Hx1 Hy1))).
  Qed.

  Lemma box_features fs : Forall wf_feature fs -> forall evs, features_events fs evs -> forall s rows, box_holds s rows ->
    exists s' ws, feed (box_visitor junk) s evs = Some (s', 0) /\ box_holds s' (rows ++ ws) /\ Forall2 row_of fs ws.
  Proof.
    induction 1 as [|f fs Hf _ IH]; intros evs He s rows H; inversion He as [|? ? e1 e2 H1 H2]; subst.
    - exists s, []. rewrite app_nil_r. split; [reflexivity|]. split; [exact H|constructor].
    - destruct (box_feature s rows f e1 H Hf H1) as (s1 & w & E1 & Hs1 & Hw). rewrite (feed_app_ok _ _ _ _ _ E1).
      destruct (IH e2 H2 s1 _ Hs1) as (s2 & ws & E2 & Hs2 & Hws). exists s2, (w :: ws).
      split; [exact E2|]. split; [rewrite <- app_assoc in Hs2; exact Hs2|constructor; assumption].
  Qed.
End Junk.

(** ** The finished array *)
Lemma slice_column {A} (f : A -> N) l : forall i x, nth_error l i = Some x ->
  slice (flat_map (fun w => le_bytes 8 (f w)) l) (8 * Z.of_nat i) 8 = Some (le_bytes 8 (f x)).
Proof.
  induction l as [|y l IH]; intros [|i] x E; try discriminate; cbn [flat_map].
  - injection E as ->. rewrite <- (app_nil_l (le_bytes 8 (f x) ++ _)). apply (slice_app_at [] (le_bytes 8 (f x)) _ 8). apply le_bytes_length.
  - rewrite slice_app_r by (rewrite le_bytes_length; lia). rewrite le_bytes_length.
    replace (8 * Z.of_nat (S i) - Z.of_nat 8) with (8 * Z.of_nat i) by lia. apply IH. exact E.
Qed.

Definition box_column (n : Z) (f : row -> N) (rows : list row) : arrow_array :=
  ArrowArray n 0 0 [None; Some (flat_map (fun w => le_bytes 8 (f w)) rows)] [].
Definition box_array (validity : option bytes) (nulls : Z) (rows : list row) : arrow_array :=
  let n := Z.of_nat (length rows) in
  ArrowArray n 0 nulls [validity] [box_column n (column 0) rows; box_column n (column 1) rows; box_column n (column 2) rows; box_column n (column 3) rows].

Lemma finish_ok s rows : box_holds s rows ->
  exists validity, box_finish s = (bset_out s bitmap_init (qconst buf_init) 0, 0, Some (box_array validity (bx_null_count s) rows)) /\
    match validity with
    | None => forallb row_valid rows = true
    | Some b => holds_bits b (map row_valid rows) /\ Z.of_nat (length rows) <= 8 * Z.of_nat (length b)
    end.
Proof.
  intros H. unfold box_finish. cbv beta zeta. rewrite (holds_length _ _ H). destruct H as [H0 H1 H2 H3 Hn Hv]. rewrite H0, H1, H2, H3.
  set (n := Z.of_nat (length rows)).
  assert (forall f, validate_minimal (FArray SDouble n [None; Some (flat_map (fun w => le_bytes 8 (f w)) rows)] []) = Ok tt) as Vm.
  { intros f. cbn [validate_minimal nth_buf nth buf_size]. rewrite column_length. unfold fails.
    destruct (Z.ltb_spec n 0); [lia|]. cbn [obind]. change (0 =? 0) with true. cbn [negb andb obind].
    destruct (Z.ltb_spec (Z.of_nat (8 * length rows)) (8 * n)); [lia|]. reflexivity. }
  assert (forall f, validate_default (FArray SDouble n [None; Some (flat_map (fun w => le_bytes 8 (f w)) rows)] []) = Ok tt) as Vd.
  { intros f. cbn [validate_default]. rewrite Vm. reflexivity. }
  assert (forall v cols, (match v with None => True | Some b => bytes_needed n <= Z.of_nat (length b) end) ->
    validate_default (FArray SStruct n [v] (map (fun f => FArray SDouble n [None; Some (flat_map (fun w => le_bytes 8 (f w)) rows)] []) cols)) = Ok tt) as Va.
  { intros v cols Hb. cbn [validate_default].
    assert (validate_minimal (FArray SStruct n [v] (map (fun f => FArray SDouble n [None; Some (flat_map (fun w => le_bytes 8 (f w)) rows)] []) cols)) = Ok tt) as ->.
    { cbn [validate_minimal]. unfold fails. destruct (Z.ltb_spec n 0); [lia|]. cbn [obind].
      assert (negb (buf_size (nth_buf [v] 0) =? 0) && (buf_size (nth_buf [v] 0) <? bytes_for_bits n) = false) as ->.
      { rewrite bytes_for_bits_spec by lia. destruct v as [b|]; [|reflexivity]. cbn [nth_buf nth buf_size].
        destruct (Z.ltb_spec (Z.of_nat (length b)) (bytes_needed n)); [lia|]. apply Bool.andb_false_r. }
      cbn [obind].
      assert (existsb (fun ch => fa_length ch <? n) (map (fun f => FArray SDouble n [None; Some (flat_map (fun w => le_bytes 8 (f w)) rows)] []) cols) = false) as ->.
      { induction cols as [|c cols IH]; [reflexivity|]. cbn [map existsb fa_length]. rewrite Z.ltb_irrefl. exact IH. }
      cbn [obind]. induction cols as [|c cols IH]; [reflexivity|]. cbn [map]. rewrite Vm. cbn [obind]. exact IH. }
    cbn [obind]. unfold fails.
    assert (existsb (fun ch => fa_length ch <? n) (map (fun f => FArray SDouble n [None; Some (flat_map (fun w => le_bytes 8 (f w)) rows)] []) cols) = false) as ->.
    { induction cols as [|c cols IH]; [reflexivity|]. cbn [map existsb fa_length]. rewrite Z.ltb_irrefl. exact IH. }
    cbn [obind]. induction cols as [|c cols IH]; [reflexivity|]. cbn [map]. rewrite Vd. cbn [obind]. exact IH. }
  destruct (forallb row_valid rows) eqn:Ea.
  - rewrite Hn, (none_null _ Ea). cbn [length]. change (0 <? Z.of_nat 0) with false. cbn iota.
    exists None. split; [|reflexivity]. pose proof (Va None [column 0; column 1; column 2; column 3] I) as V. cbn [map] in V.
    match goal with |- context [validate_default ?x] => replace (validate_default x) with (Ok tt : outcome unit) by (symmetry; exact V) end. reflexivity.
  - destruct Hv as (Ho & Hw). pose proof (some_null _ Ea) as Hs.
    assert (0 <? bx_null_count s = true) as ->. { apply Z.ltb_lt. rewrite Hn. destruct (filter _ rows); [contradiction|cbn [length]; lia]. }
    cbn [flush_buffer]. rewrite Hw. destruct Ho as [O1 O2 O3 O4]. rewrite map_length in O2.
    set (b := firstn (Z.to_nat (w_size (bm_buffer (bx_validity s)))) (w_mem (bm_buffer (bx_validity s)))).
    assert (Z.of_nat (length b) = bytes_needed n) as Hlen.
    { unfold b. rewrite firstn_length. unfold w_cap in O3. fold n in O2. pose proof (bytes_needed_nonneg n ltac:(lia)). lia. }
    exists (Some b). pose proof (Va (Some b) [column 0; column 1; column 2; column 3] (Z.eq_le_incl _ _ (eq_sym Hlen))) as V. cbn [map] in V.
    match goal with |- context [validate_default ?x] => replace (validate_default x) with (Ok tt : outcome unit) by (symmetry; exact V) end. split; [reflexivity|].
    pose proof (bytes_needed_bound n ltac:(lia)) as Bn. split; [|lia].
    intros i v Hi. unfold b. rewrite bit_of_firstn; [apply O4; exact Hi|].
    assert (i < length (map row_valid rows))%nat by (apply nth_error_Some; congruence). rewrite map_length in *. fold n in O2. lia.
Qed.

Lemma Forall2_nth_error_l {A B} (R : A -> B -> Prop) xs ys i x : Forall2 R xs ys -> nth_error xs i = Some x ->
  exists y, nth_error ys i = Some y /\ R x y.
Proof.
  intros H. revert i. induction H as [|a b xs ys Hab _ IH]; intros [|i] E; try discriminate; [|apply IH; exact E].
  injection E as ->. exists b. split; [reflexivity|exact Hab].
Qed.
Lemma rows_nulls fs rows : Forall2 row_of fs rows -> Z.of_nat (length (filter (fun w => negb (row_valid w)) rows)) = nulls fs.
Proof.
  unfold nulls. intros H. f_equal. induction H as [|f w fs rows (_ & Hw) _ IH]; [reflexivity|]. cbn [filter].
  destruct f as [g|]; [destruct Hw as (-> & _)|rewrite Hw]; cbn [negb]; [exact IH|]. cbn [length]. rewrite IH. reflexivity.
Qed.

Lemma box_array_ok validity count fs rows :
  Forall2 row_of fs rows -> count = nulls fs ->
  match validity with
  | None => forallb row_valid rows = true
  | Some b => holds_bits b (map row_valid rows) /\ Z.of_nat (length rows) <= 8 * Z.of_nat (length b)
  end -> boxes (box_array validity count rows) fs.
Proof.
  intros Hf -> Hv. pose proof (Forall2_length _ _ _ Hf) as Hl. split; [|split; [cbn [box_array aa_length]; lia|split; [reflexivity|]]].
  - split.
    + unfold validity_ok, box_array. cbn [aa_buffers nth_error aa_offset aa_length]. destruct validity; [lia|exact I].
    + unfold native_ok, box_ok, box_array. cbn [aa_offset aa_length aa_buffers aa_children length ndim].
      split; [lia|]. split; [lia|]. split; [reflexivity|]. split; [reflexivity|].
      assert (forall f, floats_ok (0 + Z.of_nat (length rows)) (box_column (Z.of_nat (length rows)) f rows)) as Hfl.
      { intros f. unfold floats_ok, box_column. cbn [aa_offset aa_length aa_buffers]. split; [lia|]. split; [lia|].
        eexists; eexists. split; [reflexivity|]. cbn [buffer_holds]. rewrite column_length. lia. }
      repeat constructor; apply Hfl.
  - intros i f Hi. destruct (Forall2_nth_error_l _ _ _ _ _ Hf Hi) as (w & Hw & (Hs & Hrow)).
    assert (valid_at (box_array validity (nulls fs) rows) (Z.of_nat i) = Some (row_valid w)) as Hva.
    { unfold valid_at, box_array. cbn [aa_buffers nth_error aa_offset]. destruct validity as [b|].
      - rewrite Z.add_0_l. apply (proj1 Hv). rewrite nth_error_map, Hw. reflexivity.
      - rewrite forallb_forall in Hv. rewrite (Hv w) by (eapply nth_error_In; exact Hw). reflexivity. }
    rewrite Hva. destruct f as [g|]; [|rewrite Hrow; reflexivity]. destruct Hrow as (-> & Ht). split; [reflexivity|].
    exists (column 0 w), (column 1 w), (column 2 w), (column 3 w). split; [|exact Ht].
    intros j v Hj. unfold ordinate_at, box_array. cbn [aa_children aa_offset].
    assert (forall f, (f w < 2 ^ 64)%N -> float_elt (box_column (Z.of_nat (length rows)) f rows) (0 + Z.of_nat i) = Some (f w)) as Hcol.
    { intros f Hb. unfold float_elt, box_column, second_buffer. cbn [aa_buffers nth_error aa_offset]. rewrite !Z.add_0_l. unfold double_at.
      rewrite (slice_column f rows i w Hw). cbn [option_map]. rewrite le_val_bytes; [reflexivity|exact Hb]. }
    destruct j as [|[|[|[|j]]]]; cbn [nth_error] in Hj |- *; try (injection Hj as <-; apply Hcol; apply Hs).
    destruct j; discriminate.
Qed.

(** ** The box kernel *)
Theorem box_batches junk parse t r0 st sw batches fss : number_parser parse -> reader_init t = Ok r0 ->
  Forall2 (features_array parse t) batches fss -> Forall (Forall wf_feature) fss ->
  exists r s outs, push_batches (box_kernel junk) parse st sw 0 r0 box_init batches = Ok (r, s, outs) /\
    Forall2 (fun fs out => exists a, out = Some a /\ boxes a fs) fss outs.
Proof.
  intros Hp Hr. assert (box_holds box_init []) as H0 by (constructor; reflexivity). apply rh_init in Hr.
  revert Hr H0. generalize r0 box_init 0%nat. revert fss. induction batches as [|a batches IH]; intros fss r s j Hr Hs Hb Hw; inversion Hb as [|? fs ? fss' Ha Hrest]; subst.
  - exists r, s, []. split; [reflexivity|constructor].
  - inversion Hw as [|? ? Hw1 Hw2]; subst.
    destruct (push_whole (box_kernel junk) parse Hp t r a fs eq_refl Ha Hr) as (r1 & Hr1 & Hpush).
    destruct (Hpush (st j) (sw j)) as (evs & He & E). cbn [push_batches]. rewrite (E s). cbn [kn_visitor box_kernel].
    destruct (box_features junk fs Hw1 evs He s [] Hs) as (s1 & ws & E1 & Hs1 & Hrow). rewrite E1. change (0 =? 0) with true. cbn iota.
    unfold kfinish_push. cbn [kn_finish_push box_kernel]. rewrite app_nil_l in Hs1.
    destruct (finish_ok s1 ws Hs1) as (validity & E2 & Hval). rewrite E2. change (0 =? 0) with true. cbn iota.
    destruct (IH fss' r1 (bset_out s1 bitmap_init (qconst buf_init) 0) (S j) Hr1 ltac:(constructor; reflexivity) Hrest Hw2) as (r2 & s2 & outs & E3 & Houts).
    rewrite E3. cbn [obind]. eexists; eexists; eexists. split; [reflexivity|]. constructor; [|exact Houts].
    eexists; split; [reflexivity|]. eapply box_array_ok; [exact Hrow| |exact Hval]. rewrite (bh_nulls _ _ Hs1). apply rows_nulls. exact Hrow.
Qed.

(** ** The box_agg kernel *)
Definition all_coords (fs : list (option geom)) : list coord :=
  flat_map (fun f => match f with Some g => map snd (geom_coords g) | None => [] end) fs.
Lemma all_ordinates j fs : map (fun c => nth j c 0%N) (all_coords fs) = feature_ordinates j fs.
Proof.
  unfold all_coords, feature_ordinates. induction fs as [|[g|] fs IH]; [reflexivity| |exact IH]. 
  cbn [flat_map]. rewrite map_app. f_equal; [apply map_ordinates|exact IH].
Qed.
Lemma all_coords_long fs : Forall wf_feature fs -> Forall (fun c : coord => (1 < length c)%nat) (all_coords fs) /\
  Forall (Forall (fun w => (w < 2 ^ 64)%N)) (all_coords fs).
Proof.
  induction 1 as [|[g|] fs Hf _ (IH1 & IH2)]; [split; constructor| |split; assumption]. destruct (coords_long g (Hf g eq_refl)).
  split; apply Forall_app; split; assumption.
Qed.

Lemma agg_features fs : forall evs, features_events fs evs -> forall s x y,
  widen 0 (bx_x s) (all_coords fs) = Some x -> widen 1 (bx_y s) (all_coords fs) = Some y ->
  feed box_agg_visitor s evs = Some (bset_range s (bx_null s) x y, 0).
Proof.
  induction fs as [|f fs IH]; intros evs He s x y Hx Hy; inversion He as [|? ? e1 e2 H1 H2]; subst.
  - cbn in Hx, Hy. injection Hx as <-. injection Hy as <-. destruct s; reflexivity.
  - cbn [all_coords flat_map] in Hx, Hy. destruct (widen_app_inv _ _ _ _ _ Hx) as (x1 & Hx1 & Hx2). destruct (widen_app_inv _ _ _ _ _ Hy) as (y1 & Hy1 & Hy2).
    assert (feed box_agg_visitor s e1 = Some (bset_range s (bx_null s) x1 y1, 0)) as E1.
    { inversion H1 as [|g e Hg]; subst.
      - cbn in Hx1, Hy1. injection Hx1 as <-. injection Hy1 as <-. destruct s; reflexivity.
      - rewrite (feed_app_ok _ s s [EFeatStart]) by reflexivity.
        rewrite (feed_app_ok _ _ _ _ _ (feed_box box_agg_visitor ltac:(reflexivity) ltac:(intros ? [] ? Hne; try contradiction; try reflexivity; exfalso; eapply Hne; reflexivity) e _ s x1 y1 (geom_delivers g e Hg) Hx1 Hy1)).
        reflexivity. }
    rewrite (feed_app_ok _ _ _ _ _ E1). rewrite (IH e2 H2 (bset_range s (bx_null s) x1 y1) x y Hx2 Hy2). destruct s; reflexivity.
Qed.

Lemma push_agg parse t st sw : number_parser parse -> forall batches fss j r s x y, reader_history t r ->
  Forall2 (features_array parse t) batches fss ->
  widen 0 (bx_x s) (all_coords (concat fss)) = Some x -> widen 1 (bx_y s) (all_coords (concat fss)) = Some y ->
  exists r' outs, push_batches box_agg parse st sw j r s batches = Ok (r', bset_range s (bx_null s) x y, outs).
Proof.
  intros Hp. induction batches as [|a batches IH]; intros fss j r s x y Hr H Hx Hy; inversion H as [|? fs ? fss' Ha Hrest]; subst.
  - cbn in Hx, Hy. injection Hx as <-. injection Hy as <-. exists r, []. destruct s; reflexivity.
  - cbn [concat] in Hx, Hy. unfold all_coords in Hx, Hy. rewrite flat_map_app in Hx, Hy.
    destruct (widen_app_inv _ _ _ _ _ Hx) as (x1 & Hx1 & Hx2). destruct (widen_app_inv _ _ _ _ _ Hy) as (y1 & Hy1 & Hy2).
    destruct (push_whole box_agg parse Hp t r a fs eq_refl Ha Hr) as (r1 & Hr1 & Hpush).
    destruct (Hpush (st j) (sw j)) as (evs & He & E). cbn [push_batches]. rewrite (E s). cbn [kn_visitor box_agg].
    rewrite (agg_features fs evs He s x1 y1 Hx1 Hy1). change (0 =? 0) with true. cbn iota.
    change (kfinish_push box_agg r1 (bset_range s (bx_null s) x1 y1)) with (@KRet boxst arrow_array r1 (bset_range s (bx_null s) x1 y1) 0 None). cbn iota.
    change (0 =? 0) with true. cbn iota.
    destruct (IH fss' (S j) r1 (bset_range s (bx_null s) x1 y1) x y Hr1 Hrest Hx2 Hy2) as (r2 & outs & E2). rewrite E2. cbn [obind].
    exists r2, (None :: outs). destruct s; reflexivity.
Qed.

Lemma agg_ranges fss : Forall (Forall wf_feature) fss -> exists x y,
  widen 0 (bx_x box_agg_init) (all_coords (concat fss)) = Some x /\ widen 1 (bx_y box_agg_init) (all_coords (concat fss)) = Some y.
Proof.
  intros Hw. apply Forall_concat in Hw. destruct (all_coords_long _ Hw) as (Hl & _).
  destruct (widen_total 0 _ ltac:(eapply Forall_impl; [|exact Hl]; cbn; intros; lia) (inf_word, neg_inf_word)) as (x & Ex).
  destruct (widen_total 1 _ ltac:(eapply Forall_impl; [|exact Hl]; cbn; intros; lia) (inf_word, neg_inf_word)) as (y & Ey).
  exists x, y. split; assumption.
Qed.

Theorem box_agg_ok parse t r0 st sw batches fss : number_parser parse -> reader_init t = Ok r0 ->
  Forall2 (features_array parse t) batches fss -> Forall (Forall wf_feature) fss ->
  exists a x0 y0 x1 y1, aggregate box_agg parse st sw t box_agg_init batches = Ok a /\
    native_ok KBox Separate XY a /\ aa_length a = 1 /\ aa_null_count a = 0 /\ valid_at a 0 = Some true /\ box_at a 0 x0 y0 x1 y1 /\
    tight (feature_ordinates 0 (concat fss)) (feature_ordinates 1 (concat fss)) x0 y0 x1 y1.
Proof.
  intros Hp Hr Hb Hw. destruct (agg_ranges fss Hw) as (x & y & Hx & Hy). unfold aggregate. rewrite Hr. cbn [obind].
  destruct (push_agg parse t st sw Hp batches fss 0%nat r0 box_agg_init x y (rh_init t r0 Hr) Hb Hx Hy) as (r & outs & ->). cbn [obind kn_finish box_agg].
  set (s := bset_range box_agg_init (bx_null box_agg_init) x y).
  assert (box_holds (box_flush s) [(true, x, y)]) as Hs.
  { assert (s = bset_out s bitmap_init (bx_values s) 0) as -> by reflexivity. apply (flush_holds s [] true bitmap_init 0); [constructor; reflexivity|reflexivity|reflexivity]. }
  destruct (finish_ok _ _ Hs) as (validity & -> & Hv). change (0 =? 0) with true. cbn iota. cbn [or_ub].
  pose proof (Forall_concat _ _ Hw) as Hwc. destruct (all_coords_long _ Hwc) as (_ & Hbd).
  pose proof (widen_bound 0 _ Hbd _ _ (proj1 inf_small) (proj2 inf_small) Hx) as Bx.
  pose proof (widen_bound 1 _ Hbd _ _ (proj1 inf_small) (proj2 inf_small) Hy) as By.
  pose proof (widen_range 0 _ [] _ _ range_empty Hx) as (Hx0 & Hx1). pose proof (widen_range 1 _ [] _ _ range_empty Hy) as (Hy0 & Hy1).
  rewrite app_nil_l, all_ordinates in Hx0, Hx1, Hy0, Hy1.
    assert (boxes (box_array validity (bx_null_count (box_flush s)) [(true, x, y)]) [Some (GLine XY (all_coords (concat fss)))]) as (B1 & B2 & B3 & B4).
  { apply box_array_ok; [|reflexivity|exact Hv]. constructor; [|constructor]. split; [apply small_row; assumption|]. split; [reflexivity|].
    unfold ordinates. cbn [geom_coords]. rewrite !map_map. cbn [snd]. rewrite !all_ordinates. destruct x, y. cbn [column fst snd] in *. exact (conj Hx0 (conj Hy0 (conj Hx1 Hy1))). }
  specialize (B4 0%nat _ eq_refl). destruct B4 as (V & x0 & y0 & x1 & y1 & Hbox & Ht).
  eexists. exists x0, y0, x1, y1. split; [reflexivity|]. split; [exact B1|]. split; [exact B2|]. split; [exact B3|]. split; [exact V|]. split; [exact Hbox|].
  unfold ordinates in Ht. cbn [geom_coords] in Ht. rewrite !map_map in Ht. cbn [snd] in Ht. rewrite !all_ordinates in Ht. exact Ht.
Qed.

Theorem box_agg_split parse t1 t2 r1 r2 st1 sw1 st2 sw2 batches1 batches2 fss1 fss2 : number_parser parse ->
  reader_init t1 = Ok r1 -> reader_init t2 = Ok r2 ->
  Forall2 (features_array parse t1) batches1 fss1 -> Forall2 (features_array parse t2) batches2 fss2 ->
  Forall (Forall wf_feature) fss1 -> concat fss1 = concat fss2 ->
  aggregate box_agg parse st1 sw1 t1 box_agg_init batches1 = aggregate box_agg parse st2 sw2 t2 box_agg_init batches2.
Proof.
  intros Hp Hr1 Hr2 H1 H2 Hw He. destruct (agg_ranges fss1 Hw) as (x & y & Hx & Hy). unfold aggregate. rewrite Hr1, Hr2. cbn [obind].
  destruct (push_agg parse t1 st1 sw1 Hp batches1 fss1 0%nat r1 box_agg_init x y (rh_init t1 r1 Hr1) H1 Hx Hy) as (x1 & outs1 & ->).
  rewrite He in Hx, Hy.
  destruct (push_agg parse t2 st2 sw2 Hp batches2 fss2 0%nat r2 box_agg_init x y (rh_init t2 r2 Hr2) H2 Hx Hy) as (x2 & outs2 & ->). reflexivity.
Qed.
