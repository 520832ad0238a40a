(** Which arrays GeoArrowArrayViewSetArray accepts. *)
From Verif Require Import Base BaseFacts TypesModel TypesProofs GeomSpec VisitorModel
  BufferModel ArrowModel ArrayViewModel NativeSpec NativeProofs NativeVisitProofs.
Local Open Scope Z_scope.

Definition two_buffers (ch : arrow_array) : Prop := length (aa_buffers ch) = 2%nat.

Lemma two_eqb n : (Z.of_nat n =? 2) = Nat.eqb n 2.
Proof. destruct (Nat.eqb_spec n 2), (Z.eqb_spec (Z.of_nat n) 2); lia || reflexivity. Qed.

Lemma child_values_spec : forall n chs, length chs = n ->
  (Forall two_buffers chs /\ exists vs, child_values n chs = Ok vs) \/
  (~ Forall two_buffers chs /\ child_values n chs = Err EINVAL).
Proof.
  induction n as [|n IH]; intros chs Hl; destruct chs as [|ch chs]; try discriminate; cbn [child_values].
  - left. split; [constructor|eauto].
  - rewrite two_eqb. destruct (Nat.eqb_spec (length (aa_buffers ch)) 2) as [E|E]; cbn [negb].
    + destruct (nth_error (aa_buffers ch) 1) as [b|] eqn:Eb.
      * cbn [or_ub obind]. destruct (IH chs ltac:(cbn in Hl; lia)) as [(F & vs & ->)|(F & ->)]; cbn [obind].
        -- left. split; [constructor; assumption|eauto].
        -- right. split; [|reflexivity]. intros H; inversion H; contradiction.
      * apply nth_error_None in Eb. lia.
    + right. split; [|reflexivity]. intros H; inversion H; contradiction.
Qed.

Lemma set_coord_spec k l d v a lev : typed k l d v -> k <> KBox -> (exists n, coord_count v a lev = Ok n) ->
  (coords_counted l d a /\ exists v', set_coord_array v a lev = Ok v') \/
  (~ coords_counted l d a /\ set_coord_array v a lev = Err EINVAL).
Proof.
  intros T Hk (nc & Hn). unfold set_coord_array. rewrite Hn. cbn [obind].
  rewrite (ty_ctype _ _ _ _ T), (n_values_dim _ _ _ _ T Hk), Nat2Z.id. unfold coords_counted.
  destruct l; cbn [layout_code].
  - change (1 =? CT_SEPARATE) with true. cbn iota.
    destruct (Z.eqb_spec (Z.of_nat (length (aa_children a))) (Z.of_nat (ndim d))) as [E|E]; cbn [negb].
    + destruct (child_values_spec (ndim d) (aa_children a) ltac:(lia)) as [(F & vs & ->)|(F & ->)]; cbn [obind].
      * left. split; [split; [lia|exact F]|eauto].
      * right. split; [|reflexivity]. intros (_ & H). contradiction.
    + right. split; [|reflexivity]. intros (H & _). lia.
  - change (2 =? CT_SEPARATE) with false. change (2 =? CT_INTERLEAVED) with true. cbn iota.
    destruct (aa_children a) as [|ch [|c2 r]]; cbn [length].
    + right. split; [|reflexivity]. intros (H & _). discriminate.
    + rewrite two_eqb. destruct (Nat.eqb_spec (length (aa_buffers ch)) 2) as [E|E]; cbn [negb].
      * destruct (nth_error (aa_buffers ch) 1) as [b|] eqn:Eb; [|apply nth_error_None in Eb; lia].
        cbn [or_ub obind]. left. split; [split; [reflexivity|repeat constructor; exact E]|eauto].
      * right. split; [|reflexivity]. intros (_ & H). inversion H. contradiction.
    + right. split; [|reflexivity]. intros (H & _). discriminate.
Qed.

Fixpoint counted (l : layout) (d : dim) (n : nat) : arrow_array -> Prop :=
  match n with O => coords_counted l d | S n' => list_shape (counted l d n') end.

(** Whatever the offsets hold, acceptance implies the counts and every error is EINVAL. *)
Lemma set_internal_accepts k l d n : forall a v lev v', typed k l d v -> k <> KBox -> av_n_offsets v = Z.of_nat (lev + n) ->
  set_array_internal v a lev = Ok v' -> counted l d n a.
Proof.
  induction n as [|n IH]; intros a v lev v' T Hk Hn; destruct a as [len off nc bufs chs] eqn:Ea; cbn [set_array_internal];
    change (av_n_offsets (with_level v lev off len)) with (av_n_offsets v); rewrite Hn.
  - rewrite Nat.add_0_r, Z.eqb_refl. intros E. cbn [counted].
    destruct (coord_count (with_level v lev off len) (ArrowArray len off nc bufs chs) lev) as [c| | |] eqn:Ec;
      try (unfold set_coord_array in E; rewrite Ec in E; discriminate).
    destruct (set_coord_spec k l d _ (ArrowArray len off nc bufs chs) lev (typed_level _ _ _ _ lev off len T) Hk (ex_intro _ c Ec)) as [(H & _)|(_ & H)].
    + exact H.
    + congruence.
  - destruct (Z.eqb_spec (Z.of_nat lev) (Z.of_nat (lev + S n))); [lia|].
    rewrite two_eqb. destruct (Nat.eqb_spec (length bufs) 2) as [E2|E2]; cbn [negb]; [|discriminate].
    destruct chs as [|child [|]]; try discriminate.
    assert (forall w, typed k l d w -> av_n_offsets w = av_n_offsets v -> set_array_internal w child (S lev) = Ok v' ->
              counted l d (S n) (ArrowArray len off nc bufs [child])) as K.
    { intros w Tw Hw E. cbn [counted]. split; [split; [exact E2|reflexivity]|]. constructor; [|constructor].
      apply (IH child w (S lev) v' Tw Hk); [|exact E]. rewrite Hw, Hn. f_equal. lia. }
    destruct (0 <? len).
    + destruct (nth_error bufs 1); cbn [or_ub obind]; [|discriminate].
      destruct (load_int32 _ off); cbn [obind]; try discriminate. destruct (load_int32 _ (off + len)); cbn [obind]; try discriminate.
      apply K; [apply typed_offsets, typed_level, T|reflexivity].
    + cbn [obind]. apply K; [apply typed_offsets, typed_level, T|reflexivity].
Qed.

(** With readable offsets, wrong counts give EINVAL and right ones success. *)
Lemma set_internal_decides k l d n : forall a v lev, typed k l d v -> k <> KBox -> av_n_offsets v = Z.of_nat (lev + n) ->
  (lev + n <= 3)%nat -> ends_readable n a ->
  (forall m, lev = S m -> exists x y, qget (av_first v) m = Some x /\ qget (av_last v) m = Some y /\
     -2147483648 <= y - x <= 2147483647) ->
  (counted l d n a /\ exists v', set_array_internal v a lev = Ok v') \/
  (~ counted l d n a /\ set_array_internal v a lev = Err EINVAL).
Proof.
  induction n as [|n IH]; intros a v lev T Hk Hn Hle Hr Hlev; destruct a as [len off nc bufs chs] eqn:Ea; cbn [set_array_internal];
    change (av_n_offsets (with_level v lev off len)) with (av_n_offsets v); rewrite Hn.
  - rewrite Nat.add_0_r, Z.eqb_refl. cbn [counted].
    apply (set_coord_spec k l d _ _ lev (typed_level _ _ _ _ lev off len T) Hk).
    unfold coord_count. destruct lev as [|m]; [eauto|]. destruct (Hlev m eq_refl) as (x & y & Ex & Ey & R).
    cbn [with_level av_first av_last]. rewrite Ex, Ey. cbn [or_ub obind]. cbv zeta.
    destruct (Z.ltb_spec (y - x) (-2147483648)); [lia|]. destruct (Z.ltb_spec 2147483647 (y - x)); [lia|]. exists (y - x). reflexivity.
  - destruct (Z.eqb_spec (Z.of_nat lev) (Z.of_nat (lev + S n))); [lia|]. cbn [counted]. unfold list_shape, has_counts.
    cbn [aa_buffers aa_children]. rewrite two_eqb. destruct (Nat.eqb_spec (length bufs) 2) as [E2|E2]; cbn [negb].
    2:{ right. split; [|reflexivity]. intros ((H & _) & _). contradiction. }
    destruct chs as [|child [|]].
    1:{ right. split; [|reflexivity]. intros ((_ & H) & _). discriminate. }
    2:{ right. split; [|reflexivity]. intros ((_ & H) & _). discriminate. }
    cbn [ends_readable aa_length aa_offset aa_buffers aa_children] in Hr. destruct Hr as (Hr & Hrc).
    specialize (Hrc child eq_refl).
    destruct bufs as [|vb [|b [|]]]; try discriminate. cbn [nth_error or_ub obind].
    assert (exists p f z, (if 0 <? len then
              do first <- load_int32 (rptr_of b) off;
              do last <- load_int32 (rptr_of b) (off + len);
              Ok (with_offsets (with_level v lev off len) lev (rptr_of b) first last)
            else Ok (with_offsets (with_level v lev off len) lev (RPtr zero_int32 0) 0 0)) =
            Ok (with_offsets (with_level v lev off len) lev p f z) /\ -2147483648 <= z - f <= 2147483647)
      as (p & f & z & E & Hfz).
    { destruct (Z.ltb_spec 0 len) as [Hpos|Hz].
      - destruct (Hr Hpos vb b eq_refl) as (ob & f & z & -> & W & F & Z & F0 & Z0).
        pose proof (int32_range _ _ _ W F). pose proof (int32_range _ _ _ W Z).
        cbn [rptr_of]. rewrite (load_int32_ok _ _ _ W F), (load_int32_ok _ _ _ W Z). cbn [obind].
        exists (RPtr ob 0), f, z. split; [reflexivity|lia].
      - exists (RPtr zero_int32 0), 0, 0. split; [reflexivity|lia]. }
    rewrite E. cbn [obind].
    destruct (IH child (with_offsets (with_level v lev off len) lev p f z) (S lev)) as [(C & v' & E')|(C & E')].
    + apply typed_offsets, typed_level, T.
    + exact Hk.
    + cbn. rewrite Hn. f_equal. lia.
    + lia.
    + exact Hrc.
    + intros m Hm. injection Hm as <-. exists f, z. cbn [with_offsets av_first av_last].
      rewrite !qget_qset_same by lia. split; [reflexivity|]. split; [reflexivity|exact Hfz].
    + left. split; [|eauto]. split; [split; reflexivity|]. constructor; [exact C|constructor].
    + right. split; [|exact E']. intros (_ & H). inversion H. contradiction.
Qed.

Lemma counted_native k l d a : k <> KBox -> counted l d (list_levels k) a <-> native_counted k l d a.
Proof. intros Hk. destruct k; try contradiction; reflexivity. Qed.

Lemma box_spec d v a : typed KBox Separate d v ->
  (native_counted KBox Separate d a /\ exists v', set_array_box v a = Ok v') \/
  (~ native_counted KBox Separate d a /\ set_array_box v a = Err EINVAL).
Proof.
  intros T. unfold set_array_box. cbv zeta. change (av_coords (with_level v 0 (aa_offset a) (aa_length a))) with (av_coords v).
  rewrite (ty_values _ _ _ _ T). change (geometry_kind_code KBox =? 990) with true. cbn iota.
  replace (2 * Z.of_nat (ndim d)) with (Z.of_nat (2 * ndim d)) by lia. rewrite Nat2Z.id. cbn [native_counted].
  destruct (Z.eqb_spec (Z.of_nat (length (aa_children a))) (Z.of_nat (2 * ndim d))) as [E|E]; cbn [negb].
  - destruct (child_values_spec (2 * ndim d) (aa_children a) ltac:(lia)) as [(F & vs & ->)|(F & ->)]; cbn [obind].
    + left. split; [split; [lia|exact F]|eauto].
    + right. split; [|reflexivity]. intros (_ & H). contradiction.
  - right. split; [|reflexivity]. intros (H & _). lia.
Qed.

Lemma set_array_cases k l d v a : typed k l d v -> supported k d l ->
  set_array v a = (do v <- (if geometry_kind_code k =? 990 then set_array_box v a else set_array_internal v a 0);
                   do b0 <- or_ub (nth_error (aa_buffers a) 0); Ok (with_validity v (rptr_of b0))).
Proof.
  intros T Hs. unfold set_array.
  assert (av_type v =? TYPE_WKT = false /\ av_type v =? TYPE_WKB = false /\
    (av_type v =? 990) || (av_type v =? 1990) || (av_type v =? 2990) || (av_type v =? 3990) = (geometry_kind_code k =? 990)) as (-> & -> & ->).
  { rewrite (ty_type _ _ _ _ T). destruct k; [..|rewrite (Hs eq_refl)]; destruct d; try destruct l; vm_compute; auto. }
  reflexivity.
Qed.

Section Counts.
Variables (k : geometry_kind) (l : layout) (d : dim) (v : aview).
Hypothesis Hs : supported k d l.
Hypothesis Hh : view_history (make_type (geometry_kind_code k) (dim_code d) (layout_code l)) v.

Theorem set_array_accepts a v' : set_array v a = Ok v' -> native_counted k l d a.
Proof.
  pose proof (history_typed _ _ _ _ Hs Hh) as T. rewrite (set_array_cases k l d v a T Hs). intros E.
  assert (k = KBox \/ k <> KBox) as [->|Hk] by (destruct k; [right; discriminate..|left; reflexivity]).
  - pose proof (Hs eq_refl) as El. subst l. change (geometry_kind_code KBox =? 990) with true in E. cbn iota in E.
    destruct (box_spec d v a T) as [(H & _)|(_ & H)]; [exact H|]. rewrite H in E. discriminate.
  - replace (geometry_kind_code k =? 990) with false in E by (destruct k; [reflexivity..|contradiction]).
    destruct (set_array_internal v a 0) as [w| | |] eqn:Ew; try discriminate.
    apply counted_native; [exact Hk|]. apply (set_internal_accepts k l d _ a v 0 w T Hk); [|exact Ew].
    rewrite (ty_offsets _ _ _ _ T). destruct k; try contradiction; reflexivity.
Qed.

Theorem set_array_rejects a : offsets_readable k a -> ~ native_counted k l d a -> set_array v a = Err EINVAL.
Proof.
  pose proof (history_typed _ _ _ _ Hs Hh) as T. rewrite (set_array_cases k l d v a T Hs). intros Hr Hc.
  assert (k = KBox \/ k <> KBox) as [->|Hk] by (destruct k; [right; discriminate..|left; reflexivity]).
  - pose proof (Hs eq_refl) as El. subst l. change (geometry_kind_code KBox =? 990) with true. cbn iota.
    destruct (box_spec d v a T) as [(H & _)|(_ & H)]; [contradiction|]. rewrite H. reflexivity.
  - replace (geometry_kind_code k =? 990) with false by (destruct k; [reflexivity..|contradiction]).
    destruct (set_internal_decides k l d (list_levels k) a v 0 T Hk) as [(H & _)|(_ & H)].
    + rewrite (ty_offsets _ _ _ _ T). destruct k; try contradiction; reflexivity.
    + destruct k; cbn; lia.
    + unfold offsets_readable in Hr. destruct k; try contradiction; exact Hr.
    + discriminate.
    + apply counted_native in H; [contradiction|exact Hk].
    + rewrite H. reflexivity.
Qed.
End Counts.

(** ** Safety, boxes and counterexamples *)
Theorem native_visit_safe k l d v a : supported k d l ->
  view_history (make_type (geometry_kind_code k) (dim_code d) (layout_code l)) v ->
  native_ok k l d a ->
  exists v', set_array v a = Ok v' /\
    forall o n, 0 <= o -> 0 <= n -> o + n <= aa_length a ->
      snd (trace (visit_native v' o n)) = if (geometry_kind_code k =? 990) && negb (dim_code d =? 1) then Err ENOTSUP else Ok tt.
Proof.
  intros Hs Hh Hok.
  assert (k = KBox /\ d <> XY \/ (k = KBox -> d = XY)) as [(-> & Hd)|Hbox].
  { destruct k; try (right; discriminate). destruct d; [right; reflexivity|left..]; split; try reflexivity; discriminate. }
  - pose proof (Hs eq_refl) as El. subst l. pose proof (history_typed _ _ _ _ Hs Hh) as T.
    destruct (set_array_box_ok d v a T Hok) as (v' & b0 & E & T' & _).
    exists v'. split; [exact E|]. intros o n _ _ _. rewrite (visit_native_box d v' o n T'). destruct d; [contradiction|reflexivity..].
  - destruct (contents_exist k l d a Hok Hs Hbox) as (els & Hc).
    destruct (native_visit_ok k l d v a els Hs Hh Hok Hc Hbox) as (v' & E & H). exists v'. split; [exact E|].
    intros o n Ho Hn Hon. destruct Hc as (Hl & _).
    rewrite <- (Z2Nat.id o), <- (Z2Nat.id n) by lia. rewrite H by lia. cbn [snd].
    replace ((geometry_kind_code k =? 990) && negb (dim_code d =? 1)) with false; [reflexivity|].
    destruct k; try reflexivity. rewrite (Hbox eq_refl). reflexivity.
Qed.

Theorem box_visit_ok v a els : view_history (make_type 990 1 1) v ->
  native_ok KBox Separate XY a -> contents KBox Separate XY a els ->
  exists v', set_array v a = Ok v' /\
    trace (visit_native v' 0 (aa_length a)) = (flat_map canon_feature els, Ok tt).
Proof.
  intros Hh Hok Hc.
  destruct (native_visit_ok KBox Separate XY v a els (fun _ => eq_refl) Hh Hok Hc (fun _ => eq_refl)) as (v' & E & H).
  exists v'. split; [exact E|]. destruct Hc as (-> & _). change 0 with (Z.of_nat 0). rewrite H by lia.
  unfold window. cbn [skipn]. rewrite firstn_all. reflexivity.
Qed.

Theorem box_refused d v a : d <> XY -> view_history (make_type 990 (dim_code d) 1) v ->
  native_ok KBox Separate d a ->
  exists v', set_array v a = Ok v' /\ forall o n, trace (visit_native v' o n) = ([], Err ENOTSUP).
Proof.
  intros Hd Hh Hok. pose proof (history_typed KBox Separate d v (fun _ => eq_refl) Hh) as T.
  destruct (set_array_box_ok d v a T Hok) as (v' & b0 & E & T' & _).
  exists v'. split; [exact E|]. intros o n. rewrite (visit_native_box d v' o n T'). destruct d; [contradiction|reflexivity..].
Qed.

Theorem box_geom_ring x0 y0 x1 y1 :
  (FloatSpec.double_lt x1 x0 = true \/ FloatSpec.double_lt y1 y0 = true -> box_geom x0 y0 x1 y1 = GPoly XY []) /\
  (FloatSpec.double_lt x1 x0 = false -> FloatSpec.double_lt y1 y0 = false ->
   exists ring, box_geom x0 y0 x1 y1 = GPoly XY [ring] /\ length ring = 5%nat /\ nth_error ring 0 = nth_error ring 4 /\
     forall c, In c ring <-> exists x y, c = [x; y] /\ (x = x0 \/ x = x1) /\ (y = y0 \/ y = y1)).
Proof.
  unfold box_geom. split.
  - intros [->| ->]; [reflexivity|]. rewrite orb_true_r. reflexivity.
  - intros -> ->. cbn [orb]. eexists. split; [reflexivity|]. split; [reflexivity|]. split; [reflexivity|].
    intros c. cbn [In]. split.
    + intros [<-|[<-|[<-|[<-|[<-|[]]]]]]; eexists _, _; (split; [reflexivity|auto]).
    + intros (x & y & -> & [->| ->] & [->| ->]); auto 10.
Qed.

Definition flat_child : arrow_array := ArrowArray 0 0 0 [None; None] [].
Theorem surplus_buffer : exists a v v', ~ native_shape KPoint Separate XY a /\
  view_history (make_type 1 1 1) v /\ set_array v a = Ok v'.
Proof.
  destruct (init_typed KPoint Separate XY ltac:(discriminate)) as (v & E & _).
  exists (ArrowArray 0 0 0 [None; None; None] [flat_child; flat_child]), v.
  cbn in E. injection E as <-. eexists. split; [|split; [|reflexivity]].
  - intros ((H & _) & _). discriminate.
  - apply vh_init. reflexivity.
Qed.
Theorem missing_buffer : exists a v, ~ native_shape KPoint Separate XY a /\
  view_history (make_type 1 1 1) v /\ set_array v a = UB.
Proof.
  destruct (init_typed KPoint Separate XY ltac:(discriminate)) as (v & E & _).
  exists (ArrowArray 0 0 0 [] [flat_child; flat_child]), v.
  cbn in E. injection E as <-. split; [|split; [|reflexivity]].
  - intros ((H & _) & _). discriminate.
  - apply vh_init. reflexivity.
Qed.
