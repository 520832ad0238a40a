(** * The messages of the visitors that write *)
From Verif Require Import Base Text TypesModel TypesSpec GeomSpec VisitorModel VisitorSpec CoordsModel BufferModel BitmapModel BuilderModel BuilderSpec
  NativeWriterModel NativeWriterSpec NativeVisitorSpec NativeSpec NativeRoundTrip WkbWriterModel WktWriterModel WktErrorModel VisitorErrorModel VisitorErrorSpec.
Local Open Scope Z_scope.

(** ** Operations that do not give EINVAL *)
Definition calm {A} (o : outcome A) : Prop := o <> Err EINVAL.
Lemma calm_ok {A} (a : A) : calm (Ok a). Proof. discriminate. Qed.
Lemma calm_ub {A} : calm (@UB A). Proof. discriminate. Qed.
Lemma calm_or_ub {A} (o : option A) : calm (or_ub o). Proof. destruct o; discriminate. Qed.
Lemma calm_bind {A B} (m : outcome A) (f : A -> outcome B) : calm m -> (forall a, calm (f a)) -> calm (obind m f).
Proof. unfold calm. destruct m as [a|c| |]; cbn; intros Hm Hf; [apply Hf | intros E; apply Hm; congruence | discriminate | discriminate]. Qed.
Lemma calm_loop {S} (body : Z -> S -> outcome S) : (forall i s, calm (body i s)) -> forall k i s, calm (for_loop k i body s).
Proof. intros H. induction k as [|k IH]; intros i s; cbn [for_loop]; [apply calm_ok|]. apply calm_bind; auto. Qed.

Ltac calm :=
  repeat match goal with
         | |- calm (Ok _) => apply calm_ok
         | |- calm UB => apply calm_ub
         | |- calm (or_ub _) => apply calm_or_ub
         | |- calm (obind _ _) => apply calm_bind; [|intros ?]
         | |- calm (for_loop _ _ _ _) => apply calm_loop; intros ? ?
         | |- calm (if ?b then _ else _) => destruct b
         | |- calm (match ?o with Some _ => _ | None => _ end) => destruct o
         | |- calm (let _ := _ in _) => cbv zeta
         end.

Lemma calm_get b i : calm (get_buf b i). Proof. unfold get_buf. calm. Qed.
Lemma calm_set_size b i n : calm (set_buf_size b i n). Proof. unfold set_buf_size. calm. apply calm_get. Qed.
Lemma calm_reserve_buffer junk b i n : calm (reserve_buffer junk b i n). Proof. unfold reserve_buffer. calm; apply calm_get. Qed.
Lemma calm_unsafe b i bs : calm (append_buffer_unsafe b i bs). Proof. unfold append_buffer_unsafe, upd_bytes. calm. apply calm_get. Qed.
Lemma calm_offset junk b i v : calm (offset_append junk b i v).
Proof. unfold offset_append. calm; first [apply calm_get | apply calm_reserve_buffer | apply calm_unsafe]. Qed.
Lemma calm_columns junk : forall k b i n, calm (reserve_columns junk k b i n).
Proof.
  induction k as [|k IH]; intros b i n; cbn [reserve_columns]; calm; [apply calm_set_size | apply calm_reserve_buffer | apply IH].
Qed.
Lemma calm_pointers : forall n b i, calm (buffer_pointers n b i).
Proof. induction n as [|n IH]; intros b i; cbn [buffer_pointers]; calm; [apply calm_get | apply IH]. Qed.
Lemma calm_reserve junk b n : calm (coords_reserve junk b n).
Proof.
  unfold coords_reserve. calm; first [apply calm_get | apply calm_set_size | apply calm_reserve_buffer | apply calm_columns | apply calm_pointers | discriminate].
Qed.
Lemma calm_copy_cell m s a b t c e : calm (copy_cell m s a b t c e).
Proof. unfold copy_cell, cv_cell, dload, dstore. calm. Qed.
Lemma calm_nan_cell m t c e : calm (nan_cell m t c e).
Proof. unfold nan_cell, cv_cell, dstore. calm. Qed.
Lemma calm_view_copy s sd so t td tof n m : calm (coord_view_copy s sd so t td tof n m).
Proof. unfold coord_view_copy, copy_column. calm; first [apply calm_copy_cell | apply calm_nan_cell]. Qed.
Lemma calm_append junk b src v d o n : calm (coords_append junk b src v d o n).
Proof. unfold coords_append. calm; [apply calm_reserve | apply calm_view_copy]. Qed.
Lemma calm_upd m i f : calm (upd_byte m i f). Proof. unfold upd_byte. calm. Qed.
Lemma calm_bits m s l b : calm (bits_set_to m s l b).
Proof. unfold bits_set_to, upd_bytes. calm; apply calm_upd. Qed.
Lemma calm_bitmap_reserve junk bm n : calm (bitmap_reserve junk bm n).
Proof. unfold bitmap_reserve. calm. apply calm_upd. Qed.
Lemma calm_bitmap_unsafe bm b n : calm (bitmap_append_unsafe bm b n).
Proof. unfold bitmap_append_unsafe. calm. apply calm_bits. Qed.
Lemma calm_bitmap_append junk bm b n : calm (bitmap_append junk bm b n).
Proof. unfold bitmap_append. calm; [apply calm_bitmap_reserve | apply calm_bitmap_unsafe]. Qed.

(** The same of operations on the writer. *)
Definition still (r : vres nwriter) : Prop := forall w, r <> VRet w EINVAL.
Lemma still_ok w : still (VRet w 0). Proof. intros w' E. discriminate E. Qed.
Lemma still_over w : still (VRet w EOVERFLOW). Proof. intros w' E. discriminate E. Qed.
Lemma still_ub : still VUB. Proof. intros w' E. discriminate E. Qed.
Lemma still_then m k : still m -> (forall w, still (k w)) -> still (wthen m k).
Proof.
  unfold still. destruct m as [w c|]; cbn; intros Hm Hk w'; [|discriminate]. destruct (c =? 0); [apply Hk|]. apply Hm.
Qed.
Lemma still_builder w o : calm o -> still (on_builder w o).
Proof. unfold calm, still, on_builder. destruct o; intros H w' E; try discriminate. injection E as _ ->. apply H. reflexivity. Qed.
Lemma still_validity w o : calm o -> still (on_validity w o).
Proof. unfold calm, still, on_validity. destruct o; intros H w' E; try discriminate. injection E as _ ->. apply H. reflexivity. Qed.
Lemma still_coord_offset junk w i : still (append_coord_offset junk w i).
Proof.
  unfold append_coord_offset. destruct (int32_max <? bd_size (nw_builder w)); [apply still_over|]. apply still_builder, calm_offset.
Qed.
Lemma still_count_offset junk w i : still (append_count_offset junk w i).
Proof.
  unfold append_count_offset. destruct (get_buf (nw_builder w) (i + 2)); try apply still_ub.
  cbv zeta. destruct (_ =? - 2147483648); [apply still_ub|]. apply still_builder, calm_offset.
Qed.
Lemma still_bit junk w b n : still (append_bit junk w b n).
Proof.
  unfold append_bit. destruct b.
  - destruct (has_validity w); [apply still_validity, calm_bitmap_append | apply still_ok].
  - apply still_then; [|intros ?; apply still_validity, calm_bitmap_append].
    destruct (has_validity w); [apply still_ok|]. apply still_validity. calm; [apply calm_bitmap_reserve | apply calm_bitmap_unsafe].
Qed.
Lemma still_feature_bit junk w : still (append_feature_bit junk w).
Proof. unfold append_feature_bit. destruct (offset_count w 1); try apply still_ub. apply still_bit. Qed.
Lemma still_coords junk w n cs : still (visit_coords junk w n cs).
Proof. unfold visit_coords. apply still_builder, calm_append. Qed.
Lemma still_sequence junk w l : still (end_sequence junk w l).
Proof. unfold end_sequence. destruct (0 <? size_at w (S l)); [|apply still_ok]. apply still_then; [apply still_coord_offset | intros ?; apply still_ok]. Qed.

Ltac still :=
  cbv zeta;
  repeat first
    [ match goal with
      | |- still (VRet _ 0) => apply still_ok
      | |- still VUB => apply still_ub
      | |- still (wthen _ _) => apply still_then; [|intros ?]
      | |- still (if ?b then _ else _) => destruct b
      | |- still (match ?o with Some _ => _ | None => _ end) => destruct o
      | |- still (on_builder _ _) => apply still_builder, calm_append
      end
    | apply still_coord_offset | apply still_count_offset | apply still_bit | apply still_feature_bit | apply still_coords | apply still_sequence ].

(** ** One event *)

(** What the visitors say: a text when they return EINVAL, nothing otherwise. *)
Definition native_text (g : Z) : bytes :=
  if g =? GT_POINT then $"Can't convert feature with >1 coordinate to POINT" else $"Can't convert feature with >1 sequence to LINESTRING".
Lemma native_step junk g v w e before : native_visitor junk g = Some v ->
  native_message g w e before = before /\ still (v w e) \/
  native_message g w e before = snd (error_set (native_text g)) /\ (exists w', v w e = VRet w' EINVAL) /\
    (g = GT_POINT \/ g = GT_LINESTRING \/ g = GT_MULTIPOINT).
Proof.
  unfold native_visitor, native_message, native_text. intros E.
  destruct (Z.eqb_spec g GT_POINT) as [Eg|Eg].
  { injection E as <-. destruct e; try (left; split; [reflexivity|]; cbn [point_visitor]; still). cbn [point_visitor point_message].
    destruct (Z.eqb_spec (size_at w 0) 0) as [E0|E0]; [left; split; [reflexivity|]; still|].
    destruct (Z.eqb_spec (size_at w 0) 1) as [E1|E1]; cbn [negb]; [left; split; [reflexivity|]; still|].
    right. split; [reflexivity|]. split; [eexists; reflexivity | auto]. }
  destruct ((g =? GT_MULTIPOINT) || (g =? GT_LINESTRING)) eqn:Em.
  { assert (Hg : g = GT_LINESTRING \/ g = GT_MULTIPOINT) by (apply orb_true_iff in Em; destruct Em as [Em|Em]; apply Z.eqb_eq in Em; auto).
    injection E as <-. destruct e; try (left; split; [reflexivity|]; cbn [linestring_visitor]; still). cbn [linestring_visitor linestring_message].
    destruct (Z.eqb_spec (size_at w 0) 0) as [E0|E0]; [left; split; [reflexivity|]; still|].
    destruct (Z.eqb_spec (size_at w 0) 1) as [E1|E1]; cbn [negb]; [left; split; [reflexivity|]; still|].
    right. split; [reflexivity|]. split; [eexists; reflexivity | auto]. }
  left. split; [reflexivity|].
  destruct ((g =? GT_MULTILINESTRING) || (g =? GT_POLYGON)).
  { injection E as <-. destruct e; cbn [polygon_visitor]; still. }
  destruct (g =? GT_MULTIPOLYGON); [|discriminate E]. injection E as <-. destruct e; cbn [multipolygon_visitor]; still.
Qed.

(** ** Any events *)
Lemma native_said junk g v : native_visitor junk g = Some v -> forall evs w w' c before, feed v w evs = Some (w', c) ->
  if c =? EINVAL then feed_message v (native_message g) w evs before = snd (error_set (native_text g)) /\ (g = GT_POINT \/ g = GT_LINESTRING \/ g = GT_MULTIPOINT)
  else feed_message v (native_message g) w evs before = before.
Proof.
  intros Hv. induction evs as [|e r IH]; intros w w' c before; cbn [feed feed_message].
  { intros E. injection E as <- <-. reflexivity. }
  cbv zeta. destruct (native_step junk g v w e before Hv) as [(-> & Hs)|(-> & (w1 & E1) & Hg)].
  - destruct (v w e) as [w1 c1|] eqn:E1; [|discriminate].
    destruct (Z.eqb_spec c1 0) as [->|N0]; [intros E; exact (IH _ _ _ before E)|].
    intros E. injection E as <- <-. destruct (Z.eqb_spec c1 EINVAL) as [->|_]; [|reflexivity]. destruct (Hs w1). reflexivity.
  - rewrite E1. change (EINVAL =? 0) with false. cbv iota. intros E. injection E as <- <-. split; [reflexivity | exact Hg].
Qed.

Lemma set_text text : (length text < 1024)%nat -> exists r, snd (error_set text) = text ++ [0%N] ++ r.
Proof.
  intros H. unfold error_set. cbn [snd]. rewrite firstn_all2 by lia. remember (1024 - length text)%nat as n eqn:En. destruct n as [|n]; [lia|].
  exists (repeat 0%N n). reflexivity.
Qed.
Lemma native_text_short g : (length (native_text g) < 1024)%nat.
Proof. unfold native_text. destruct (g =? GT_POINT); apply Nat.ltb_lt; vm_compute; reflexivity. Qed.

(** Whatever is fed to a visitor of the writer of native arrays. *)
Lemma native_exact junk g v evs w w' c before : native_visitor junk g = Some v -> feed v w evs = Some (w', c) ->
  (c = EINVAL -> g = GT_POINT /\ (exists r, feed_message v (native_message g) w evs before = $"Can't convert feature with >1 coordinate to POINT" ++ [0%N] ++ r) \/
    (g = GT_LINESTRING \/ g = GT_MULTIPOINT) /\
    (exists r, feed_message v (native_message g) w evs before = $"Can't convert feature with >1 sequence to LINESTRING" ++ [0%N] ++ r)) /\
  (c <> EINVAL -> feed_message v (native_message g) w evs before = before).
Proof.
  intros Hv E. pose proof (native_said junk g v Hv evs w w' c before E) as H. split; intros Hc.
  - subst c. change (EINVAL =? EINVAL) with true in H. destruct H as (-> & Hg). destruct (set_text _ (native_text_short g)) as (r & ->).
    unfold native_text. destruct Hg as [->|[->| ->]]; [left|right|right]; (split; [auto|]; exists r; reflexivity).
  - destruct (Z.eqb_spec c EINVAL); [contradiction | exact H].
Qed.

(** ** Features *)
Section Refused.
  Context (junk : nat -> nat -> N) (junk_bytes : forall i j, is_byte (junk i j)).
  Context (k : geometry_kind) (l : layout) (d : dim) (not_box : k <> KBox).

  Lemma refused_said v w gs els evs g e before : native_visitor junk (geometry_kind_code k) = Some v -> writer_init junk (make_type (geometry_kind_code k) (dim_code d) (layout_code l)) = Ok w ->
    features_events gs evs -> visited_as k d gs els -> Forall (feature_for k) gs -> has_room k d gs ->
    deliverable k g -> wf_geom g -> feature_events (Some g) e -> visited k d g = None ->
    (k = KPoint \/ Z.of_nat (length (feature_coords d (gs ++ [Some g]))) <= 2147483647) ->
    k <> KMultipoint ->
    exists w' text r, feed v w (evs ++ e) = Some (w', EINVAL) /\
      feed_message v (native_message (geometry_kind_code k)) w (evs ++ e) before = text ++ [0%N] ++ r /\ feature_complaint k d g text.
  Proof.
    intros Hv H2 H3 H4 H5 H6 H7 H8 H9 Hn Hr Hm. destruct (visit_refused junk junk_bytes k l d not_box v w gs els evs g e Hv H2 H3 H4 H5 H6 H7 H8 H9 Hn Hr) as (w' & E).
    exists w'. destruct (proj1 (native_exact junk _ v _ _ _ _ before Hv E) eq_refl) as [(Hg & r & ->)|(Hg & r & ->)]; eexists; exists r; (split; [exact E|]); (split; [reflexivity|]).
    - assert (k = KPoint) as -> by (destruct k; try reflexivity; discriminate Hg). apply many_coordinates; [reflexivity|].
      cbn in Hn. destruct (all_coords d g) as [|c [|c' cs]]; try discriminate. cbn. lia.
    - assert (k = KLinestring) as -> by (destruct k; try reflexivity; try contradiction; destruct Hg as [Hg|Hg]; discriminate Hg). apply many_sequences; [reflexivity|].
      cbn in Hn. destruct (sequences d g) as [|c [|c' cs]]; try discriminate. cbn. lia.
  Qed.

  Lemma multipoint_said v w gs els evs g e before : k = KMultipoint -> native_visitor junk (geometry_kind_code k) = Some v -> writer_init junk (make_type (geometry_kind_code k) (dim_code d) (layout_code l)) = Ok w ->
    features_events gs evs -> visited_as k d gs els -> Forall (feature_for k) gs -> has_room k d gs ->
    deliverable k g -> wf_geom g -> feature_events (Some g) e -> visited k d g = None ->
    Z.of_nat (length (feature_coords d (gs ++ [Some g]))) <= 2147483647 ->
    exists w' r, feed v w (evs ++ e) = Some (w', EINVAL) /\
      feed_message v (native_message (geometry_kind_code k)) w (evs ++ e) before = $"Can't convert feature with >1 sequence to LINESTRING" ++ [0%N] ++ r.
  Proof.
    intros Hk Hv H2 H3 H4 H5 H6 H7 H8 H9 Hn Hr. destruct (visit_refused junk junk_bytes k l d not_box v w gs els evs g e Hv H2 H3 H4 H5 H6 H7 H8 H9 Hn (or_intror Hr)) as (w' & E).
    exists w'. destruct (proj1 (native_exact junk _ v _ _ _ _ before Hv E) eq_refl) as [(Hg & _)|(_ & r & Er)]; [rewrite Hk in Hg; discriminate Hg|].
    exists r. split; [exact E | exact Er].
  Qed.
End Refused.

(** ** The WKT writer *)
Lemma wkt_step_said print cfg s e before s' c : wkt_step print cfg s e = VRet s' c ->
  wkt_message s e before = before \/
  exists t d text, e = EGeomStart t d /\ c = EINVAL /\ start_of_geometry t d text /\ (length text < 1024)%nat /\ wkt_message s e before = snd (error_set text).
Proof.
  destruct e as [| |t d| | | | |]; try (left; reflexivity). cbn [wkt_message wkt_step]. unfold geom_start_wkt. cbv zeta. set (s1 := kset_level s (k_level s + 1)).
  destruct (wkt_check_level s1); cbn [negb]; [|left; reflexivity].
  assert (H : forall (s2 : kst) (tagged : bool), (if tagged then
      if ((t <? 1) || (7 <? t))%N then VRet s2 EINVAL
      else match dimensions_tag d with None => VRet (kwrite s2 (geometry_type_string t)) EINVAL
           | Some tag => open_level (kwrite (kwrite (kwrite s2 (geometry_type_string t)) tag) $" ") t end
      else open_level s2 t) = VRet s' c ->
    let m := if tagged then
          if ((t <? 1) || (7 <? t))%N then snd (error_set $"WKTWriter::geom_start(): Unexpected `geometry_type`")
          else match dimensions_tag d with
               | None => snd (error_set $"WKTWriter::geom_start(): Unexpected `dimensions`")
               | Some _ => before
               end
        else before in
    m = before \/ exists t0 d0 text, EGeomStart t d = EGeomStart t0 d0 /\ c = EINVAL /\ start_of_geometry t0 d0 text /\ (length text < 1024)%nat /\ m = snd (error_set text)).
  { intros s2 [|]; [|left; reflexivity]. destruct ((t <? 1) || (7 <? t))%N eqn:Et.
    - intros E. injection E as _ <-. right. exists t, d. eexists. split; [reflexivity|]. split; [reflexivity|].
      split; [apply no_type; apply orb_true_iff in Et; destruct Et as [Et|Et]; apply N.ltb_lt in Et; auto|].
      split; [apply Nat.ltb_lt; vm_compute; reflexivity | reflexivity].
    - destruct (dimensions_tag d) eqn:Ed; [left; reflexivity|]. intros E. injection E as _ <-. right. exists t, d. eexists. split; [reflexivity|]. split; [reflexivity|].
      split; [apply no_dimensions | split; [apply Nat.ltb_lt; vm_compute; reflexivity | reflexivity]].
      destruct (N.ltb_spec d 1); [auto|]. destruct (N.ltb_spec 4 d); [auto|]. assert (d = 1 \/ d = 2 \/ d = 3 \/ d = 4)%N as [->|[->|[->| ->]]] by lia; discriminate Ed. }
  destruct (0 <? k_level s1); [destruct (aget (k_i s1) (k_level s1 - 1)) as [x|]; [|discriminate]; destruct (0 <? x)|];
    (destruct (k_level s1 =? 0); [exact (H _ true)|]; cbn [vor_ub kwrite kset_values k_gt];
     destruct (aget (k_gt s1) (k_level s1 - 1)) as [p|]; [exact (H _ (p =? 7)%N) | discriminate]).
Qed.

Lemma wkt_said print cfg : forall evs s s' c before, feed (wkt_step print cfg) s evs = Some (s', c) ->
  feed_message (wkt_step print cfg) wkt_message s evs before = before \/
  exists evs1 s1 t d evs2 text r, evs = evs1 ++ EGeomStart t d :: evs2 /\ feed (wkt_step print cfg) s evs1 = Some (s1, 0) /\ c = EINVAL /\
    start_of_geometry t d text /\ feed_message (wkt_step print cfg) wkt_message s evs before = text ++ [0%N] ++ r.
Proof.
  induction evs as [|e evs IH]; intros s s' c before; cbn [feed feed_message]; [left; reflexivity|]. cbv zeta.
  destruct (wkt_step print cfg s e) as [s1 c1|] eqn:E1; [|discriminate].
  destruct (wkt_step_said print cfg s e before s1 c1 E1) as [->|(t & d & text & -> & -> & Hc & Hl & ->)].
  - destruct (c1 =? 0) eqn:E0; [|left; reflexivity]. intros E.
    destruct (IH _ _ _ before E) as [->|(evs1 & s2 & t & d & evs2 & text & r & -> & Hf & Hc)]; [left; reflexivity|].
    right. exists (e :: evs1), s2, t, d, evs2, text, r. split; [reflexivity|]. split; [cbn [feed]; rewrite E1, E0; exact Hf | exact Hc].
  - change (EINVAL =? 0) with false. cbv iota. intros E. injection E as _ <-. right. destruct (set_text text Hl) as (r & ->).
    exists [], s, t, d, evs, text, r. repeat split. exact Hc.
Qed.

Lemma no_tag d : (d < 1 \/ 4 < d)%N -> dimensions_tag d = None.
Proof. intros H. destruct d as [|p]; [reflexivity|]. do 3 (destruct p as [p|p|]; try reflexivity; try lia). Qed.
Lemma wkt_top print cfg s t d before : b_size (k_values s) <= 2147483647 -> (t < 1 \/ 7 < t)%N \/ (d < 1 \/ 4 < d)%N ->
  exists s' text r, feed (wkt_step print cfg) s [EFeatStart; EGeomStart t d] = Some (s', EINVAL) /\
    feed_message (wkt_step print cfg) wkt_message s [EFeatStart; EGeomStart t d] before = text ++ [0%N] ++ r /\ start_of_geometry t d text.
Proof.
  intros Hs Hb.
  assert (E : exists s1, wkt_step print cfg s EFeatStart = VRet s1 0 /\ k_level s1 = -1).
  { cbn [wkt_step]. unfold feat_start_wkt. cbn [k_values kset_feat kset_book kset_level]. destruct (Z.ltb_spec 2147483647 (b_size (k_values s))); [lia|].
    eexists. split; reflexivity. }
  destruct E as (s1 & E1 & El).
  assert (E2 : exists s2, wkt_step print cfg s1 (EGeomStart t d) = VRet s2 EINVAL).
  { cbn [wkt_step]. unfold geom_start_wkt, wkt_check_level. cbn [kset_level k_level]. rewrite El. cbn [Z.add Z.pos_sub Z.leb Z.compare andb negb Z.ltb Z.eqb vor_ub].
    destruct ((t <? 1) || (7 <? t))%N eqn:Et; [eexists; reflexivity|]. apply orb_false_iff in Et. destruct Et as [T1 T2]. apply N.ltb_ge in T1, T2.
    destruct Hb as [Hb|Hb]; [lia|]. rewrite (no_tag d Hb). eexists; reflexivity. }
  destruct E2 as (s2 & E2). exists s2.
  assert (F : feed (wkt_step print cfg) s [EFeatStart; EGeomStart t d] = Some (s2, EINVAL)) by (cbn [feed]; rewrite E1; cbn [Z.eqb]; rewrite E2; reflexivity).
  assert (M : feed_message (wkt_step print cfg) wkt_message s [EFeatStart; EGeomStart t d] before = wkt_message s1 (EGeomStart t d) before)
    by (cbn [feed_message wkt_message]; rewrite E1; cbn [Z.eqb]; rewrite E2; reflexivity).
  rewrite M. clear M. cbn [wkt_message]. unfold wkt_check_level. cbn [kset_level k_level]. rewrite El. cbn [Z.add Z.pos_sub Z.leb Z.compare andb negb Z.ltb Z.eqb].
  destruct ((t <? 1) || (7 <? t))%N eqn:Et.
  - destruct (set_text $"WKTWriter::geom_start(): Unexpected `geometry_type`") as (r & ->); [apply Nat.ltb_lt; vm_compute; reflexivity|].
    eexists; exists r. split; [exact F|]. split; [reflexivity|]. apply no_type. apply orb_true_iff in Et. destruct Et as [Et|Et]; apply N.ltb_lt in Et; auto.
  - apply orb_false_iff in Et. destruct Et as [T1 T2]. apply N.ltb_ge in T1, T2. destruct Hb as [Hb|Hb]; [lia|].
    rewrite (no_tag d Hb).
    destruct (set_text $"WKTWriter::geom_start(): Unexpected `dimensions`") as (r & ->); [apply Nat.ltb_lt; vm_compute; reflexivity|].
    eexists; exists r. split; [exact F|]. split; [reflexivity|]. apply no_dimensions. exact Hb.
Qed.
