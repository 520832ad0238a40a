From Verif Require Import Base BaseFacts TypesModel GeomSpec GeomFacts VisitorModel VisitorSpec VisitorFacts BufferModel ArrowModel BitmapModel
  BitmapSpec BitmapProofs ArrayViewModel NativeSpec NativeProofs NativeVisitProofs WkbSpec WktGrammar WktReaderModel WktReaderSafety WktReaderProofs WktReaderGeoms GeomVisitModel
  GeomVisitSafety GeomVisitProofs ArrayReaderModel SerialSpec.
Local Open Scope Z_scope.

Lemma Forall2_nth_error_r {A B} (R : A -> B -> Prop) xs ys i y : Forall2 R xs ys -> nth_error ys i = Some y ->
  exists x, nth_error xs i = Some x /\ R x y.
Proof.
  intros H; revert i; induction H as [|a b xs ys Hab H IH]; intros [|i] Hi; cbn in Hi; try discriminate.
  - injection Hi as <-. exists a. split; [reflexivity|exact Hab].
  - apply IH. exact Hi.
Qed.
Lemma skipn_at {A} (l : list A) i x : nth_error l i = Some x -> skipn i l = x :: skipn (S i) l.
Proof.
  revert i; induction l as [|y l IH]; intros [|i] H; cbn in H; try discriminate.
  - injection H as ->. reflexivity.
  - cbn [skipn]. rewrite (IH i H). reflexivity.
Qed.

(** ** Histories *)
Lemma set_coord_type v a lvl v' : set_coord_array v a lvl = Ok v' -> av_type v' = av_type v.
Proof.
  unfold set_coord_array. destruct (coord_count v a lvl); cbn [obind]; try discriminate.
  destruct (av_ctype v =? CT_SEPARATE).
  - destruct (negb _); [discriminate|]. destruct (child_values _ _); cbn [obind]; try discriminate. intros [= <-]. reflexivity.
  - destruct (av_ctype v =? CT_INTERLEAVED); [|discriminate]. destruct (aa_children a) as [|ch [|]]; try discriminate.
    destruct (negb _); [discriminate|]. destruct (or_ub _); cbn [obind]; try discriminate. intros [= <-]. reflexivity.
Qed.

Lemma set_internal_type : forall a v lvl v', set_array_internal v a lvl = Ok v' -> av_type v' = av_type v.
Proof.
  fix IH 1. intros [n off nc bufs children] v lvl v'. cbn [set_array_internal].
  destruct (Z.of_nat lvl =? _).
  { intros H. apply set_coord_type in H. exact H. }
  destruct (negb _); [discriminate|]. destruct children as [|child [|]]; try discriminate.
  destruct (0 <? n).
  - destruct (or_ub _); cbn [obind]; try discriminate.
    destruct (load_int32 _ off); cbn [obind]; try discriminate.
    destruct (load_int32 _ (off + n)); cbn [obind]; try discriminate.
    intros H. apply IH in H. exact H.
  - cbn [obind]. intros H. apply IH in H. exact H.
Qed.

Lemma set_array_type v a v' : set_array v a = Ok v' -> av_type v' = av_type v.
Proof.
  unfold set_array. intros H.
  match type of H with obind ?m _ = _ => destruct m as [v1| | |] eqn:E; cbn [obind] in H; try discriminate end.
  destruct (or_ub _); cbn [obind] in H; try discriminate. injection H as <-.
  change (av_type v1 = av_type v).
  destruct (_ || _) in E.
  - unfold set_array_serialized in E. destruct (or_ub _) in E; cbn [obind] in E; try discriminate.
    destruct (or_ub _) in E; cbn [obind] in E; try discriminate. injection E as <-. reflexivity.
  - destruct (_ || _) in E.
    + unfold set_array_box in E. destruct (negb _) in E; [discriminate|]. destruct (child_values _ _) in E; cbn [obind] in E; try discriminate.
      injection E as <-. reflexivity.
    + apply set_internal_type in E. exact E.
Qed.

Lemma view_type t v : view_history t v -> av_type v = t.
Proof.
  induction 1 as [v H|v a v' Hv IH H].
  - unfold array_view_init in H. destruct (_ && _) in H; [discriminate|]. injection H as <-. reflexivity.
  - rewrite <- IH. eapply set_array_type; eassumption.
Qed.

Lemma bview_storage v a v' : bview_set_array v a = Ok v' -> bv_storage v' = bv_storage v.
Proof.
  unfold bview_set_array, bview_point. intros H.
  destruct (or_ub _) in H; cbn [obind] in H; try discriminate.
  destruct (or_ub _) in H; cbn [obind] in H; try discriminate.
  destruct (bv_storage v).
  - destruct (or_ub _) in H; cbn [obind] in H; try discriminate.
    destruct (reject _) in H; cbn [obind] in H; try discriminate.
    destruct (reject _) in H; cbn [obind] in H; try discriminate.
    destruct (bview_default _ _) in H; cbn [obind] in H; try discriminate. injection H as <-. reflexivity.
  - destruct (reject _) in H; cbn [obind] in H; try discriminate.
    destruct (bview_default _ _) in H; cbn [obind] in H; try discriminate. injection H as <-. reflexivity.
Qed.

Lemma reader_shape t r : reader_history t r ->
  rd_type r = t /\
  match arrow_storage t with
  | Some s => exists v, rd_src r = SrcArrow v /\ bv_storage v = s
  | None => exists v, rd_src r = SrcGeoarrow v /\ view_history t v
  end.
Proof.
  induction 1 as [r H|r a r' Hr (Ht & IH) H].
  - unfold reader_init in H. destruct (arrow_storage t).
    + injection H as <-. split; [reflexivity|]. eexists; split; reflexivity.
    + destruct (array_view_init t) eqn:E; cbn [obind] in H; try discriminate. injection H as <-. split; [reflexivity|].
      eexists; split; [reflexivity|]. constructor; exact E.
  - unfold reader_set_array in H. destruct (arrow_storage t).
    + destruct IH as (v & E & Hs). rewrite E in H. destruct (bview_set_array v a) eqn:Ev; cbn [obind] in H; try discriminate.
      injection H as <-. split; [exact Ht|]. eexists; split; [reflexivity|]. rewrite <- Hs. eapply bview_storage; eassumption.
    + destruct IH as (v & E & Hs). rewrite E in H. destruct (set_array v a) eqn:Ev; cbn [obind] in H; try discriminate.
      injection H as <-. split; [exact Ht|]. eexists; split; [reflexivity|]. econstructor; eassumption.
Qed.

(** ** The loop over the items *)
Lemma visit_items_ok (R : geom -> bytes -> Prop) valid item read els fs o n :
  Forall2 (denotes_feature R) els fs -> (o + n <= length fs)%nat ->
  (forall i b, nth_error els (o + i) = Some (Some b) -> valid (Z.of_nat i) = Ok true /\ item (Z.of_nat i) = Ok b) ->
  (forall i, nth_error els (o + i) = Some None -> valid (Z.of_nat i) = Ok false) ->
  (forall i g b, R g b -> exists evs, trace (read i b) = ([EFeatStart] ++ evs ++ [EFeatEnd], Ok tt) /\ geom_events g evs) ->
  exists evs, trace (visit_items valid item read (Z.of_nat n)) = (evs, Ok tt) /\ features_events (window fs o n) evs.
Proof.
  intros Hels Hlen Hv Hn Hread. unfold visit_items, window. rewrite Nat2Z.id.
  assert (forall k j, (j + k = n)%nat -> exists evs,
    trace (for_each k (Z.of_nat j) (fun i => let! is_valid := Ret (valid i) in
       if is_valid : bool then let! b := Ret (item i) in read i b
       else run! emit EFeatStart in run! emit ENullFeat in emit EFeatEnd)) = (evs, Ok tt) /\
    features_events (firstn k (skipn (o + j) fs)) evs) as Hk.
  { induction k as [|k IH]; intros j Hj.
    - exists []. split; [reflexivity|]. constructor.
    - destruct (IH (S j) ltac:(lia)) as (evs2 & H2 & Hf2).
      assert (exists f, nth_error fs (o + j) = Some f) as (f & Hf).
      { destruct (nth_error fs (o + j)) eqn:E; [eauto|]. apply nth_error_None in E. lia. }
      destruct (Forall2_nth_error_r _ _ _ _ _ Hels Hf) as (e & He & Hd).
      assert (skipn (o + j) fs = f :: skipn (o + S j) fs) as ->.
      { rewrite (skipn_at _ _ _ Hf). do 2 f_equal. lia. }
      cbn [firstn for_each].
      assert (exists evs1, trace (let! is_valid := Ret (valid (Z.of_nat j)) in
         if is_valid : bool then let! b := Ret (item (Z.of_nat j)) in read (Z.of_nat j) b
         else run! emit EFeatStart in run! emit ENullFeat in emit EFeatEnd) = (evs1, Ok tt) /\ feature_events f evs1) as (evs1 & H1 & Hf1).
      { destruct e as [b|], f as [g|]; try contradiction.
        - destruct (Hv j b He) as (-> & Hi). destruct (Hread (Z.of_nat j) g b Hd) as (evs1 & Ht & Hg).
          cbn [pbind]. rewrite Hi. cbn [pbind]. eexists; split; [exact Ht|]. constructor; exact Hg.
        - rewrite (Hn j He). eexists; split; [reflexivity|]. constructor. }
      exists (evs1 ++ evs2). split; [|constructor; assumption].
      eapply trace_bind_ok; [exact H1|]. rewrite Z.add_1_r, <- Nat2Z.inj_succ. exact H2. }
  destruct (Hk n 0%nat ltac:(lia)) as (evs & H1 & H2). rewrite Nat.add_0_r in H2. eauto.
Qed.

(** ** Arrays with 32-bit offsets *)
Lemma valid_bit_iff p a b0 i : nth_error (aa_buffers a) 0 = Some b0 ->
  match rptr_of b0 with RNull => Ok true | RPtr b _ => bit_get b (aa_offset a + i) end = p ->
  forall v, valid_at a i = Some v -> p = Ok v.
Proof.
  intros H0 <- v. unfold valid_at. rewrite H0. destruct b0 as [b|]; cbn [rptr_of].
  - intros H. rewrite bit_get_iff, H. reflexivity.
  - intros [= <-]. reflexivity.
Qed.

Lemma item_ok data from x : buffer_has data from x -> item_bytes (rptr_of data) from (Z.of_nat (length x)) = Ok x.
Proof.
  unfold item_bytes, buffer_has. destruct (Z.ltb_spec (Z.of_nat (length x)) 0); [lia|]. destruct data as [b|]; cbn [rptr_of].
  - intros H1. rewrite Z.add_0_l, Nat2Z.id, H1. reflexivity.
  - intros ->. reflexivity.
Qed.

Lemma window_bound {A} (els : list A) o i e : nth_error els (o + i) = Some e -> (o + i < length els)%nat.
Proof. intros H. apply nth_error_Some. congruence. Qed.

Section Visit.
  Variable R : geom -> bytes -> Prop.
  Variable read : Z -> bytes -> prog unit.
  Hypothesis read_ok : forall i g b, R g b -> exists evs, trace (read i b) = ([EFeatStart] ++ evs ++ [EFeatEnd], Ok tt) /\ geom_events g evs.

  Lemma serialized_ok t v a els fs : t = TYPE_WKT \/ t = TYPE_WKB -> av_type v = t ->
    serial_ok Offsets32 a -> serial_contents Offsets32 a els -> Forall2 (denotes_feature R) els fs ->
    exists v', set_array v a = Ok v' /\
      forall o n, (o + n <= length fs)%nat ->
        exists evs, trace (visit_serialized read v' (Z.of_nat o) (Z.of_nat n)) = (evs, Ok tt) /\ features_events (window fs o n) evs.
  Proof.
    intros Ht Hv (Hoff & Hlen & Hmax & Hch & b0 & b1 & rest & Hb & Hnull & Hwf & Hrest) (Hl & Hels) Hfs.
    destruct rest as [|b2 [|]]; try discriminate Hrest. clear Hrest.
    unfold set_array. rewrite Hv. assert ((t =? TYPE_WKT) || (t =? TYPE_WKB) = true) as -> by (destruct Ht as [->| ->]; reflexivity).
    unfold set_array_serialized. rewrite Hb. cbn [nth_error or_ub obind].
    eexists; split; [reflexivity|]. intros o n Hon. unfold visit_serialized. cbn [av_offset with_validity with_data with_offsets with_level qset q0].
    eapply visit_items_ok; [exact Hfs|exact Hon| | |exact read_ok].
    - intros i b Hi. destruct (Hels _ _ Hi) as (Hval & Hby). split.
      + eapply valid_bit_iff; [rewrite Hb; reflexivity| |exact Hval]. unfold is_valid_bit. cbn [av_validity with_validity].
        destruct b0; [|reflexivity]. cbn [rptr_of]. f_equal. lia.
      + destruct Hby as (offs & Hs & data & from & Hd & Hhas & Ho1 & Ho2). unfold second_buffer in Hs. rewrite Hb in Hs, Hd.
        cbn [nth_error] in Hs, Hd. destruct b1 as [b1|]; [|discriminate]. injection Hs as ->. injection Hd as ->.
        unfold offsets_at. cbn [av_offsets with_validity with_data with_offsets with_level qset qget q0 or_ub obind rptr_of].
        replace (aa_offset a + Z.of_nat o + Z.of_nat i) with (aa_offset a + Z.of_nat (o + i)) by lia.
        rewrite (load_int32_ok _ _ _ Hwf Ho1), (load_int32_ok _ _ _ Hwf Ho2). cbn [obind av_data with_validity with_data].
        replace (from + Z.of_nat (length b) - from) with (Z.of_nat (length b)) by lia. apply item_ok. exact Hhas.
    - intros i Hi. pose proof (Hels _ _ Hi) as Hval. cbn beta iota in Hval.
      eapply valid_bit_iff; [rewrite Hb; reflexivity| |exact Hval]. unfold is_valid_bit. cbn [av_validity with_validity].
      destruct b0; [|reflexivity]. cbn [rptr_of]. f_equal. lia.
  Qed.

  Lemma load_int64_ok b i z : int64_at b i = Some z -> load_int64 (RPtr b 0) i = Ok z.
  Proof.
    unfold int64_at, load_int64. rewrite Z.add_0_l. destruct (slice b (8 * i) 8); [|discriminate]. cbn [option_map or_ub obind].
    intros [= <-]. reflexivity.
  Qed.

  Lemma arrow_ok lay v a els fs : match lay with Offsets32 => False | Offsets64 => bv_storage v = SLarge | Views => bv_storage v = SView end ->
    serial_ok lay a -> serial_contents lay a els -> Forall2 (denotes_feature R) els fs ->
    exists v', bview_set_array v a = Ok v' /\
      forall o n, (o + n <= length fs)%nat ->
        exists evs, trace (visit_arrow read v' (Z.of_nat o) (Z.of_nat n)) = (evs, Ok tt) /\ features_events (window fs o n) evs.
  Proof.
    intros Hs (Hoff & Hlen & Hmax & Hch & b0 & b1 & rest & Hb & Hnull & Hwf & Hrest) (Hl & Hels) Hfs.
    assert (forall v', bv_validity v' = rptr_of b0 -> bv_buffer1 v' = rptr_of b1 -> bview_minimal v' a = Ok tt) as Hmin.
    { intros v' E0 E1. unfold bview_minimal. rewrite E0, E1.
      destruct (Z.ltb_spec (aa_length a) 0); [lia|]. destruct (Z.ltb_spec (aa_offset a) 0); [lia|].
      destruct (Z.leb_spec (2 ^ 63) (aa_offset a + aa_length a)); [lia|]. cbn [reject obind].
      destruct b0 as [b0|]; [|rewrite (Hnull eq_refl)]; cbn [rptr_of is_null andb Z.eqb negb reject obind];
      (destruct b1 as [b1|]; [|rewrite Hwf]; reflexivity). }
    assert (forall v', bv_validity v' = rptr_of b0 -> bv_offset v' = aa_offset a -> forall o i e, nth_error els (o + i) = Some e ->
      bview_valid v' (Z.of_nat o + Z.of_nat i) = Ok (match e with Some _ => true | None => false end)) as Hval.
    { intros v' E0 Eo o i e Hi. eapply valid_bit_iff; [rewrite Hb; reflexivity| |].
      - unfold bview_valid. rewrite E0, Eo. destruct b0; [|reflexivity]. cbn [rptr_of]. f_equal.
        instantiate (1 := Z.of_nat (o + i)). lia.
      - specialize (Hels _ _ Hi). destruct e; [apply Hels|exact Hels]. }
    destruct lay; [contradiction| |].
    - destruct Hrest as (data & -> & Ho). unfold bview_set_array, bview_point. rewrite Hb, Hs, Hch. cbn [nth_error or_ub obind length].
      change (Z.of_nat 3 =? 3) with true. change (Z.of_nat 0 =? 0) with true. cbn [negb reject obind].
      unfold bview_default. rewrite Hmin by reflexivity. cbn [obind bv_storage bv_buffer1 bv_buffer2].
      assert (exists v', (check (if is_null (rptr_of b1) || (aa_offset a + aa_length a =? 0) then Ok tt
          else do first <- load_int64 (rptr_of b1) (aa_offset a); check reject (first <? 0);
               do last <- load_int64 (rptr_of b1) (aa_offset a + aa_length a); check reject (last <? 0);
               reject (is_null (rptr_of data) && (0 <? last)));
          Ok {| bv_storage := SLarge; bv_offset := aa_offset a; bv_validity := rptr_of b0; bv_buffer1 := rptr_of b1;
                bv_buffer2 := rptr_of data; bv_variadic := [] |}) = Ok v' /\
          v' = {| bv_storage := SLarge; bv_offset := aa_offset a; bv_validity := rptr_of b0; bv_buffer1 := rptr_of b1;
                bv_buffer2 := rptr_of data; bv_variadic := [] |}) as (v' & -> & Ev).
      { eexists; split; [|reflexivity]. destruct b1 as [b1|]; [|reflexivity]. cbn [rptr_of is_null orb].
        destruct (Z.eqb_spec (aa_offset a + aa_length a) 0); [reflexivity|].
        destruct (Ho b1 0 eq_refl ltac:(lia) ltac:(lia)) as (x & E1 & Hx & _). rewrite Z.add_0_r in E1.
        destruct (Ho b1 (aa_length a) eq_refl ltac:(lia) ltac:(lia)) as (y & E2 & Hy & Hh).
        rewrite (load_int64_ok _ _ _ E1), (load_int64_ok _ _ _ E2). cbn [obind].
        destruct (Z.ltb_spec x 0); [lia|]. destruct (Z.ltb_spec y 0); [lia|]. cbn [reject obind].
        destruct data; cbn [rptr_of is_null andb reject obind]; [reflexivity|]. cbn [buffer_holds] in Hh.
        destruct (Z.ltb_spec 0 y); [lia|]. reflexivity. }
      eexists; split; [reflexivity|]. subst v'. intros o n Hon. unfold visit_arrow.
      eapply visit_items_ok; [exact Hfs|exact Hon| | |exact read_ok].
      + intros i b Hi. split; [erewrite Hval; [|reflexivity|reflexivity|exact Hi]; reflexivity|].
        destruct (Hels _ _ Hi) as (_ & offs & Hs2 & data' & from & Hd & Hhas & Ho1 & Ho2). unfold second_buffer in Hs2. rewrite Hb in Hs2, Hd.
        cbn [nth_error] in Hs2, Hd. destruct b1 as [b1|]; [|discriminate]. injection Hs2 as ->. injection Hd as ->.
        unfold bview_item. cbn [bv_storage bv_buffer1 bv_buffer2 bv_offset rptr_of].
        replace (Z.of_nat o + Z.of_nat i + aa_offset a) with (aa_offset a + Z.of_nat (o + i)) by lia.
        rewrite (load_int64_ok _ _ _ Ho1), (load_int64_ok _ _ _ Ho2). cbn [obind].
        replace (from + Z.of_nat (length b) - from) with (Z.of_nat (length b)) by lia. apply item_ok. exact Hhas.
      + intros i Hi. erewrite Hval; [|reflexivity|reflexivity|exact Hi]; reflexivity.
    - unfold bview_set_array, bview_point. rewrite Hb, Hs, Hch. cbn [nth_error or_ub obind length skipn].
      change (Z.of_nat 0 =? 0) with true. cbn [negb reject obind].
      unfold bview_default. rewrite Hmin by reflexivity. cbn [obind bv_storage bv_buffer1 bv_buffer2].
      eexists; split; [reflexivity|]. intros o n Hon. unfold visit_arrow.
      eapply visit_items_ok; [exact Hfs|exact Hon| | |exact read_ok].
      + intros i b Hi. split; [erewrite Hval; [|reflexivity|reflexivity|exact Hi]; reflexivity|].
        destruct (Hels _ _ Hi) as (_ & views & Hs2 & Hsize & Hby). unfold second_buffer in Hs2. rewrite Hb in Hs2.
        cbn [nth_error] in Hs2. destruct b1 as [b1|]; [|discriminate]. injection Hs2 as ->.
        unfold bview_item. cbn [bv_storage bv_buffer1 bv_buffer2 bv_offset rptr_of bv_variadic].
        replace (Z.of_nat o + Z.of_nat i + aa_offset a) with (aa_offset a + Z.of_nat (o + i)) by lia.
        rewrite (load_int32_ok _ _ _ Hwf Hsize). cbn [obind].
        destruct (Z.of_nat (length b) <=? 12) eqn:E12.
        * apply (item_ok (Some views)). exact Hby.
        * destruct Hby as (k & data & from & Hk & Hhas & Hi1 & Hi2).
          rewrite (load_int32_ok _ _ _ Hwf Hi1), (load_int32_ok _ _ _ Hwf Hi2). cbn [obind].
          destruct (Z.ltb_spec (Z.of_nat k) 0); [lia|]. rewrite Nat2Z.id. rewrite Hb in Hk. cbn [Nat.add nth_error] in Hk. rewrite Hk.
          cbn [or_ub obind]. apply item_ok. exact Hhas.
      + intros i Hi. erewrite Hval; [|reflexivity|reflexivity|exact Hi]; reflexivity.
  Qed.
End Visit.

(** ** Reading *)
Lemma read_wkb_ok st i g b : wkb_element g b ->
  exists evs, trace (read_wkb st i b) = ([EFeatStart] ++ evs ++ [EFeatEnd], Ok tt) /\ geom_events g evs.
Proof.
  intros (Hw & Hwf & Hl & Hs). destruct (wkb_visit_ok g b [] (st i) Hw Hwf Hl Hs) as (evs & Ht & Hg & _).
  rewrite app_nil_r in Ht. eauto.
Qed.
Lemma read_wkt_ok parse st i g b : number_parser parse -> wkt_element parse g b ->
  exists evs, trace (read_wkt parse st i b) = ([EFeatStart] ++ evs ++ [EFeatEnd], Ok tt) /\ geom_events g evs.
Proof.
  intros Hp Hw. destruct (wkt_visit_complete parse Hp g b (st i) Hw) as (evs & Ht & Hg & _). eauto.
Qed.

Lemma native_arrow k l d : arrow_storage (make_type (geometry_kind_code k) (dim_code d) (layout_code l)) = None /\
  (make_type (geometry_kind_code k) (dim_code d) (layout_code l) =? TYPE_WKT) = false /\
  (make_type (geometry_kind_code k) (dim_code d) (layout_code l) =? TYPE_WKB) = false.
Proof. destruct k, d, l; repeat split; reflexivity. Qed.

Lemma canon_features_ok fs : features_events fs (flat_map canon_feature fs).
Proof.
  induction fs as [|f fs IH]; cbn [flat_map]; constructor; [|exact IH].
  destruct f; cbn [canon_feature]; [|constructor]. apply (fe_geom g (canon_events g)). apply canon_events_ok.
Qed.

Lemma reader_ok parse t a fs r : number_parser parse -> features_array parse t a fs -> reader_history t r ->
  exists r', reader_set_array r a = Ok r' /\ aa_length a = Z.of_nat (length fs) /\
    forall st sw o n, (o + n <= length fs)%nat ->
      exists evs, trace (reader_visit parse st sw r' (Z.of_nat o) (Z.of_nat n)) = (evs, Ok tt) /\ features_events (window fs o n) evs.
Proof.
  intros Hp Ha Hr. apply reader_shape in Hr. destruct Hr as (Ht & Hs).
  assert (forall (p : prog unit) o n, (exists evs, trace p = (evs, Ok tt) /\ features_events (window fs o n) evs) ->
     exists evs, trace (if Z.of_nat n =? 0 then Ret (Ok tt) else p) = (evs, Ok tt) /\ features_events (window fs o n) evs) as Hz.
  { intros p o [|n] H; [exists []; split; [reflexivity|constructor]|exact H]. }
  pose (s0 := {| r_before := []; r_rest := []; r_size := 0; r_nvals := 0%N; r_cache := None |}).
  destruct Ha as [k l d a fs Hsup Hbox Hok Hc|lay a els fs Hok Hc Hels|lay a els fs Hok Hc Hels].
  - destruct (native_arrow k l d) as (Hn1 & Hn2 & Hn3). rewrite Hn1 in Hs. destruct Hs as (v & Hv & Hh).
    destruct (native_visit_ok k l d v a fs Hsup Hh Hok Hc Hbox) as (v' & Hset & Hvis).
    unfold reader_set_array. rewrite Hv, Hset. cbn [obind]. eexists; split; [reflexivity|]. split; [apply Hc|].
    intros st sw o n Hon. unfold reader_visit. cbn [rd_type rd_src]. rewrite Ht, Hn2, Hn3. apply Hz.
    eexists; split; [apply Hvis; exact Hon|apply canon_features_ok].
  - assert (aa_length a = Z.of_nat (length fs)) as Hlen by (rewrite (proj1 Hc), (Forall2_length _ _ _ Hels); reflexivity).
    destruct lay; [set (x := arrow_storage _) in Hs; change x with (@None bstorage) in Hs
                  |set (x := arrow_storage _) in Hs; change x with (Some SLarge) in Hs
                  |set (x := arrow_storage _) in Hs; change x with (Some SView) in Hs];
      clear x; destruct Hs as (v & Hv & Hh); unfold reader_set_array; rewrite Hv.
    + pose proof (fun read H => serialized_ok wkb_element read H TYPE_WKB v a els fs (or_intror eq_refl) (view_type _ _ Hh) Hok Hc Hels) as Hser.
      destruct (Hser (read_wkb (fun _ => true)) (fun i g b => read_wkb_ok _ i g b)) as (v' & Hset & _).
      rewrite Hset. cbn [obind]. eexists; split; [reflexivity|]. split; [exact Hlen|]. intros st sw o n Hon.
      destruct (Hser (read_wkb sw) (fun i g b => read_wkb_ok _ i g b)) as (v2 & Hset2 & Hvis).
      assert (v2 = v') as -> by congruence. unfold reader_visit. cbn [rd_type rd_src]. rewrite Ht. apply Hz. apply Hvis. exact Hon.
    + pose proof (fun read H => arrow_ok wkb_element read H Offsets64 v a els fs Hh Hok Hc Hels) as Hser.
      destruct (Hser (read_wkb (fun _ => true)) (fun i g b => read_wkb_ok _ i g b)) as (v' & Hset & _).
      rewrite Hset. cbn [obind]. eexists; split; [reflexivity|]. split; [exact Hlen|]. intros st sw o n Hon.
      destruct (Hser (read_wkb sw) (fun i g b => read_wkb_ok _ i g b)) as (v2 & Hset2 & Hvis).
      assert (v2 = v') as -> by congruence. unfold reader_visit. cbn [rd_type rd_src]. rewrite Ht. apply Hz. apply Hvis. exact Hon.
    + pose proof (fun read H => arrow_ok wkb_element read H Views v a els fs Hh Hok Hc Hels) as Hser.
      destruct (Hser (read_wkb (fun _ => true)) (fun i g b => read_wkb_ok _ i g b)) as (v' & Hset & _).
      rewrite Hset. cbn [obind]. eexists; split; [reflexivity|]. split; [exact Hlen|]. intros st sw o n Hon.
      destruct (Hser (read_wkb sw) (fun i g b => read_wkb_ok _ i g b)) as (v2 & Hset2 & Hvis).
      assert (v2 = v') as -> by congruence. unfold reader_visit. cbn [rd_type rd_src]. rewrite Ht. apply Hz. apply Hvis. exact Hon.
  - assert (aa_length a = Z.of_nat (length fs)) as Hlen by (rewrite (proj1 Hc), (Forall2_length _ _ _ Hels); reflexivity).
    destruct lay; [set (x := arrow_storage _) in Hs; change x with (@None bstorage) in Hs
                  |set (x := arrow_storage _) in Hs; change x with (Some SLarge) in Hs
                  |set (x := arrow_storage _) in Hs; change x with (Some SView) in Hs];
      clear x; destruct Hs as (v & Hv & Hh); unfold reader_set_array; rewrite Hv.
    + pose proof (fun read H => serialized_ok (wkt_element parse) read H TYPE_WKT v a els fs (or_introl eq_refl) (view_type _ _ Hh) Hok Hc Hels) as Hser.
      destruct (Hser (read_wkt parse (fun _ => s0)) (fun i g b => read_wkt_ok _ _ i g b Hp)) as (v' & Hset & _).
      rewrite Hset. cbn [obind]. eexists; split; [reflexivity|]. split; [exact Hlen|]. intros st sw o n Hon.
      destruct (Hser (read_wkt parse st) (fun i g b => read_wkt_ok _ _ i g b Hp)) as (v2 & Hset2 & Hvis).
      assert (v2 = v') as -> by congruence. unfold reader_visit. cbn [rd_type rd_src]. rewrite Ht. apply Hz. apply Hvis. exact Hon.
    + pose proof (fun read H => arrow_ok (wkt_element parse) read H Offsets64 v a els fs Hh Hok Hc Hels) as Hser.
      destruct (Hser (read_wkt parse (fun _ => s0)) (fun i g b => read_wkt_ok _ _ i g b Hp)) as (v' & Hset & _).
      rewrite Hset. cbn [obind]. eexists; split; [reflexivity|]. split; [exact Hlen|]. intros st sw o n Hon.
      destruct (Hser (read_wkt parse st) (fun i g b => read_wkt_ok _ _ i g b Hp)) as (v2 & Hset2 & Hvis).
      assert (v2 = v') as -> by congruence. unfold reader_visit. cbn [rd_type rd_src]. rewrite Ht. apply Hz. apply Hvis. exact Hon.
    + pose proof (fun read H => arrow_ok (wkt_element parse) read H Views v a els fs Hh Hok Hc Hels) as Hser.
      destruct (Hser (read_wkt parse (fun _ => s0)) (fun i g b => read_wkt_ok _ _ i g b Hp)) as (v' & Hset & _).
      rewrite Hset. cbn [obind]. eexists; split; [reflexivity|]. split; [exact Hlen|]. intros st sw o n Hon.
      destruct (Hser (read_wkt parse st) (fun i g b => read_wkt_ok _ _ i g b Hp)) as (v2 & Hset2 & Hvis).
      assert (v2 = v') as -> by congruence. unfold reader_visit. cbn [rd_type rd_src]. rewrite Ht. apply Hz. apply Hvis. exact Hon.
Qed.

(** ** Errors of the visitor, and nesting *)
Lemma lawful_visit_items valid item read n : (forall i b, lawful (read i b)) -> lawful (visit_items valid item read n).
Proof.
  intros Hr. unfold visit_items. apply lawful_for_each. intros i. apply lawful_bind; [constructor|]. intros [|].
  - apply lawful_bind; [constructor|]. intros b. apply Hr.
  - repeat (apply lawful_bind; [apply lawful_emit|]; intros _). apply lawful_emit.
Qed.
Lemma lawful_reader parse st sw r o n : lawful (reader_visit parse st sw r o n).
Proof.
  unfold reader_visit. destruct (n =? 0); [constructor|]. destruct (rd_src r) as [v|v].
  - destruct (_ =? TYPE_WKT); [apply lawful_visit_items; intros; apply lawful_wkt_visit|].
    destruct (_ =? TYPE_WKB); [apply lawful_visit_items; intros; apply lawful_wkb_visit|]. apply lawful_visit_native.
  - destruct (_ || _); [apply lawful_visit_items; intros; apply lawful_wkb_visit|].
    destruct (_ || _); [apply lawful_visit_items; intros; apply lawful_wkt_visit|]. constructor.
Qed.
