(** * Converting arrays *)
From Verif Require BitmapProofs.
From Verif Require Import Base BaseFacts TypesModel GeomSpec GeomFacts VisitorModel VisitorSpec VisitorFacts BufferModel BufferFacts ArraySpec BitmapSpec ArrowModel NativeSpec
  WkbSpec WktSpec WktGrammar WktReadable WkbRoundTrip WktRoundtrip SerialSpec WktReaderModel ArrayReaderModel ArrayReaderProofs KernelModel KernelSpec KernelProofs
  BuilderSpec NativeWriterModel NativeWriterSpec NativeWriterFacts NativeWriterArray NativeWriterHistory NativeVisitorSpec NativeVisitorProofs NativeVisitorHistory NativeRoundTrip
  WkbWriterModel WkbWriterProofs WkbWriterSpec WkbWriterHistory WktWriterModel WktWriterSpec WktWriterHistory ConversionModel ConversionSpec.
Local Open Scope Z_scope.

(** ** The memory of a binary array *)
Lemma byte_of_testbit bits i b : nth_error bits i = Some b -> N.testbit (byte_of bits) (N.of_nat i) = b.
Proof.
  revert i; induction bits as [|x bits IH]; intros [|i] H; cbn [nth_error byte_of] in *; try discriminate.
  - injection H as ->. change (N.of_nat 0) with 0%N. rewrite N.add_comm. destruct b; [apply N.testbit_odd_0|rewrite N.add_0_r; apply N.testbit_even_0].
  - rewrite Nat2N.inj_succ, N.add_comm. destruct x; [rewrite N.testbit_odd_succ by lia|rewrite N.add_0_r, N.testbit_even_succ by lia]; apply IH; exact H.
Qed.

Lemma pack_bits_nth fuel : forall bits i b, (length bits <= fuel)%nat -> nth_error bits i = Some b -> bit_of (pack_bits fuel bits) (Z.of_nat i) = Some b.
Proof.
  induction fuel as [|fuel IH]; intros bits i b Hl Hi; (destruct bits as [|x bits]; [destruct i; discriminate Hi|]); [cbn in Hl; lia|].
  set (l := x :: bits) in *. change (pack_bits (S fuel) l) with (byte_of (firstn 8 l) :: pack_bits fuel (skipn 8 l)).
  destruct (Nat.lt_ge_cases i 8) as [H|H].
  - unfold bit_of. destruct (Z.ltb_spec (Z.of_nat i) 0); [lia|]. rewrite Z.div_small, Z.mod_small by lia. change (Z.to_nat 0) with 0%nat. cbn [nth_error option_map].
    rewrite <- nat_N_Z, N2Z.id. f_equal. apply byte_of_testbit. rewrite BitmapProofs.nth_error_firstn' by exact H. exact Hi.
  - assert (bit_of (pack_bits fuel (skipn 8 l)) (Z.of_nat (i - 8)) = Some b) as E.
    { apply IH; [rewrite skipn_length; cbn [length] in *; lia|]. rewrite BitmapProofs.nth_error_skipn'. rewrite <- Hi. f_equal. lia. }
    unfold bit_of in *. destruct (Z.ltb_spec (Z.of_nat i) 0); [lia|]. destruct (Z.ltb_spec (Z.of_nat (i - 8)) 0); [lia|].
    replace (Z.of_nat i) with (Z.of_nat (i - 8) + 1 * 8) by lia. rewrite Z.div_add, Z.mod_add by lia.
    replace (Z.to_nat (Z.of_nat (i - 8) / 8 + 1)) with (S (Z.to_nat (Z.of_nat (i - 8) / 8))) by (assert (0 <= Z.of_nat (i - 8) / 8) by (apply Z.div_pos; lia); lia).
    exact E.
Qed.

Lemma flat_map_wf l : wf_bytes (flat_map int32_bytes l).
Proof. unfold wf_bytes. induction l as [|x l IH]; [constructor|]. cbn [flat_map]. apply Forall_app. split; [apply le_bytes_wf|exact IH]. Qed.

Lemma count_nulls_zero {A} (els : list (option A)) : (forall e, In e els -> e <> None) -> count_nulls els = 0.
Proof.
  unfold count_nulls. induction els as [|[x|] els IH]; intros H; [reflexivity| |exfalso; apply (H None); [left; reflexivity|reflexivity]].
  cbn [filter]. apply IH. intros e He. apply H. right. exact He.
Qed.

Lemma memory_ok a els : array_holds a els -> Z.of_nat (length els) < 2 ^ 63 ->
  serial_ok Offsets32 (binary_memory a) /\ serial_contents Offsets32 (binary_memory a) els /\ aa_null_count (binary_memory a) = count_nulls els.
Proof.
  intros [Hlen Hnul Hfst Hoff Hfit Hbits Hel] Hl. split; [|split; [split; [exact Hlen|]|exact Hnul]].
  - unfold serial_ok, binary_memory. cbn [aa_offset aa_length aa_children aa_buffers aa_null_count].
    split; [lia|]. split; [lia|]. split; [lia|]. split; [reflexivity|]. do 3 eexists. split; [reflexivity|]. split; [|split; [apply flat_map_wf|reflexivity]].
    intros Hv. rewrite Hnul. apply count_nulls_zero. intros e He ->. apply In_nth_error in He as (i & Hi). apply Hel in Hi as (_ & Hi).
    unfold is_valid in Hi. destruct (ba_validity a); discriminate.
  - intros i e Hi. destruct (Hel i e Hi) as (He & Hv).
    assert (valid_at (binary_memory a) (Z.of_nat i) = Some (match e with Some _ => true | None => false end)) as Hva.
    { unfold valid_at, binary_memory. cbn [aa_buffers nth_error aa_offset]. unfold is_valid in Hv. destruct (ba_validity a) as [bits|]; cbn [option_map]; [|exact Hv].
      rewrite Z.add_0_l. apply pack_bits_nth; [lia|exact Hv]. }
    destruct e as [x|]; [|exact Hva]. split; [exact Hva|].
    unfold ArraySpec.element in He. destruct (nth_error (ba_offsets a) i) as [o|] eqn:E1; [|discriminate]. destruct (nth_error (ba_offsets a) (S i)) as [o'|] eqn:E2; [|discriminate].
    destruct (Z.leb_spec o o'); [|discriminate]. pose proof (slice_length _ _ _ _ He) as Hx.
    rewrite Forall_forall in Hfit. pose proof (Hfit o (nth_error_In _ _ E1)) as F1. pose proof (Hfit o' (nth_error_In _ _ E2)) as F2.
    unfold bytes_at. cbn [binary_memory aa_offset aa_buffers]. rewrite Z.add_0_l.
    exists (flat_map int32_bytes (ba_offsets a)). split; [reflexivity|]. exists (Some (ba_data a)), o. split; [reflexivity|].
    split; [cbn [buffer_has]; rewrite Hx; exact He|]. split.
    + rewrite <- (to_int32_small o) by lia. exact (offset_nth _ _ _ E1).
    + replace (o + Z.of_nat (length x)) with (to_int32 o') by (rewrite to_int32_small by lia; lia).
      rewrite Z.add_1_r, <- Nat2Z.inj_succ. exact (offset_nth _ _ _ E2).
Qed.

(** ** Pushing batches through a kernel that writes an array for each *)
Lemma push_arrays {St} (k : kernel St arrow_array) parse t st sw (I : St -> Prop) (P : list (option geom) -> Prop) (Q : list (option geom) -> arrow_array -> Prop) :
  number_parser parse -> kn_by_feature k = false ->
  (forall s fs evs, I s -> P fs -> features_events fs evs ->
     exists s1 s2 a, feed (kn_visitor k) s evs = Some (s1, 0) /\ kn_finish_push k s1 = Some (s2, 0, Some a) /\ I s2 /\ Q fs a) ->
  forall batches fss j r s, reader_history t r -> I s -> Forall2 (features_array parse t) batches fss -> Forall P fss ->
  exists r' s' outs, push_batches k parse st sw j r s batches = Ok (r', s', outs) /\ Forall2 (fun fs out => exists a, out = Some a /\ Q fs a) fss outs.
Proof.
  intros Hp Hk H. induction batches as [|a batches IH]; intros fss j r s Hr Hs Hb Hf; inversion Hb as [|? fs ? fss' Ha Hrest]; subst.
  - exists r, s, []. split; [reflexivity|constructor].
  - inversion Hf as [|? ? Hf1 Hf2]; subst. destruct (push_whole k parse Hp t r a fs Hk Ha Hr) as (r1 & Hr1 & Hpush).
    destruct (Hpush (st j) (sw j)) as (evs & He & E). cbn [push_batches]. rewrite (E s).
    destruct (H s fs evs Hs Hf1 He) as (s1 & s2 & o & E1 & E2 & Hs2 & Hq). rewrite E1. change (0 =? 0) with true. cbn iota.
    unfold kfinish_push. rewrite E2. change (0 =? 0) with true. cbn iota.
    destruct (IH fss' (S j) r1 s2 Hr1 Hs2 Hrest Hf2) as (r2 & s3 & outs & E3 & Ho). rewrite E3. cbn [obind].
    exists r2, s3, (Some o :: outs). split; [reflexivity|]. constructor; [|exact Ho]. eauto.
Qed.

Lemma push_each_array {St} (k : kernel St arrow_array) parse t st sw (I : St -> Prop) (P : list (option geom) -> Prop) (Q : list (option geom) -> arrow_array -> Prop) :
  number_parser parse -> kn_by_feature k = true ->
  (forall s fs evss, I s -> P fs -> Forall2 feature_events fs evss ->
     exists s1 s2 a, feed_features (kn_visitor k) s evss = Some (s1, 0) /\ kn_finish_push k s1 = Some (s2, 0, Some a) /\ I s2 /\ Q fs a) ->
  forall batches fss j r s, reader_history t r -> I s -> Forall2 (features_array parse t) batches fss -> Forall P fss ->
  exists r' s' outs, push_batches k parse st sw j r s batches = Ok (r', s', outs) /\ Forall2 (fun fs out => exists a, out = Some a /\ Q fs a) fss outs.
Proof.
  intros Hp Hk H. induction batches as [|a batches IH]; intros fss j r s Hr Hs Hb Hf; inversion Hb as [|? fs ? fss' Ha Hrest]; subst.
  - exists r, s, []. split; [reflexivity|constructor].
  - inversion Hf as [|? ? Hf1 Hf2]; subst. destruct (push_each k parse Hp t r a fs Hk Ha Hr) as (r1 & Hr1 & Hpush).
    destruct (Hpush (st j) (sw j)) as (evs & He & E). cbn [push_batches]. rewrite (E s).
    destruct (H s fs evs Hs Hf1 He) as (s1 & s2 & o & E1 & E2 & Hs2 & Hq). rewrite E1. change (0 =? 0) with true. cbn iota.
    unfold kfinish_push. rewrite E2. change (0 =? 0) with true. cbn iota.
    destruct (IH fss' (S j) r1 s2 Hr1 Hs2 Hrest Hf2) as (r2 & s3 & outs & E3 & Ho). rewrite E3. cbn [obind].
    exists r2, s3, (Some o :: outs). split; [reflexivity|]. constructor; [|exact Ho]. eauto.
Qed.

Lemma feed_vmap {A B} (f : A -> B) (v : visitor A) (v' : visitor B) : (forall s e, v' (f s) e = vmap f (v s e)) ->
  forall evs s s1 c, feed v s evs = Some (s1, c) -> feed v' (f s) evs = Some (f s1, c).
Proof.
  intros H. induction evs as [|e evs IH]; intros s s1 c E; cbn [feed] in *; [injection E as <- <-; reflexivity|].
  rewrite H. destruct (v s e) as [s' c'|]; [|discriminate]. cbn [vmap]. destruct (c' =? 0); [apply IH; exact E|injection E as <- <-; reflexivity].
Qed.

Lemma nulls_count {A} (h : geom -> A) fs : count_nulls (map (option_map h) fs) = nulls fs.
Proof. unfold count_nulls, nulls. induction fs as [|[g|] fs IH]; [reflexivity|exact IH|]. cbn [map option_map filter length]. lia. Qed.

(** ** To WKB *)
Definition wkb_fits (fs : list (option geom)) : Prop :=
  Z.of_nat (length fs) < 2 ^ 63 /\ all_geoms (fun g => wf_geom g /\ (nesting g <= 30)%nat) fs /\ total_size fs < 2 ^ 31.

Lemma wkb_batch fs evs : features_events fs evs -> forall s els0, all_geoms (fun g => wf_geom g /\ (nesting g <= 30)%nat) fs -> whistory s els0 ->
  total (els0 ++ map feature_wkb fs) <= 2147483647 -> exists s', feed wkb_step s evs = Some (s', 0) /\ whistory s' (els0 ++ map feature_wkb fs).
Proof.
  intros H. induction H as [|f fs e1 e2 He _ IH]; intros s els0 Hg Hs Ht.
  - exists s. rewrite app_nil_r. split; [reflexivity|exact Hs].
  - destruct (visit_feature_ok s f e1 He) as (s1 & E1 & A).
    + intros g ->. apply Hg. left. reflexivity.
    + assert (b_size (w_values s) = total els0) as -> by (unfold b_size; fold (data s); rewrite (wh_data _ _ Hs); reflexivity). rewrite total_app in Ht.
      assert (0 <= total (map feature_wkb (f :: fs))) by (unfold total; lia). lia.
    + apply (wh_ok _ _ Hs).
    + pose proof (whistory_added _ _ _ _ Hs A) as H1. cbn [map] in Ht |- *.
      change (feature_wkb f :: map feature_wkb fs) with ([feature_wkb f] ++ map feature_wkb fs) in Ht |- *. rewrite app_assoc in Ht |- *.
      destruct (IH s1 (els0 ++ [feature_wkb f])) as (s2 & E2 & H2); [|exact H1|exact Ht|].
      { intros g Hin. apply Hg. right. exact Hin. }
      exists s2. rewrite (feed_app_ok _ _ _ _ _ E1). split; [exact E2|exact H2].
Qed.

Lemma nesting_levels g : (levels g <= S (nesting g))%nat.
Proof.
  induction g as [d cs|d cs|d rings|c d parts IH] using geom_ind'; try (cbn; lia).
  - cbn. destruct rings; lia.
  - rewrite WkbRoundTrip.levels_coll. cbn [nesting]. apply le_n_S. induction IH as [|g gs Hg _ IHgs]; [cbn; lia|]. cbn [fold_right]. lia.
Qed.

Lemma total_in els b : In (Some b) els -> Z.of_nat (length b) <= total els.
Proof.
  unfold total. induction els as [|e els IH]; [contradiction|]. intros [-> |H]; cbn [map concat]; rewrite app_length; cbn [bytes_of]; [lia|]. specialize (IH H). lia.
Qed.

Lemma wkb_elements fs : all_geoms (fun g => wf_geom g /\ (nesting g <= 30)%nat) fs -> total_size fs < 2 ^ 31 ->
  Forall2 (denotes_feature wkb_element) (map feature_wkb fs) (map (option_map nan_points) fs).
Proof.
  rewrite total_size_eq. intros Hg Ht.
  assert (forall g, In (Some g) fs -> Z.of_nat (length (iso_wkb g)) < 2 ^ 31) as Hb.
  { intros g Hin. eapply Z.le_lt_trans; [|exact Ht]. apply total_in. apply (in_map feature_wkb) in Hin. exact Hin. }
  clear Ht. induction fs as [|f fs IH]; [constructor|]. cbn [map]. constructor.
  - destruct f as [g|]; [|exact I]. cbn [feature_wkb option_map denotes_feature]. destruct (Hg g (or_introl eq_refl)) as (Hw & Hn). specialize (Hb g (or_introl eq_refl)).
    unfold wkb_element. split; [apply iso_wkb_is_wkb; [exact Hw|change (2 ^ 32)%N with 4294967296%N; change (2 ^ 31) with 2147483648 in Hb; lia]|].
    split; [apply nan_points_wf; exact Hw|]. split; [rewrite nan_points_levels; pose proof (nesting_levels g); lia|].
    change (2 ^ 35)%N with 34359738368%N. change (2 ^ 31) with 2147483648 in Hb. lia.
  - apply IH; intros g Hin; [apply Hg|apply Hb]; right; exact Hin.
Qed.

Theorem converts_wkb parse pd junk t fss : number_parser parse -> Forall wkb_fits fss ->
  converts parse pd junk t TYPE_WKB fss (map (map (option_map nan_points)) fss).
Proof.
  intros Hp Hf r0 st sw batches Hr Hb.
  set (v := fun (w : awriter) (e : event) => match w with AWkb s => vmap AWkb (wkb_step s e) | _ => VUB end).
  set (k := {| kn_visitor := v; kn_by_feature := false; kn_finish_push := array_finish junk; kn_finish := finish_void |} : kernel awriter arrow_array).
  destruct (push_arrays k parse t st sw (fun w => exists s, w = AWkb s /\ clean s) wkb_fits
    (fun fs a => features_array parse TYPE_WKB a (map (option_map nan_points) fs) /\ aa_null_count a = nulls (map (option_map nan_points) fs))) with (batches := batches) (fss := fss) (j := 0%nat) (r := r0) (s := AWkb wkb_init)
    as (r & s & outs & E & Ho); [exact Hp|reflexivity| |apply rh_init; exact Hr| |exact Hb|exact Hf|].
  - intros w fs evs (s & -> & Hc) (Hl & Hg & Ht) He. pose proof Ht as Ht'. rewrite total_size_eq in Ht'.
    destruct (wkb_batch fs evs He s [] Hg (whistory_clean s Hc) ltac:(cbn [app]; lia)) as (s1 & E1 & H1). cbn [app] in H1.
    destruct (finish_ok s1 _ H1 ltac:(lia)) as (s2 & a & E2 & A & C2).
    exists (AWkb s1), (AWkb s2), (binary_memory a). split; [apply (feed_vmap AWkb wkb_step); [reflexivity|exact E1]|].
    split; [cbn [kn_finish_push k array_finish]; rewrite E2; reflexivity|]. split; [eauto|].
    destruct (memory_ok a _ A) as (M1 & M2 & M3); [rewrite map_length; exact Hl|]. split.
    + apply (fa_wkb parse Offsets32 _ (map feature_wkb fs)); [exact M1|exact M2|apply wkb_elements; assumption].
    + rewrite M3. rewrite <- (nulls_count (fun g => g) (map (option_map nan_points) fs)). unfold feature_wkb. rewrite map_map.
      unfold count_nulls. clear. induction fs as [|[g|] fs IH]; [reflexivity|exact IH|]. cbn [map option_map filter length]. lia.
  - exists wkb_init. split; [reflexivity|]. split; reflexivity.
  - exists k, (AWkb wkb_init), r, s, outs. split; [reflexivity|]. split; [exact E|].
    unfold arrays_of. clear -Ho. induction Ho as [|fs out fss outs (a & -> & H) _ IH]; constructor; [|exact IH]. exists a. split; [reflexivity|exact H].
Qed.

Lemma nan_points_same g : no_empty_point g = true -> nan_points g = g.
Proof.
  induction g as [d cs|d cs|d rings|c d parts IH] using geom_ind'; try reflexivity.
  - destruct cs; [discriminate|reflexivity].
  - rewrite nan_points_coll. cbn [no_empty_point]. intros H. f_equal. induction IH as [|g gs Hg _ IHgs]; [reflexivity|].
    cbn [forallb map] in *. apply andb_true_iff in H as (H1 & H2). rewrite (Hg H1), (IHgs H2). reflexivity.
Qed.

(** ** To WKT *)
Section Wkt.
Variable print_double : N -> Z -> bytes.
Hypothesis print_short : forall w p, 0 <= p <= 16 -> (length (print_double w p) <= 40)%nat.

Lemma wkt_batch precision flat fs evs : features_events fs evs -> forall s els0, Forall expressible fs -> Forall shallow fs -> whistory (to_wst s) els0 ->
  let cfg := wkt_config precision flat (-1) in
  total (els0 ++ map (feature_text print_double cfg) fs) <= 2147483647 ->
  exists s', feed (wkt_step print_double cfg) s evs = Some (s', 0) /\ whistory (to_wst s') (els0 ++ map (feature_text print_double cfg) fs).
Proof.
  intros H. induction H as [|f fs e1 e2 He _ IH]; intros s els0 Hx Hd Hs cfg Ht.
  - exists s. rewrite app_nil_r. split; [reflexivity|exact Hs].
  - inversion Hx as [|? ? Hx1 Hx2]; subst. inversion Hd as [|? ? Hd1 Hd2]; subst. pose proof (wh_ok _ _ Hs) as Hok. cbn [to_wst w_values] in Hok.
    assert (b_size (k_values s) = total els0) as Hsz by (pose proof (wh_data _ _ Hs) as D; unfold data in D; cbn [to_wst w_values] in D; unfold b_size; rewrite D; reflexivity).
    assert (0 <= total (map (feature_text print_double cfg) (f :: fs))) by (unfold total; lia). pose proof Ht as Ht0. rewrite total_app in Ht0.
    destruct (feature_ok print_double print_short cfg (config_precision _ _ _) s f e1 He Hx1 Hd1 ltac:(lia) Hok) as (s1 & e & E1 & A & Hel).
    assert (e = feature_text print_double cfg f) as ->.
    { destruct f as [g|], e as [b|]; try contradiction; [|reflexivity]. cbn [element_of] in Hel. unfold limited in Hel. change (kc_max cfg <? 0) with true in Hel. cbv iota in Hel. rewrite Hel. reflexivity. }
    assert (feed (wkt_step print_double cfg) s e1 = Some (s1, 0)) as E1'.
    { unfold wkt_feature in E1. destruct (feed _ s e1) as [[s' c]|] eqn:F; [|discriminate]. destruct (Z.eqb_spec c EAGAIN) as [->|]; [|exact E1].
      exfalso. destruct f as [g|]; inversion He as [|? ? Hge]; subst.
      - destruct (Hx1 g eq_refl) as (Hty & Hwf). destruct (canonical_text print_double print_short precision flat (-1) g e s ltac:(lia) Hty Hwf (Hd1 g eq_refl) Hge ltac:(lia) Hok) as (s2 & F2 & _).
        fold cfg in F2. rewrite F2 in F. discriminate.
      - destruct (feat_start_kok print_double cfg s ltac:(lia) Hok) as (s2 & F2 & _). rewrite (feed_cons_ok _ _ _ _ _ F2) in F. cbn in F. discriminate. }
    pose proof (whistory_added _ _ _ _ Hs A) as H1. cbn [map] in Ht |- *.
    change (feature_text print_double cfg f :: map (feature_text print_double cfg) fs) with ([feature_text print_double cfg f] ++ map (feature_text print_double cfg) fs) in Ht |- *.
    rewrite app_assoc in Ht |- *. destruct (IH s1 (els0 ++ [feature_text print_double cfg f]) Hx2 Hd2 H1 Ht) as (s2 & E2 & H2).
    exists s2. rewrite (feed_app_ok _ _ _ _ _ E1'). split; [exact E2|exact H2].
Qed.
End Wkt.

Section ToWkt.
Variable print_double : N -> Z -> bytes.
Hypothesis print_short : forall w p, 0 <= p <= 16 -> (length (print_double w p) <= 40)%nat.
Variable parse : bytes -> option N.
Hypothesis Hp : number_parser parse.

(** What of a geometry survives in text. *)
Definition wkt_kept (g : geom) : Prop :=
  typed g /\ wf_geom g /\ (nesting g <= 32)%nat /\ uniform g /\ readable true g /\ Forall (fun w => numeral parse w (print_double w 16)) (WktReadable.ordinates g).
Definition wkt_fits (fs : list (option geom)) : Prop :=
  Z.of_nat (length fs) < 2 ^ 63 /\ all_geoms wkt_kept fs /\ text_size print_double (wkt_config 16 true (-1)) fs < 2 ^ 31.

Lemma wkt_elements fs : all_geoms wkt_kept fs ->
  Forall2 (denotes_feature (wkt_element parse)) (map (feature_text print_double (wkt_config 16 true (-1))) fs) fs.
Proof.
  intros Hg. induction fs as [|f fs IH]; [constructor|]. cbn [map]. constructor.
  - destruct f as [g|]; [|exact I]. destruct (Hg g (or_introl eq_refl)) as (Hty & Hw & Hn & Hu & Hr & Hi).
    apply wkt_readable; assumption.
  - apply IH. intros g Hin. apply Hg. right. exact Hin.
Qed.

Lemma kept_expressible fs : all_geoms wkt_kept fs -> Forall expressible fs /\ Forall shallow fs.
Proof.
  intros H. split; apply Forall_forall; intros f Hf g ->; destruct (H g Hf) as (Hty & Hw & Hn & _); auto.
Qed.

Theorem converts_wkt junk t fss : Forall wkt_fits fss -> converts parse print_double junk t TYPE_WKT fss fss.
Proof.
  intros Hf r0 st sw batches Hr Hb.
  set (cfg := wkt_config 16 true (-1)).
  set (v := fun (w : awriter) (e : event) => match w with AWkt p f s => vmap (AWkt p f) (wkt_step print_double cfg s e) | _ => VUB end).
  set (k := {| kn_visitor := v; kn_by_feature := false; kn_finish_push := array_finish junk; kn_finish := finish_void |} : kernel awriter arrow_array).
  destruct (push_arrays k parse t st sw (fun w => exists s, w = AWkt 16 true s /\ kclean s) wkt_fits
    (fun fs a => features_array parse TYPE_WKT a fs /\ aa_null_count a = nulls fs)) with (batches := batches) (fss := fss) (j := 0%nat) (r := r0) (s := AWkt 16 true wkt_init)
    as (r & s & outs & E & Ho); [exact Hp|reflexivity| |apply rh_init; exact Hr| |exact Hb|exact Hf|].
  - intros w fs evs (s & -> & Hc) (Hl & Hg & Ht) He. pose proof Ht as Ht'. rewrite text_size_eq in Ht'. destruct (kept_expressible fs Hg) as (Hx & Hd).
    destruct (wkt_batch print_double print_short 16 true fs evs He s [] Hx Hd (kclean_history s Hc) ltac:(cbn [app]; lia)) as (s1 & E1 & H1). cbn [app] in H1.
    destruct (kfinish_ok s1 _ H1 ltac:(lia)) as (s2 & a & E2 & A & C2).
    exists (AWkt 16 true s1), (AWkt 16 true s2), (binary_memory a). split; [apply (feed_vmap (AWkt 16 true) (wkt_step print_double cfg)); [reflexivity|exact E1]|].
    split; [cbn [kn_finish_push k array_finish]; rewrite E2; reflexivity|]. split; [eauto|].
    destruct (memory_ok a _ A) as (M1 & M2 & M3); [rewrite map_length; exact Hl|]. split.
    + apply (fa_wkt parse Offsets32 _ (map (feature_text print_double cfg) fs)); [exact M1|exact M2|apply wkt_elements; assumption].
    + rewrite M3. apply nulls_count.
  - exists wkt_init. split; [reflexivity|]. split; reflexivity.
  - exists k, (AWkt 16 true wkt_init), r, s, outs. split; [reflexivity|]. split; [exact E|].
    unfold arrays_of. clear -Ho. induction Ho as [|fs out fss outs (a & -> & H) _ IH]; constructor; [|exact IH]. exists a. split; [reflexivity|exact H].
Qed.

(** ** The format_wkt kernel *)
Section Format.
Variables precision max : Z.
Notation cfg := (wkt_config precision true max).
Notation text := (wkt (fun w => print_double w (kc_precision cfg)) true).

Lemma limited_prefix cut g b : limited cfg cut (text g) b ->
  exists q, text g = b ++ q /\ (q = [] \/ 0 <= max <= Z.of_nat (length b)).
Proof.
  unfold limited. change (kc_max cfg) with max. destruct (Z.ltb_spec max 0) as [Hm|Hm]; [|destruct cut].
  - intros ->. exists []. rewrite app_nil_r. auto.
  - intros ->. exists (skipn (Z.to_nat max) (text g)). rewrite firstn_skipn. split; [reflexivity|].
    destruct (Nat.le_gt_cases (length (text g)) (Z.to_nat max)) as [H|H]; [left; apply skipn_all2; exact H|right].
    rewrite firstn_length. lia.
  - intros (q & E & H). exists q. split; [exact E|]. destruct H; [left; assumption|right; lia].
Qed.

Lemma elements_formatted cut fs els : elements print_double cfg cut fs els ->
  Forall2 (fun f e => match f, e with
                      | None, None => True
                      | Some g, Some b => exists q, text g = b ++ q /\ (q = [] \/ 0 <= max <= Z.of_nat (length b))
                      | _, _ => False
                      end) fs els.
Proof.
  intros H. induction H as [|cut fs els H IH|cut g b fs els Hb H IH]; constructor; auto. eapply limited_prefix. exact Hb.
Qed.

Lemma elements_exact : 0 <= max -> forall gs rest els, elements print_double cfg true (map Some gs ++ rest) els ->
    firstn (length gs) els = map (fun g => Some (firstn (Z.to_nat max) (text g))) gs.
Proof.
  intros Hm. induction gs as [|g gs IH]; intros rest els H; [reflexivity|]. cbn [map app] in H. inversion H as [| |? ? b ? els' Hb H']; subst.
  cbn [length firstn map]. f_equal; [|eapply IH; exact H']. unfold limited in Hb. change (kc_max cfg) with max in Hb. destruct (Z.ltb_spec max 0); [lia|]. subst b. reflexivity.
Qed.

Lemma elements_size cut fs els : elements print_double cfg cut fs els -> total els <= text_size print_double cfg fs.
Proof.
  rewrite text_size_eq. intros H. induction H as [|cut fs els H IH|cut g b fs els Hb H IH]; [unfold total; cbn; lia|exact IH|].
  destruct (limited_prefix _ _ _ Hb) as (q & Eq & _). unfold total in *. cbn [map concat].
  change (WkbWriterHistory.bytes_of (feature_text print_double cfg (Some g))) with (text g). rewrite Eq, !app_length. cbn [WkbWriterHistory.bytes_of]. lia.
Qed.

Lemma elements_nulls cut fs els : elements print_double cfg cut fs els -> count_nulls els = nulls fs /\ length els = length fs.
Proof.
  intros H. induction H as [|cut fs els H (IH1 & IH2)|cut g b fs els Hb H (IH1 & IH2)]; [split; reflexivity| |]; unfold count_nulls, nulls in *; cbn [filter length]; lia.
Qed.

Lemma format_features evss : forall fs s els0, Forall2 feature_events fs evss -> Forall expressible fs -> Forall shallow fs -> whistory (to_wst s) els0 ->
  total els0 + text_size print_double cfg fs <= 2147483647 ->
  exists s' els, feed_features (wkt_step print_double cfg) s evss = Some (s', 0) /\ whistory (to_wst s') (els0 ++ els) /\
    elements print_double cfg (forallb valid_of els0) fs els.
Proof.
  induction evss as [|evs evss IH]; intros fs s els0 Hev Hex Hsh Hh Ht; inversion Hev as [|f ? fs' ? H1 H2]; subst; cbn [feed_features].
  - exists s, []. rewrite app_nil_r. split; [reflexivity|]. split; [exact Hh|constructor].
  - inversion Hex as [|? ? Hf Hfs]; subst. inversion Hsh as [|? ? Hsf Hsh']; subst. pose proof (wh_ok _ _ Hh) as Hok. cbn [to_wst w_values] in Hok.
    assert (b_size (k_values s) = total els0) as Hsz by (pose proof (wh_data _ _ Hh) as D; unfold data in D; cbn [to_wst w_values] in D; unfold b_size; rewrite D; reflexivity).
    rewrite text_size_eq in Ht. assert (0 <= total (map (feature_text print_double cfg) (f :: fs'))) by (unfold total; lia).
    destruct (feature_ok print_double print_short cfg (config_precision _ _ _) s f evs H1 Hf Hsf ltac:(lia) Hok) as (s1 & e & E & A & He).
    unfold wkt_feature in E. cbn [wkt_step]. rewrite E. change (0 =? 0) with true. cbn iota.
    pose proof (whistory_added _ _ _ _ Hh A) as Hh1.
    assert ((match k_validity s with None => true | Some _ => false end) = forallb valid_of els0) as Hcut.
    { pose proof (wh_validity _ _ Hh) as Hv. cbn [to_wst w_validity] in Hv. rewrite Hv. destruct (forallb valid_of els0); reflexivity. }
    rewrite Hcut in He.
    assert (elements print_double cfg (forallb valid_of els0) [f] [e]) as He1.
    { destruct f as [g|], e as [b|]; try contradiction; constructor; try exact He; constructor. }
    destruct (IH fs' s1 (els0 ++ [e]) H2 Hfs Hsh' Hh1) as (s2 & els & E2 & Hw & Hels).
    { apply elements_size in He1. rewrite text_size_eq in He1. rewrite text_size_eq. rewrite total_app.
      change (map (feature_text print_double cfg) (f :: fs')) with (map (feature_text print_double cfg) [f] ++ map (feature_text print_double cfg) fs') in Ht.
      rewrite total_app in Ht. lia. }
    exists s2, (e :: els). split; [exact E2|]. rewrite <- app_assoc in Hw. split; [exact Hw|].
    rewrite forallb_app in Hels. cbn [forallb] in Hels. rewrite andb_true_r in Hels.
    destruct f as [g|], e as [b|]; try contradiction; cbn [element_of valid_of] in *.
    + rewrite andb_true_r in Hels. constructor; assumption.
    + rewrite andb_false_r in Hels. constructor. exact Hels.
Qed.

Theorem format_batches t r0 st sw batches fss : reader_init t = Ok r0 -> Forall2 (features_array parse t) batches fss ->
  Forall (fun fs => Z.of_nat (length fs) < 2 ^ 63 /\ Forall expressible fs /\ Forall shallow fs /\ text_size print_double cfg fs < 2 ^ 31) fss ->
  exists r s outs, push_batches (format_wkt print_double precision max) parse st sw 0 r0 wkt_init batches = Ok (r, s, outs) /\
    Forall2 (fun fs out => exists a, out = Some a /\ serial_ok Offsets32 a /\ aa_null_count a = nulls fs /\ exists els, serial_contents Offsets32 a els /\ formatted text max fs els) fss outs.
Proof.
  intros Hr Hb Hf.
  refine (push_each_array (format_wkt print_double precision max) parse t st sw kclean _
    (fun fs a => serial_ok Offsets32 a /\ aa_null_count a = nulls fs /\ exists els, serial_contents Offsets32 a els /\ formatted text max fs els) Hp eq_refl
    _ batches fss 0%nat r0 wkt_init (rh_init _ _ Hr) _ Hb Hf); [|split; reflexivity].
  clear Hf Hb. intros s fs evss Hc (Hl & Hx & Hd & Ht) He.
  destruct (format_features evss fs s [] He Hx Hd (kclean_history s Hc)) as (s1 & els & E1 & H1 & Hel).
  { unfold total. cbn [map concat length]. lia. }
  cbn [app] in H1. pose proof (elements_size _ _ _ Hel) as Hsz. destruct (elements_nulls _ _ _ Hel) as (Hn & Hlen).
  destruct (kfinish_ok s1 els H1 ltac:(lia)) as (s2 & a & E2 & A & C2).
  exists s1, s2, (binary_memory a). split; [exact E1|]. split; [cbn [kn_finish_push format_wkt]; rewrite E2; reflexivity|]. split; [exact C2|].
  destruct (memory_ok a els A) as (M1 & M2 & M3); [rewrite Hlen; exact Hl|]. split; [exact M1|]. split; [rewrite M3; exact Hn|].
  exists els. split; [exact M2|]. split; [eapply elements_formatted; exact Hel|]. intros Hm gs rest ->. eapply elements_exact; eassumption.
Qed.
End Format.
End ToWkt.

(** ** To native arrays *)
Section Native.
  Variable junk : nat -> nat -> N.
  Hypothesis junk_bytes : forall i j, is_byte (junk i j).
  Variable parse : bytes -> option N.
  Hypothesis Hp : number_parser parse.
  Variables (k : geometry_kind) (l : layout) (d : dim).
  Hypothesis not_box : k <> KBox.
  Notation type := (make_type (geometry_kind_code k) (dim_code d) (layout_code l)).

  Lemma native_init_writer : array_writer_init junk type = do w <- writer_init junk type; Ok (ANative type w).
  Proof. clear -not_box. destruct k, d, l; try contradiction; reflexivity. Qed.
  Lemma native_type : geometry_type_from_type type = geometry_kind_code k.
  Proof. clear -not_box. destruct k, d, l; try contradiction; reflexivity. Qed.

  Definition native_fits (fs : list (option geom)) (els : list (option (nest (n_lists k)))) : Prop :=
    visited_as k d fs els /\ Forall (feature_for k) fs /\ has_room k d fs.

  Lemma shown_nulls els : null_count els = nulls (shown k d els).
  Proof. unfold null_count, nulls, shown. induction els as [|[x|] els IH]; [reflexivity|exact IH|]. cbn [map option_map filter length]. lia. Qed.

  Theorem converts_native pd t fss elss : Forall2 native_fits fss elss -> converts parse pd junk t type fss (map (shown k d) elss).
  Proof.
    intros Hf r0 st sw batches Hr Hb. destruct (init_visiting junk junk_bytes k l d not_box) as (w & Ew & Hw).
    assert (exists v, native_visitor junk (geometry_kind_code k) = Some v) as (v & Ev) by (clear -not_box; destruct k; try contradiction; eexists; reflexivity).
    set (av := fun (w : awriter) (e : event) => match w with ANative t w => vmap (ANative t) (v w e) | _ => VUB end).
    set (kn := {| kn_visitor := av; kn_by_feature := false; kn_finish_push := array_finish junk; kn_finish := finish_void |} : kernel awriter arrow_array).
    destruct (push_arrays kn parse t st sw (fun a => exists w, a = ANative type w /\ visiting k l d w []) (fun fs => exists els, native_fits fs els)
      (fun fs a => forall els, visited_as k d fs els -> features_array parse type a (shown k d els) /\ aa_null_count a = nulls (shown k d els)))
      with (batches := batches) (fss := fss) (j := 0%nat) (r := r0) (s := ANative type w)
      as (r & s & outs & E & Ho); [exact Hp|reflexivity| |apply rh_init; exact Hr|eauto|exact Hb| |].
    - intros aw fs evs (w0 & -> & Hw0) (els & Hv & Hff & Hroom) He.
      destruct (visit_batch junk junk_bytes k l d not_box v Ev fs evs He els w0 [] [] (Forall2_nil _) Hv Hff Hw0 Hroom) as (w1 & E1 & V1). cbn [app] in V1.
      destruct (visit_finish junk junk_bytes k l d not_box w1 fs els V1 Hv Hroom) as (a & w2 & E2 & A & V2).
      exists (ANative type w1), (ANative type w2), a. split; [apply (feed_vmap (ANative type) v); [reflexivity|exact E1]|].
      split; [cbn [kn_finish_push kn array_finish]; rewrite E2; reflexivity|]. split; [eauto|].
      intros els' Hv'. assert (els' = els) as ->.
      { clear -Hv Hv'. revert els' Hv'. induction Hv as [|g e fs els H _ IH]; intros els' Hv'; inversion Hv' as [|? e' ? els'' H' H'']; subst; [reflexivity|].
        f_equal; [|apply IH; exact H'']. destruct g as [g|], e as [e|], e' as [e'|]; cbn [option_map] in *; try discriminate; try reflexivity. congruence. }
      destruct A as (A1 & A2 & A3 & A4). split; [|rewrite A4; apply shown_nulls].
      constructor; [apply kind_supported; exact not_box|contradiction|exact A1|exact A2].
    - clear -Hf. induction Hf; constructor; eauto.
    - exists kn, (ANative type w), r, s, outs. split; [|split; [exact E|]].
      + unfold as_geoarrow. rewrite native_init_writer, Ew. cbn [obind]. unfold array_visitor. rewrite native_type, Ev. reflexivity.
      + unfold arrays_of. clear -Ho Hf. revert elss Hf. induction Ho as [|fs out fss outs (a & -> & H) _ IH]; intros elss Hf; inversion Hf as [|? els ? elss' Hf1 Hf2]; subst; cbn [map]; constructor; [|apply IH; exact Hf2].
        exists a. split; [reflexivity|]. apply H. apply Hf1.
  Qed.
End Native.

(** ** Features that any encoding holds as they are *)
Lemma keep_all {A} (l : list (list A)) : Forall (fun x => x <> []) l -> filter nonempty l = l.
Proof. intros H. induction H as [|x l Hx _ IH]; [reflexivity|]. cbn [filter]. destruct x; [contradiction|]. cbn [nonempty]. rewrite IH. reflexivity. Qed.

Lemma of_kind_kept k d g : wf_geom g -> of_kind k d g -> exists x, visited k d g = Some x /\ nest_geom k d x = g.
Proof.
  intros Hw Hk. destruct k; cbn [of_kind] in Hk; try contradiction.
  - destruct Hk as (c & ->). exists c. split; [|reflexivity]. inversion_clear Hw as [? ? H1 _| | |]. cbn. rewrite convert_same; [reflexivity|]. apply (Forall_inv H1).
  - destruct Hk as (cs & ->). exists cs. split; [|reflexivity]. inversion_clear Hw as [|? ? H1| |]. cbn. rewrite map_convert_same by exact H1. reflexivity.
  - destruct Hk as (rings & -> & Hn). exists rings. split; [|reflexivity]. inversion_clear Hw as [| |? ? H1|]. cbn [visited sequences n_lists].
    replace (map (map (convert_coord d d)) rings) with rings; [rewrite keep_all by exact Hn; reflexivity|].
    symmetry. clear Hn. induction H1 as [|r rs Hr _ IH]; [reflexivity|]. cbn [map]. rewrite map_convert_same by exact Hr. rewrite IH. reflexivity.
  - destruct Hk as (cs & ->). exists cs. split; [|reflexivity]. cbn [visited n_lists]. rewrite multipoint_sequences. inversion_clear Hw as [| | |? ? ? H1]. apply wf_geoms_Forall in H1.
    rewrite map_convert_same; [reflexivity|]. rewrite Forall_map in H1. unfold wf_seq. eapply Forall_impl; [|exact H1]. intros c Hc. inversion_clear Hc as [? ? H2 _| | |]. apply (Forall_inv H2).
  - destruct Hk as (ls & -> & Hn). exists ls. split; [|reflexivity]. cbn [visited n_lists]. rewrite multiline_sequences. inversion_clear Hw as [| | |? ? ? H1]. apply wf_geoms_Forall in H1.
    replace (map (map (convert_coord d d)) ls) with ls; [rewrite keep_all by exact Hn; reflexivity|].
    symmetry. rewrite Forall_map in H1. clear Hn. induction H1 as [|r rs Hr _ IH]; [reflexivity|]. cbn [map]. inversion_clear Hr. rewrite map_convert_same by assumption. rewrite IH. reflexivity.
  - destruct Hk as (ps & -> & Hn). exists ps. split; [|reflexivity]. cbn [visited n_lists]. inversion_clear Hw as [| | |? ? ? H1]. apply wf_geoms_Forall in H1. rewrite Forall_map in H1.
    assert (groups d (GColl CMultipolygon d (map (GPoly d) ps)) = ps) as ->.
    { cbn [groups]. clear Hn. induction H1 as [|p ps Hw _ IH]; [reflexivity|]. cbn [map groups app sequences]. f_equal; [|exact IH].
      inversion_clear Hw as [| |? ? H2|]. induction H2 as [|r rs Hr _ IHr]; [reflexivity|]. cbn [map]. rewrite map_convert_same by exact Hr. rewrite IHr. reflexivity. }
    assert (map (filter nonempty) ps = ps) as ->.
    { clear H1. induction Hn as [|p ps (_ & Hp) _ IH]; [reflexivity|]. cbn [map]. rewrite keep_all by exact Hp. rewrite IH. reflexivity. }
    rewrite keep_all; [reflexivity|]. eapply Forall_impl; [|exact Hn]. intros p Hp. apply Hp.
Qed.

Lemma of_kind_deliverable k d g : of_kind k d g -> deliverable k g.
Proof.
  destruct k; cbn [of_kind deliverable]; try contradiction.
  - trivial.
  - intros (cs & ->). right. apply mo_leaf. left. exact I.
  - intros (rings & -> & _). right. apply mo_leaf. right. exact I.
  - intros (cs & ->). right. apply mo_leaf. right. right. split; [reflexivity|]. apply Forall_map. apply Forall_forall. intros; exact I.
  - intros (ls & -> & _). right. apply mo_coll; [discriminate|]. intros p Hin. apply in_map_iff in Hin as (x & <- & _). apply mo_leaf. left. exact I.
  - intros (ps & -> & _). do 3 right. apply mo_coll; [left; reflexivity|]. intros p Hin. apply in_map_iff in Hin as (x & <- & _). apply mo_leaf. left. exact I.
Qed.

Lemma of_kind_text k d g : of_kind k d g -> typed g /\ (nesting g <= 3)%nat /\ uniform g /\ readable true g /\ no_empty_point g = true.
Proof.
  assert (forall (A : Type) (h : A -> geom) n xs, (forall x, (nesting (h x) <= n)%nat) ->
    ((fix go (gs : list geom) : nat := match gs with [] => 0 | g :: gs => Nat.max (nesting g) (go gs) end) (map h xs) <= n)%nat) as Hmax.
  { intros A h n xs H. induction xs as [|x xs IH]; [cbn; lia|]. cbn [map]. specialize (H x). lia. }
  destruct k; cbn [of_kind]; try contradiction.
  - intros (c & ->). repeat split; try constructor. cbn. lia.
  - intros (c & ->). repeat split; try constructor. cbn. lia.
  - intros (c & -> & _). repeat split; try constructor. cbn. destruct c; lia.
  - intros (cs & ->). split; [constructor; apply Forall_map; apply Forall_forall; intros; [exact I|constructor]|]. split; [|split; [|split]].
    + cbn [nesting]. apply le_n_S. apply Hmax. intros x. cbn. lia.
    + constructor; [|apply Forall_map; apply Forall_forall; intros; constructor]. intros _ g Hin. apply in_map_iff in Hin as (x & <- & _). reflexivity.
    + constructor; [|apply Forall_map; apply Forall_forall; intros; constructor]. intros _ _. right. intros g Hin. apply in_map_iff in Hin as (x & <- & _). cbn. discriminate.
    + cbn [no_empty_point]. apply forallb_forall. intros g Hin. apply in_map_iff in Hin as (x & <- & _). reflexivity.
  - intros (cs & -> & _). split; [constructor; apply Forall_map; apply Forall_forall; intros; [exact I|constructor]|]. split; [|split; [|split]].
    + cbn [nesting]. apply le_n_S. apply Hmax. intros x. cbn. lia.
    + constructor; [|apply Forall_map; apply Forall_forall; intros; constructor]. intros _ g Hin. apply in_map_iff in Hin as (x & <- & _). reflexivity.
    + constructor; [|apply Forall_map; apply Forall_forall; intros; constructor]. discriminate.
    + cbn [no_empty_point]. apply forallb_forall. intros g Hin. apply in_map_iff in Hin as (x & <- & _). reflexivity.
  - intros (cs & -> & _). split; [constructor; apply Forall_map; apply Forall_forall; intros; [exact I|constructor]|]. split; [|split; [|split]].
    + cbn [nesting]. apply le_n_S. apply Hmax. intros x. cbn. destruct x; lia.
    + constructor; [|apply Forall_map; apply Forall_forall; intros; constructor]. intros _ g Hin. apply in_map_iff in Hin as (x & <- & _). reflexivity.
    + constructor; [|apply Forall_map; apply Forall_forall; intros; constructor]. discriminate.
    + cbn [no_empty_point]. apply forallb_forall. intros g Hin. apply in_map_iff in Hin as (x & <- & _). reflexivity.
Qed.

Lemma map_nan_same fss : Forall (all_geoms (fun g => no_empty_point g = true)) fss -> map (map (option_map nan_points)) fss = fss.
Proof.
  intros H. induction H as [|fs fss H _ IH]; [reflexivity|]. cbn [map]. f_equal; [|exact IH]. clear -H. induction fs as [|f fs IH]; [reflexivity|]. cbn [map]. f_equal.
  - destruct f as [g|]; [|reflexivity]. cbn [option_map]. f_equal. apply nan_points_same. apply H. left. reflexivity.
  - apply IH. intros g Hin. apply H. right. exact Hin.
Qed.

Theorem converts_wkb_same parse pd junk t fss : number_parser parse -> Forall wkb_fits fss -> Forall (all_geoms (fun g => no_empty_point g = true)) fss ->
  converts parse pd junk t TYPE_WKB fss fss.
Proof. intros Hp H Hn. pose proof (converts_wkb parse pd junk t fss Hp H) as C. rewrite (map_nan_same fss Hn) in C. exact C. Qed.

Theorem converts_native_same parse pd junk t k l d fss : number_parser parse -> (forall i j, is_byte (junk i j)) ->
  Forall (fun fs => all_geoms (fun g => wf_geom g /\ of_kind k d g) fs /\ has_room k d fs) fss -> k <> KBox ->
  converts parse pd junk t (make_type (geometry_kind_code k) (dim_code d) (layout_code l)) fss fss.
Proof.
  intros Hp Hj Hf Hk.
  assert (exists elss, Forall2 (native_fits k d) fss elss /\ map (shown k d) elss = fss) as (elss & He & Es).
  { induction Hf as [|fs fss (Hg & Hroom) _ (elss & IH1 & IH2)]; [exists []; split; [constructor|reflexivity]|].
    assert (exists els, visited_as k d fs els /\ Forall (feature_for k) fs /\ shown k d els = fs) as (els & H1 & H2 & H3).
    { clear -Hg. induction fs as [|f fs IH]; [exists []; split; [constructor|split; [constructor|reflexivity]]|].
      destruct IH as (els & H1 & H2 & H3); [intros g Hin; apply Hg; right; exact Hin|].
      destruct f as [g|].
      - destruct (Hg g (or_introl eq_refl)) as (Hw & Ho). destruct (of_kind_kept k d g Hw Ho) as (x & E1 & E2).
        exists (Some x :: els). split; [constructor; [cbn [option_map]; rewrite E1; reflexivity|exact H1]|].
        split; [constructor; [split; [eapply of_kind_deliverable; exact Ho|exact Hw]|exact H2]|]. cbn [shown map option_map]. rewrite E2. f_equal. exact H3.
      - exists (None :: els). split; [constructor; [reflexivity|exact H1]|]. split; [constructor; [exact I|exact H2]|]. cbn [shown map option_map]. f_equal. exact H3. }
    exists (els :: elss). split; [constructor; [split; [exact H1|split; [exact H2|exact Hroom]]|exact IH1]|]. cbn [map]. rewrite H3, IH2. reflexivity. }
  rewrite <- Es at 2. apply converts_native; assumption.
Qed.

Theorem converts_chain parse pd junk k d fss : number_parser parse -> (forall w p, 0 <= p <= 16 -> (length (pd w p) <= 40)%nat) -> (forall i j, is_byte (junk i j)) ->
  Forall (fun fs =>
    all_geoms (fun g => wf_geom g /\ of_kind k d g /\ Forall (fun w => numeral parse w (pd w 16)) (WktReadable.ordinates g)) fs /\ Z.of_nat (length fs) < 2 ^ 63 /\
    total_size fs < 2 ^ 31 /\ text_size pd (wkt_config 16 true (-1)) fs < 2 ^ 31 /\ has_room k d fs) fss ->
  forall ts t, Forall (fun t' => t' = TYPE_WKB \/ t' = TYPE_WKT \/ exists l, t' = make_type (geometry_kind_code k) (dim_code d) (layout_code l)) ts ->
  k <> KBox -> converts_through parse pd junk t ts fss.
Proof.
  intros Hp Hs Hj Hf ts t Ht Hk. revert t. induction Ht as [|t' ts Ht' _ IH]; intros t; [exact I|]. cbn [converts_through]. split; [|apply IH].
  destruct Ht' as [->|[->|(l & ->)]].
  - apply converts_wkb_same; [exact Hp| |]; (eapply Forall_impl; [|exact Hf]); intros fs (Hg & Hl & Hw & Htx & Hr).
    + split; [exact Hl|]. split; [|exact Hw]. intros g Hin. destruct (Hg g Hin) as (H1 & H2 & _). split; [exact H1|]. apply of_kind_text in H2 as (_ & Hn & _). lia.
    + intros g Hin. destruct (Hg g Hin) as (H1 & H2 & _). eapply of_kind_text; exact H2.
  - apply converts_wkt; [exact Hs|exact Hp|]. eapply Forall_impl; [|exact Hf]. intros fs (Hg & Hl & Hw & Htx & Hr).
    split; [exact Hl|]. split; [|exact Htx]. intros g Hin. destruct (Hg g Hin) as (H1 & H2 & H3). destruct (of_kind_text _ _ _ H2) as (A1 & A2 & A3 & A4 & _).
    split; [exact A1|]. split; [exact H1|]. split; [lia|]. split; [exact A3|]. split; [exact A4|exact H3].
  - apply converts_native_same; [exact Hp|exact Hj| |exact Hk]. eapply Forall_impl; [|exact Hf]. intros fs (Hg & Hl & Hw & Htx & Hr). split; [|exact Hr].
    intros g Hin. destruct (Hg g Hin) as (H1 & H2 & _). split; assumption.
Qed.
