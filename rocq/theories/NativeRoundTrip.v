(** * Writing and reading native arrays *)
From Verif Require Import Base BaseFacts TypesModel GeomSpec VisitorModel VisitorSpec VisitorFacts BufferModel CoordsModel
  ArrowModel ArrayViewModel NativeSpec NativeProofs NativeVisitProofs GeomFacts NodesModel NodesSpec CopyCoordsModel CopyCoordsSpec CopyCoordsProofs
  BuilderModel BuilderSpec BuilderRun NativeWriterModel NativeWriterSpec NativeWriterGeom NativeWriterRun
  NativeWriterHistory NativeVisitorSpec NativeVisitorProofs NativeVisitorSeqs NativeVisitorHistory NativeRoundTripSpec.
Local Open Scope Z_scope.

Lemma array_reads k l d els a : k <> KBox -> array_of k l d els a -> reads_as k l d (shown k d els) a.
Proof.
  intros Hk (Hn & Hc & _) v Hv. apply (native_visit_ok k l d); [intros H; contradiction|exact Hv|exact Hn|exact Hc|intros H; contradiction].
Qed.
Lemma arrays_read k l d elss arrays : k <> KBox -> Forall2 (array_of k l d) elss arrays -> Forall2 (fun els => reads_as k l d (shown k d els)) elss arrays.
Proof. intros Hk H. induction H; constructor; auto. apply array_reads; assumption. Qed.

Lemma own_stored k d els : k <> KBox -> Forall (fun e => match e with Some x => wf_geom (nest_geom k d x) /\ unambiguous k d x | None => True end) els ->
  stored_as k d (shown k d els) els.
Proof.
  intros Hk H. unfold stored_as, shown. induction H as [|e els H _ IH]; constructor; [|exact IH]. destruct e as [x|]; [|reflexivity].
  cbn [option_map]. f_equal. apply store_own; [exact Hk|apply H|apply H].
Qed.

(** ** The sequences of what is kept of a feature *)
Lemma convert_length s d c : length c = ndim s -> length (convert_coord s d c) = ndim d.
Proof. intros H. destruct s, d; repeat (destruct c as [|? c]; try discriminate H); reflexivity. Qed.

Lemma convert_all_same d cs : Forall (fun c : coord => length c = ndim d) cs -> map (convert_coord d d) cs = cs.
Proof. intros H. induction H as [|c cs Hc _ IH]; [reflexivity|]. cbn [map]. f_equal; [apply convert_same; exact Hc|exact IH]. Qed.

Lemma seq_lengths d s cs : wf_seq s cs -> Forall (fun c : coord => length c = ndim d) (map (convert_coord s d) cs).
Proof. intros H. apply Forall_forall. intros c Hc. apply in_map_iff in Hc. destruct Hc as (c0 & <- & Hc). apply convert_length. unfold wf_seq in H. rewrite Forall_forall in H. apply (H c0 Hc). Qed.

Lemma coords_lengths d g : wf_geom g -> Forall (fun c : coord => length c = ndim d) (all_coords d g).
Proof.
  induction g as [s cs|s cs|s rings|c s parts IH] using geom_ind'; intros H.
  - inversion_clear H. unfold all_coords. cbn [geom_coords]. rewrite map_map. cbn [fst snd]. apply seq_lengths. assumption.
  - inversion_clear H. unfold all_coords. cbn [geom_coords]. rewrite map_map. cbn [fst snd]. apply seq_lengths. assumption.
  - inversion_clear H as [| |? ? H1|]. unfold all_coords. cbn [geom_coords]. rewrite map_map. cbn [fst snd]. apply seq_lengths.
    unfold wf_seq in *. apply Forall_forall. intros x Hx. apply in_concat in Hx. destruct Hx as (r & Hr & Hx). rewrite Forall_forall in H1. specialize (H1 r Hr). rewrite Forall_forall in H1. apply H1. exact Hx.
  - inversion_clear H as [| | |? ? ? H1]. rewrite all_coords_coll. induction parts as [|p parts IHp]; [constructor|]. inversion_clear H1 as [|? ? H2 H3]. apply Forall_cons_iff in IH. destruct IH as (IH1 & IH2).
    cbn [flat_map]. apply Forall_app. split; [apply IH1; exact H2|apply IHp; assumption].
Qed.

Lemma sequences_lengths d g : wf_geom g -> Forall (Forall (fun c : coord => length c = ndim d)) (sequences d g).
Proof.
  intros H. apply Forall_forall. intros s Hs. apply Forall_forall. intros c Hc. pose proof (coords_lengths d g H) as Hl. rewrite Forall_forall in Hl. apply Hl.
  rewrite <- concat_sequences. apply in_concat. eauto.
Qed.

Lemma keep_single {A} (ss : list (list A)) c : concat ss = [c] -> keep ss = [[c]].
Proof.
  induction ss as [|[|x s] ss IH]; cbn [concat app]; [discriminate|exact IH|]. intros E. injection E as -> E. apply app_eq_nil in E. destruct E as (-> & E).
  cbn [filter nonempty]. f_equal. clear IH. induction ss as [|s ss IH]; [reflexivity|]. cbn [concat] in E. apply app_eq_nil in E. destruct E as (-> & E). cbn [filter nonempty]. apply IH. exact E.
Qed.
Lemma keep_keep {A} (ss : list (list A)) : keep (keep ss) = keep ss.
Proof. induction ss as [|s ss IH]; [reflexivity|]. cbn [filter]. destruct (nonempty s) eqn:E; [|exact IH]. cbn [filter]. rewrite E, IH. reflexivity. Qed.
Lemma keep_concat {A} (ss : list (list (list A))) : keep (concat ss) = concat (map keep ss).
Proof. induction ss as [|s ss IH]; [reflexivity|]. cbn [concat map]. rewrite filter_app, IH. reflexivity. Qed.
Lemma keep_lengths d (ss : list (list coord)) : Forall (Forall (fun c : coord => length c = ndim d)) ss -> Forall (Forall (fun c : coord => length c = ndim d)) (keep ss).
Proof. intros H. apply Forall_forall. intros s Hs. apply filter_In in Hs. rewrite Forall_forall in H. apply H, Hs. Qed.
Lemma convert_seqs_same d (ss : list (list coord)) : Forall (Forall (fun c : coord => length c = ndim d)) ss -> map (map (convert_coord d d)) ss = ss.
Proof. intros H. induction H as [|s ss Hs _ IH]; [reflexivity|]. cbn [map]. f_equal; [apply convert_all_same; exact Hs|exact IH]. Qed.

Lemma multipoint_sequences d cs : sequences d (GColl CMultipoint d (map (fun c => GPoint d [c]) cs)) = [map (convert_coord d d) cs].
Proof. cbn [sequences]. f_equal. unfold all_coords. rewrite points_coords, map_map. reflexivity. Qed.
Lemma multiline_sequences d ss : sequences d (GColl CMultilinestring d (map (GLine d) ss)) = map (map (convert_coord d d)) ss.
Proof. cbn [sequences]. induction ss as [|s ss IH]; [reflexivity|]. cbn [map sequences app]. f_equal. exact IH. Qed.
Lemma multipolygon_sequences d pp : sequences d (GColl CMultipolygon d (map (GPoly d) pp)) = map (map (convert_coord d d)) (concat pp).
Proof. cbn [sequences]. induction pp as [|p pp IH]; [reflexivity|]. cbn [map sequences concat]. rewrite map_app. f_equal. exact IH. Qed.

Lemma visited_sequences k d g x : wf_geom g -> (k = KPoint -> geom_coords g <> []) -> visited k d g = Some x ->
  filter nonempty (sequences d (nest_geom k d x)) = filter nonempty (sequences d g).
Proof.
  intros Hw Hp E. pose proof (sequences_lengths d g Hw) as Hl. pose proof (coords_lengths d g Hw) as Hc.
  destruct k; try discriminate E; cbn [visited n_lists nest_geom nest] in *.
  - assert (all_coords d g <> []) as Hne by (intros H; apply (Hp eq_refl); unfold all_coords in H; apply map_eq_nil in H; exact H).
    destruct (all_coords d g) as [|c [|]] eqn:Ea; try discriminate E; [contradiction|]. injection E as ->. rewrite <- concat_sequences in Ea.
    rewrite (keep_single _ _ Ea). cbn [sequences map filter nonempty]. rewrite convert_same; [reflexivity|]. apply (Forall_inv Hc).
  - destruct (sequences d g) as [|a [|]] eqn:Es; try discriminate E; injection E as <-; cbn [sequences map]; [reflexivity|]. rewrite (convert_all_same d a (Forall_inv Hl)). reflexivity.
  - injection E as <-. cbn [sequences]. rewrite (convert_seqs_same d _ (keep_lengths d _ Hl)). apply keep_keep.
  - rewrite multipoint_sequences. destruct (sequences d g) as [|a [|]] eqn:Es; try discriminate E; injection E as <-; cbn [map]; [reflexivity|]. rewrite (convert_all_same d a (Forall_inv Hl)). reflexivity.
  - injection E as <-. rewrite multiline_sequences. rewrite (convert_seqs_same d _ (keep_lengths d _ Hl)). apply keep_keep.
  - injection E as <-. rewrite multipolygon_sequences, concat_nonempty.
    rewrite <- keep_concat, NativeVisitorMultipolygons.concat_groups_sequences. rewrite (convert_seqs_same d _ (keep_lengths d _ Hl)). apply keep_keep.
Qed.

(** ** Histories *)
Section Junk.
  Variable junk : nat -> nat -> N.
  Hypothesis junk_bytes : forall i j, is_byte (junk i j).
  Variables (k : geometry_kind) (l : layout) (d : dim).
  Hypothesis not_box : k <> KBox.
  Notation type := (make_type (geometry_kind_code k) (dim_code d) (layout_code l)).

  Lemma append_round_trip batches gss elss :
    Forall2 (Forall2 (denotes d)) batches gss -> Forall2 (stored_as k d) gss elss ->
    Forall (fun els => total_small (n_lists k) (map (element k d) els)) elss ->
    exists w arrays, writer_init junk type = Ok w /\ write_arrays junk w batches = Ok arrays /\
      Forall2 (fun els => reads_as k l d (shown k d els)) elss arrays.
  Proof.
    intros H1 H2 H3. destruct (native_arrays_ok junk junk_bytes k l d batches gss elss not_box H1 H2 H3) as (w & arrays & E1 & E2 & A).
    exists w, arrays. split; [exact E1|]. split; [exact E2|]. apply arrays_read; assumption.
  Qed.
  Lemma append_offsets batches gss elss :
    Forall2 (Forall2 (denotes d)) batches gss -> Forall2 (stored_as k d) gss elss ->
    Forall (fun els => total_small (n_lists k) (map (element k d) els)) elss ->
    exists w arrays, writer_init junk type = Ok w /\ write_arrays junk w batches = Ok arrays /\
      Forall2 (fun els a => aa_length a = Z.of_nat (length els) /\ aa_null_count a = null_count els /\ exact_offsets (n_lists k) a) elss arrays.
  Proof.
    intros H1 H2 H3. destruct (native_arrays_ok junk junk_bytes k l d batches gss elss not_box H1 H2 H3) as (w & arrays & E1 & E2 & A).
    exists w, arrays. split; [exact E1|]. split; [exact E2|]. clear -A. induction A as [|els a elss arrays (H1 & H2 & H3 & H4) _ IH]; constructor; [|exact IH].
    split; [|split; assumption]. destruct H2 as (H2 & _). rewrite H2. unfold shown. rewrite map_length. reflexivity.
  Qed.
  Lemma own_round_trip batches elss :
    Forall2 (Forall2 (denotes d)) batches (map (shown k d) elss) ->
    Forall (Forall (fun e => match e with Some x => unambiguous k d x | None => True end)) elss ->
    Forall (fun els => total_small (n_lists k) (map (element k d) els)) elss ->
    exists w arrays, writer_init junk type = Ok w /\ write_arrays junk w batches = Ok arrays /\
      Forall2 (reads_as k l d) (map (shown k d) elss) arrays.
  Proof.
    intros H1 H2 H3.
    assert (Forall2 (stored_as k d) (map (shown k d) elss) elss) as Hs.
    { clear H3. revert batches H1 H2. induction elss as [|els elss' IH]; intros batches H1 H2; cbn [map] in *; constructor; inversion H1 as [|? ? ? ? H4 H5]; subst; apply Forall_cons_iff in H2; destruct H2 as (H2 & H6).
      - apply own_stored; [exact not_box|]. clear -H2 H4. unfold shown in H4. revert x H4. induction H2 as [|e els He _ IH]; intros x H4; [constructor|]. cbn [map] in H4. inversion H4 as [|i ? ? ? H5 H6]; subst.
        constructor; [|eapply IH; exact H6]. destruct e as [e|]; [|exact I]. split; [|exact He]. destruct i as [[m nodes]|]; [|contradiction]. apply H5.
      - eapply IH; eassumption. }
    destruct (append_round_trip batches _ elss H1 Hs H3) as (w & arrays & E1 & E2 & A). exists w, arrays. split; [exact E1|]. split; [exact E2|].
    clear -A. induction A; cbn [map]; constructor; assumption.
  Qed.
  Lemma append_refused items gs els w m nodes g :
    writer_init junk type = Ok w -> Forall2 (denotes d) items gs -> stored_as k d gs els -> Forall (small (n_lists k)) (map (element k d) els) ->
    item_ok d m nodes g -> proper g -> store k d g = None -> append_items junk w (items ++ [Some (m, nodes)]) = Err EINVAL.
  Proof.
    intros Ew Hd Hs Hsm Hi Hp Hn. destruct (NativeWriterProofs.writer_init_ok junk junk_bytes k l d not_box) as (w0 & E0 & H0). assert (w0 = w) as -> by congruence.
    destruct (append_items_ok junk junk_bytes k l d not_box items gs els w [] H0 Hd Hs Hsm) as (w1 & E1 & H1).
    assert (append_item junk w1 (Some (m, nodes)) = VRet w1 EINVAL) as Er by (eapply append_rejected; eassumption).
    clear -E1 Er. revert w E1. induction items as [|i items IH]; intros w E1; cbn [append_items app] in *.
    - injection E1 as ->. rewrite Er. reflexivity.
    - destruct (append_item junk w i) as [w2 c|]; [|discriminate E1]. destruct (c =? 0); [|discriminate E1]. apply IH. exact E1.
  Qed.

  Lemma visit_round_trip batches gss elss :
    Forall2 features_events gss batches -> Forall2 (visited_as k d) gss elss -> Forall (Forall (feature_for k)) gss -> Forall (has_room k d) gss ->
    exists w v arrays, writer_init junk type = Ok w /\ native_visitor junk (geometry_kind_code k) = Some v /\ visit_arrays junk v w batches = Ok arrays /\
      Forall2 (fun els => reads_as k l d (shown k d els)) elss arrays.
  Proof.
    intros H1 H2 H3 H4. destruct (visit_arrays_ok junk junk_bytes k l d not_box batches gss elss H1 H2 H3 H4) as (w & v & arrays & E1 & E2 & E3 & A).
    exists w, v, arrays. split; [exact E1|]. split; [exact E2|]. split; [exact E3|]. apply arrays_read; assumption.
  Qed.
  Lemma visit_offsets batches gss elss :
    Forall2 features_events gss batches -> Forall2 (visited_as k d) gss elss -> Forall (Forall (feature_for k)) gss -> Forall (has_room k d) gss ->
    exists w v arrays, writer_init junk type = Ok w /\ native_visitor junk (geometry_kind_code k) = Some v /\ visit_arrays junk v w batches = Ok arrays /\
      Forall2 (fun els a => aa_length a = Z.of_nat (length els) /\ aa_null_count a = null_count els /\ exact_offsets (n_lists k) a) elss arrays.
  Proof.
    intros H1 H2 H3 H4. destruct (visit_arrays_ok junk junk_bytes k l d not_box batches gss elss H1 H2 H3 H4) as (w & v & arrays & E1 & E2 & E3 & A).
    exists w, v, arrays. split; [exact E1|]. split; [exact E2|]. split; [exact E3|]. clear -A. induction A as [|els a elss arrays (H1 & H2 & H3 & H4) _ IH]; constructor; [|exact IH].
    split; [|split; assumption]. destruct H2 as (H2 & _). rewrite H2. unfold shown. rewrite map_length. reflexivity.
  Qed.

  Lemma visit_refused v w gs els evs g e : native_visitor junk (geometry_kind_code k) = Some v -> writer_init junk type = Ok w ->
    features_events gs evs -> visited_as k d gs els -> Forall (feature_for k) gs -> has_room k d gs ->
    deliverable k g -> wf_geom g -> feature_events (Some g) e -> visited k d g = None ->
    (k = KPoint \/ Z.of_nat (length (feature_coords d (gs ++ [Some g]))) <= 2147483647) ->
    exists w', feed v w (evs ++ e) = Some (w', EINVAL).
  Proof.
    intros H1 H2 H3 H4 H5 H6 H7 H8 H9 Hn Hr. destruct (visit_stopped junk junk_bytes k l d not_box v w gs els evs g e H1 H2 H3 H4 H5 H6 H7 H8 H9 (or_introl Hn)) as (w' & E).
    exists w'. rewrite E. do 2 f_equal. destruct Hr as [-> |Hr]; [reflexivity|]. destruct (Z.ltb_spec int32_max (Z.of_nat (length (feature_coords d (gs ++ [Some g]))))); [unfold int32_max in *; lia|]. rewrite andb_false_r. reflexivity.
  Qed.
  Lemma visit_overflow v w gs els evs g e : native_visitor junk (geometry_kind_code k) = Some v -> writer_init junk type = Ok w -> k <> KPoint ->
    features_events gs evs -> visited_as k d gs els -> Forall (feature_for k) gs -> has_room k d gs ->
    deliverable k g -> wf_geom g -> feature_events (Some g) e ->
    Z.of_nat (length (feature_coords d (gs ++ [Some g]))) > 2147483647 -> Z.of_nat (length (feature_sequences d (gs ++ [Some g]))) < 2147483647 ->
    exists w', feed v w (evs ++ e) = Some (w', EOVERFLOW).
  Proof.
    intros H1 H2 Hk H3 H4 H5 H6 H7 H8 H9 Hn Hr.
    destruct (visit_stopped junk junk_bytes k l d not_box v w gs els evs g e H1 H2 H3 H4 H5 H6 H7 H8 H9 (or_intror (conj Hk (conj Hn Hr)))) as (w' & E).
    exists w'. rewrite E. do 2 f_equal. replace (match k with KPoint => false | _ => true end) with true by (clear -Hk; destruct k; (contradiction || reflexivity)).
    destruct (Z.ltb_spec int32_max (Z.of_nat (length (feature_coords d (gs ++ [Some g]))))); [reflexivity|]. unfold int32_max in *. lia.
  Qed.
End Junk.
