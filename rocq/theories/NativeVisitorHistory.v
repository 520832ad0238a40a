(** * Arrays of features delivered to a native writer *)
From Verif Require Import Base BaseFacts TypesModel GeomSpec VisitorModel VisitorSpec VisitorFacts BufferModel BufferFacts CoordsModel BitmapModel BitmapSpec BitmapProofs
  ArrowModel ArrayViewModel NativeSpec NativeProofs GeomFacts NodesModel NodesSpec CopyCoordsModel CopyCoordsSpec CopyCoordsProofs
  BuilderModel BuilderSpec BuilderRun BuilderFacts BuilderCoords BuilderAppend BuilderFinish BuilderProofs
  NativeWriterModel NativeWriterSpec NativeWriterFacts NativeWriterAppend NativeWriterGeom NativeWriterArray NativeWriterFinish NativeWriterRun
  NativeWriterProofs NativeWriterHistory NativeVisitorSpec NativeVisitorProofs NativeVisitorLines NativeVisitorPoints NativeVisitorSeqs NativeVisitorPolygons NativeVisitorMultipolygons.
Local Open Scope Z_scope.

(** What an accepted geometry leaves in the array. *)
Lemma visited_leaves k d g x : k <> KPoint -> visited k d g = Some x -> leaves (n_lists k) [x] = all_coords d g.
Proof.
  intros Hk E. destruct k; try contradiction; try discriminate E; cbn [visited n_lists leaves] in *.
  - rewrite <- concat_sequences. destruct (sequences d g) as [|a [|]]; try discriminate E; injection E as <-; reflexivity.
  - injection E as <-. cbn [concat]. rewrite app_nil_r, concat_nonempty. apply concat_sequences.
  - rewrite <- concat_sequences. destruct (sequences d g) as [|a [|]]; try discriminate E; injection E as <-; reflexivity.
  - injection E as <-. cbn [concat]. rewrite app_nil_r, concat_nonempty. apply concat_sequences.
  - injection E as <-. cbn [concat]. rewrite app_nil_r, concat_nonempty. rewrite <- concat_groups. generalize (groups d g). intros gs.
    induction gs as [|a gs IH]; [reflexivity|]. cbn [map concat]. rewrite !concat_app, concat_nonempty, IH. reflexivity.
Qed.
Lemma empty_leaves k d : k <> KPoint -> k <> KBox -> leaves (n_lists k) [nest_empty k d] = [].
Proof. destruct k; try contradiction; reflexivity. Qed.

Lemma solid_small n : forall xs, Forall (solid n) xs -> Z.of_nat (length (leaves n xs)) < 2 ^ 31 -> total_small n xs.
Proof.
  induction n as [|n IH]; intros xs Hs Hl; cbn [total_small]; [exact I|]. destruct (solid_concat n xs Hs) as (_ & H2). cbn [leaves] in Hl.
  pose proof (solid_length n _ H2). split; [eapply Z.le_lt_trans; [apply inj_le; eassumption|exact Hl]|]. apply IH; assumption.
Qed.
Lemma compact_small n xs : compact n xs -> Z.of_nat (length (leaves n xs)) < 2 ^ 31 -> total_small n xs.
Proof.
  destruct n as [|n]; [intros; exact I|]. cbn [compact leaves total_small]. intros H Hl. pose proof (solid_length n _ H). split; [eapply Z.le_lt_trans; [apply inj_le; eassumption|exact Hl]|].
  apply solid_small; assumption.
Qed.

(** One feature: what is stored of it, and its coordinates. *)
Definition stored_one (k : geometry_kind) (d : dim) (g : option geom) : option (option (nest (n_lists k))) :=
  match g with Some g => option_map Some (visited k d g) | None => Some None end.
Definition coords_one (d : dim) (g : option geom) : list coord := match g with Some g => all_coords d g | None => [] end.

Section Junk.
  Variable junk : nat -> nat -> N.
  Hypothesis junk_bytes : forall i j, is_byte (junk i j).
  Variables (k : geometry_kind) (l : layout) (d : dim).
  Hypothesis not_box : k <> KBox.

  Notation vals els := (map (element k d) els).
  Notation lvs els := (leaves (n_lists k) (vals els)).

  Notation stored_one := (stored_one k d).
  Notation coords_one := (coords_one d).

  Lemma one_took v w els g evs : native_visitor junk (geometry_kind_code k) = Some v -> visiting k l d w els -> (k = KPoint \/ Z.of_nat (length (lvs els)) <= int32_max) ->
    feature_for k g -> feature_events g evs -> (forall e, stored_one g = Some e -> few k d (els ++ [e])) ->
    exists n, took k l d v w evs n els (stored_one g) /\ (k <> KPoint -> n = Z.of_nat (length (lvs els)) + Z.of_nat (length (coords_one g))) /\ (k = KPoint -> n = 0).
  Proof.
    intros Hv Hw Hm Hg He Hfew. destruct (match k with KPoint => true | _ => false end) eqn:Ek.
    - destruct k; try discriminate Ek. injection Hv as <-. exists 0. split; [|split; [contradiction|reflexivity]].
      apply (point_took junk junk_bytes l d w els g evs Hw); [|exact He]. destruct g as [g|]; [apply Hg|exact I].
    - assert (k <> KPoint) as Hp by (destruct k; discriminate). destruct Hm as [|Hm]; [contradiction|].
      exists (Z.of_nat (length (lvs els)) + Z.of_nat (length (coords_one g))). split; [|split; [reflexivity|contradiction]].
      destruct g as [g|]; cbn [stored_one coords_one feature_for] in *.
      + destruct Hg as (Hd & Hwf).
        assert (forall x, visited k d g = Some x -> few k d (els ++ [Some x])) as Hfew' by (intros x Ex; apply Hfew; rewrite Ex; reflexivity).
        destruct k; try contradiction; injection Hv as <-.
        * apply line_some; auto.
        * apply poly_some; auto.
        * apply line_some; auto.
        * apply poly_some; auto.
        * apply mp_some; auto.
      + specialize (Hfew None eq_refl). cbn [length]. rewrite Z.add_0_r. destruct k; try contradiction; injection Hv as <-.
        * apply line_null; auto.
        * apply poly_null; auto.
        * apply line_null; auto.
        * apply poly_null; auto.
        * apply mp_null; auto.
  Qed.

  Lemma stored_compact g e : stored_one g = Some e -> compact (n_lists k) [element k d e].
  Proof.
    destruct g as [g|]; cbn [stored_one].
    - destruct (visited k d g) as [x|] eqn:Ex; [|discriminate]. intros E. injection E as <-. eapply visited_compact. exact Ex.
    - intros E. injection E as <-. apply empty_compact. exact not_box.
  Qed.
  Lemma stored_leaves g e : k <> KPoint -> stored_one g = Some e -> leaves (n_lists k) [element k d e] = coords_one g.
  Proof.
    intros Hk. destruct g as [g|]; cbn [stored_one coords_one].
    - destruct (visited k d g) as [x|] eqn:Ex; [|discriminate]. intros E. injection E as <-. eapply visited_leaves; eassumption.
    - intros E. injection E as <-. apply empty_leaves; assumption.
  Qed.
  Lemma stored_all gs els : visited_as k d gs els <-> Forall2 (fun g e => stored_one g = Some e) gs els.
  Proof.
    unfold visited_as. split; intros H; induction H as [|g e gs els H _ IH]; constructor; auto; clear IH; destruct g as [g|], e as [e|]; cbn [option_map stored_one] in *; try discriminate H; auto.
    - injection H as ->. reflexivity.
    - destruct (visited k d g); [|discriminate H]. injection H as ->. reflexivity.
    - destruct (visited k d g); discriminate H.
  Qed.

  Lemma stored_few gs els : Forall2 (fun g e => stored_one g = Some e) gs els -> Z.of_nat (length (feature_sequences d gs)) < int32_max -> few k d els.
  Proof.
    intros Hs Hm i Hi.
    assert (forall g e, stored_one g = Some e -> (length (counts (n_lists k) [element k d e] (S i)) <= length (match g with Some g => filter nonempty (sequences d g) | None => [] end))%nat) as H1.
    { clear -Hi not_box. intros g e H. destruct g as [g|]; cbn [stored_one] in H.
      - destruct (visited k d g) as [x|] eqn:Ex; [|discriminate H]. injection H as <-. cbn [element].
        destruct k; cbn [n_lists] in Hi; try lia; cbn [visited] in Ex; injection Ex as <-.
        + assert (i = 0)%nat as -> by lia. cbn [counts n_lists concat]. rewrite app_nil_r, map_length. apply Nat.le_refl.
        + assert (i = 0)%nat as -> by lia. cbn [counts n_lists concat]. rewrite app_nil_r, map_length. apply Nat.le_refl.
        + assert (concat (map keep (groups d g)) = keep (sequences d g)) as Eg.
          { transitivity (keep (concat (groups d g))).
            - generalize (groups d g). intros gs. induction gs as [|a gs IH]; [reflexivity|]. cbn [map concat]. rewrite filter_app, IH. reflexivity.
            - f_equal. apply concat_groups_sequences. }
          destruct i as [|i].
          * cbn [counts n_lists concat]. rewrite app_nil_r, map_length. rewrite <- Eg. etransitivity; [apply keep_length|]. apply Nat.le_refl.
          * assert (i = 0)%nat as -> by lia. cbn [counts n_lists concat]. rewrite app_nil_r, map_length, concat_nonempty, Eg. apply Nat.le_refl.
      - injection H as <-. cbn [element length]. destruct k; cbn [n_lists] in *; try lia; destruct i as [|[|i]]; cbn; lia. }
    enough (length (counts (n_lists k) (vals els) (S i)) <= length (feature_sequences d gs))%nat as H by lia.
    clear Hm. induction Hs as [|g e gs els Hge _ IH].
    - clear. destruct k; cbn; try lia; destruct i as [|[|i]]; cbn; lia.
    - unfold feature_sequences in *. cbn [map flat_map]. change (element k d e :: vals els) with ([element k d e] ++ vals els). rewrite counts_app, !app_length. specialize (H1 g e Hge). lia.
  Qed.

  Notation fits := (has_room k d).

  Lemma fits_app gs gs' : fits (gs ++ gs') -> fits gs.
  Proof. intros [|(H1 & H2)]; [left; assumption|right]. unfold feature_coords, feature_sequences in *. rewrite flat_map_app, app_length in H1. rewrite flat_map_app, app_length in H2. lia. Qed.
  Lemma point_few els : k = KPoint -> few k d els.
  Proof. intros -> i Hi. cbn in Hi. lia. Qed.
  Lemma stored_coords gs els : k <> KPoint -> Forall2 (fun g e => stored_one g = Some e) gs els -> lvs els = feature_coords d gs.
  Proof.
    intros Hk H. unfold feature_coords. induction H as [|g e gs els H _ IH]; [clear; destruct k; reflexivity|].
    cbn [map flat_map]. change (element k d e :: vals els) with ([element k d e] ++ vals els). rewrite leaves_app, IH. f_equal. apply stored_leaves; assumption.
  Qed.
  Lemma stored_dense gs els : Forall2 (fun g e => stored_one g = Some e) gs els -> compact (n_lists k) (vals els).
  Proof.
    intros H. induction H as [|g e gs els H _ IH]; [clear; destruct k; first [exact I|constructor]|].
    cbn [map]. change (element k d e :: vals els) with ([element k d e] ++ vals els). apply compact_app. split; [eapply stored_compact; exact H|exact IH].
  Qed.
  Lemma point_dec : k = KPoint \/ k <> KPoint.
  Proof. clear. destruct k; (left; reflexivity) || (right; discriminate). Qed.

  Lemma visit_batch v : native_visitor junk (geometry_kind_code k) = Some v -> forall gs evs, features_events gs evs -> forall els w gs0 done,
    visited_as k d gs0 done -> visited_as k d gs els -> Forall (feature_for k) gs -> visiting k l d w done -> fits (gs0 ++ gs) ->
    exists w', feed v w evs = Some (w', 0) /\ visiting k l d w' (done ++ els).
  Proof.
    intros Hv gs evs He. induction He as [|g gs e1 e2 He1 _ IH]; intros els w gs0 done H0 Hs Hf Hw Hm; apply stored_all in H0; apply stored_all in Hs.
    - inversion Hs; subst. exists w. rewrite app_nil_r. cbn [feed]. split; [reflexivity|]. exact Hw.
    - inversion Hs as [|? e ? els' Hs1 Hs2]; subst. apply Forall_cons_iff in Hf. destruct Hf as (Hf1 & Hf2).
      assert (Forall2 (fun g e => stored_one g = Some e) (gs0 ++ [g]) (done ++ [e])) as H1 by (apply Forall2_app; [exact H0|constructor; [exact Hs1|constructor]]).
      change (g :: gs) with ([g] ++ gs) in Hm. rewrite app_assoc in Hm. pose proof (fits_app _ _ Hm) as Hm1. pose proof (fits_app _ _ Hm1) as Hm0.
      destruct (one_took v w done g e1 Hv Hw) as (n & Ht & Hn & Hn0); [|exact Hf1|exact He1| |].
      { destruct point_dec as [|Hp]; [left; assumption|right]. destruct Hm0 as [|(Hm0 & _)]; [contradiction|]. rewrite (stored_coords gs0); assumption. }
      { intros e' Ee. assert (e' = e) as -> by congruence. destruct Hm1 as [|(_ & Hm1)]; [apply point_few; assumption|]. eapply stored_few; eassumption. }
      rewrite Hs1 in Ht. destruct Ht as (w1 & c & E1 & [(_ & -> & V1)|(Hgt & _)]).
      2: { exfalso. destruct point_dec as [Hp|Hp].
           - rewrite (Hn0 Hp) in Hgt. unfold int32_max in Hgt. lia.
           - rewrite (Hn Hp) in Hgt. destruct Hm1 as [|(Hm1 & _)]; [contradiction|]. rewrite (stored_coords gs0 done Hp H0) in Hgt. unfold feature_coords in *.
             rewrite flat_map_app, len_app in Hm1. cbn [flat_map] in Hm1. rewrite app_nil_r in Hm1. unfold coords_one, int32_max in *. lia. }
      rewrite (feed_app_ok _ _ _ _ _ E1). destruct (IH els' w1 (gs0 ++ [g]) (done ++ [e])) as (w' & E & V); auto.
      { apply stored_all. exact H1. }
      { apply stored_all. exact Hs2. }
      exists w'. split; [exact E|]. rewrite <- app_assoc in V. exact V.
  Qed.

  Lemma visit_finish w gs els : visiting k l d w els -> visited_as k d gs els -> fits gs ->
    exists a w', writer_finish junk w = Ok (a, w') /\ array_of k l d els a /\ visiting k l d w' [].
  Proof.
    intros [H1 H2 H3 H4] Hs Hm. apply stored_all in Hs. destruct (writer_finish_built junk junk_bytes k l d w els not_box H1 H2 H3) as (a & w' & E & A & H & D).
    { destruct point_dec as [-> |Hp]; [exact I|]. apply compact_small; [eapply stored_dense; exact Hs|]. destruct Hm as [|(Hm & _)]; [contradiction|].
      rewrite (stored_coords gs els Hp Hs). unfold int32_max in Hm. change (2 ^ 31) with 2147483648. lia. }
    exists a, w'. split; [exact E|]. split; [exact A|]. apply holding_visiting; [exact H|]. rewrite D. exact H4.
  Qed.

  Lemma visit_arrays_go v : native_visitor junk (geometry_kind_code k) = Some v -> forall batches gss elss w,
    Forall2 features_events gss batches -> Forall2 (visited_as k d) gss elss -> Forall (Forall (feature_for k)) gss -> Forall fits gss -> visiting k l d w [] ->
    exists arrays, visit_arrays junk v w batches = Ok arrays /\ Forall2 (array_of k l d) elss arrays.
  Proof.
    intros Hv. induction batches as [|evs batches IH]; intros gss elss w He Hs Hf Hm Hw; cbn [visit_arrays]; inversion He as [|gs ? gss' ? He1 He2]; subst.
    - inversion Hs; subst. exists []. split; [reflexivity|constructor].
    - inversion Hs as [|? els ? elss' Hs1 Hs2]; subst. apply Forall_cons_iff in Hf, Hm. destruct Hf as (Hf1 & Hf2), Hm as (Hm1 & Hm2).
      destruct (visit_batch v Hv gs evs He1 els w [] [] (Forall2_nil _) Hs1 Hf1 Hw Hm1) as (w1 & E1 & V1).
      rewrite E1. change (0 =? 0) with true. cbn iota. cbn [app] in V1.
      destruct (visit_finish w1 gs els V1 Hs1 Hm1) as (a & w2 & E2 & A2 & V2).
      rewrite E2. cbn [obind]. destruct (IH gss' elss' w2 He2 Hs2 Hf2 Hm2 V2) as (arrays & E3 & A3). rewrite E3. cbn [obind].
      exists (a :: arrays). split; [reflexivity|]. constructor; assumption.
  Qed.

  Lemma init_visiting : exists w, writer_init junk (make_type (geometry_kind_code k) (dim_code d) (layout_code l)) = Ok w /\ visiting k l d w [].
  Proof.
    destruct (writer_init_dims junk junk_bytes k l d not_box) as (w & E & H & D). exists w. split; [exact E|]. apply holding_visiting; [exact H|]. left. exact D.
  Qed.

  (** Arrays, one after the other. *)
  Lemma visit_arrays_ok batches gss elss :
    Forall2 features_events gss batches -> Forall2 (visited_as k d) gss elss -> Forall (Forall (feature_for k)) gss -> Forall fits gss ->
    exists w v arrays, writer_init junk (make_type (geometry_kind_code k) (dim_code d) (layout_code l)) = Ok w /\ native_visitor junk (geometry_kind_code k) = Some v /\
      visit_arrays junk v w batches = Ok arrays /\ Forall2 (array_of k l d) elss arrays.
  Proof.
    intros He Hs Hf Hm. destruct init_visiting as (w & E & V).
    assert (exists v, native_visitor junk (geometry_kind_code k) = Some v) as (v & Ev) by (clear -not_box; destruct k; try contradiction; eexists; reflexivity).
    destruct (visit_arrays_go v Ev batches gss elss w He Hs Hf Hm V) as (arrays & E2 & A). exists w, v, arrays. auto.
  Qed.

  (** A feature the array cannot hold, or has no room for, after features it can. *)
  Lemma visit_stopped v w gs els evs g e : native_visitor junk (geometry_kind_code k) = Some v ->
    writer_init junk (make_type (geometry_kind_code k) (dim_code d) (layout_code l)) = Ok w ->
    features_events gs evs -> visited_as k d gs els -> Forall (feature_for k) gs -> fits gs ->
    deliverable k g -> wf_geom g -> feature_events (Some g) e ->
    (visited k d g = None \/ k <> KPoint /\ Z.of_nat (length (feature_coords d (gs ++ [Some g]))) > int32_max /\ Z.of_nat (length (feature_sequences d (gs ++ [Some g]))) < int32_max) ->
    exists w', feed v w (evs ++ e) =
      Some (w', if (match k with KPoint => false | _ => true end) && (int32_max <? Z.of_nat (length (feature_coords d (gs ++ [Some g])))) then EOVERFLOW else EINVAL).
  Proof.
    intros Hv Hi He Hs Hf Hm0 Hd Hwf Hg Hor. destruct init_visiting as (w0 & E0 & V0). assert (w0 = w) as -> by congruence.
    destruct (visit_batch v Hv gs evs He els w [] [] (Forall2_nil _) Hs Hf V0 Hm0) as (w1 & E1 & V1). cbn [app] in V1. rewrite (feed_app_ok _ _ _ _ _ E1).
    apply stored_all in Hs.
    destruct (one_took v w1 els (Some g) e Hv V1) as (n & Ht & Hnn & Hn0); [|split; assumption|exact Hg| |].
    { destruct point_dec as [|Hp]; [left; assumption|right]. destruct Hm0 as [|(Hm0 & _)]; [contradiction|]. rewrite (stored_coords gs); assumption. }
    { intros e0 Ee. destruct Hor as [Hn|(Hp & _ & Hq)]; [cbn [NativeVisitorHistory.stored_one] in Ee; rewrite Hn in Ee; discriminate Ee|].
      eapply stored_few; [|exact Hq]. apply Forall2_app; [exact Hs|constructor; [exact Ee|constructor]]. }
    assert (k <> KPoint -> n = Z.of_nat (length (feature_coords d (gs ++ [Some g])))) as Hnn'.
    { intros Hp. rewrite (Hnn Hp), (stored_coords gs els Hp Hs). unfold feature_coords. rewrite flat_map_app, len_app. cbn [flat_map]. rewrite app_nil_r. reflexivity. }
    assert ((match k with KPoint => false | _ => true end) && (int32_max <? Z.of_nat (length (feature_coords d (gs ++ [Some g])))) = (int32_max <? n)) as ->.
    { destruct point_dec as [Hp|Hp].
      - rewrite (Hn0 Hp). rewrite Hp at 1. reflexivity.
      - rewrite (Hnn' Hp). replace (match k with KPoint => false | _ => true end) with true; [reflexivity|]. clear -Hp. destruct k; (contradiction || reflexivity). }
    destruct Hor as [Hn|(Hp & Hq & _)].
    - cbn [NativeVisitorHistory.stored_one] in Ht. rewrite Hn in Ht. cbn [option_map took] in Ht. destruct Ht as (w' & c & E & [(Hle & ->)|(Hgt & ->)]); exists w'; rewrite E; do 2 f_equal.
      + destruct (Z.ltb_spec int32_max n); [lia|reflexivity].
      + destruct (Z.ltb_spec int32_max n); [reflexivity|lia].
    - rewrite <- (Hnn' Hp) in Hq. destruct (NativeVisitorHistory.stored_one k d (Some g)) as [x|]; destruct Ht as (w' & c & E & [(Hle & _)|(Hgt & Hc)]); try lia; exists w'; rewrite E; do 2 f_equal;
      (destruct (Z.ltb_spec int32_max n); [|lia]); (exact Hc || apply Hc).
  Qed.
End Junk.
