(** * Features delivered to a writer of polygons or multilinestrings *)
From Verif Require Import Base BaseFacts TypesModel GeomSpec VisitorModel VisitorSpec VisitorFacts BufferModel BufferFacts CoordsModel BitmapModel BitmapSpec BitmapProofs
  ArrowModel ArrayViewModel NativeSpec NativeProofs GeomFacts NodesModel NodesSpec CopyCoordsModel CopyCoordsSpec CopyCoordsProofs
  BuilderModel BuilderSpec BuilderRun BuilderFacts BuilderCoords BuilderAppend BuilderFinish BuilderProofs
  NativeWriterModel NativeWriterSpec NativeWriterFacts NativeWriterAppend NativeWriterGeom NativeWriterArray NativeWriterFinish NativeWriterRun
  NativeWriterProofs NativeWriterHistory NativeVisitorSpec NativeVisitorProofs NativeVisitorLines NativeVisitorSeqs.
Local Open Scope Z_scope.

(** Values without empty lists below the outermost level. *)
Fixpoint solid (n : nat) : nest n -> Prop :=
  match n return nest n -> Prop with
  | O => fun _ => True
  | S n' => fun x => x <> [] /\ Forall (solid n') x
  end.
Definition compact (n : nat) : list (nest n) -> Prop :=
  match n return list (nest n) -> Prop with
  | O => fun _ => True
  | S n' => fun xs => Forall (solid n') (concat xs)
  end.

Lemma compact_app n a b : compact n (a ++ b) <-> compact n a /\ compact n b.
Proof. destruct n; cbn [compact]; [tauto|]. rewrite concat_app, Forall_app. reflexivity. Qed.

Lemma solid_concat n (xs : list (nest (S n))) : Forall (solid (S n)) xs -> (length xs <= length (concat xs))%nat /\ Forall (solid n) (concat xs).
Proof.
  induction 1 as [|x xs (Hx & Hxs) _ (IH1 & IH2)]; [split; [apply Nat.le_refl|constructor]|]. cbn [concat length]. rewrite app_length, Forall_app.
  split; [|auto]. destruct x; [contradiction|]. cbn [length]. change (nest (S n)) with (list (nest n)) in *. lia.
Qed.
Lemma solid_length n : forall xs, Forall (solid n) xs -> (length xs <= length (leaves n xs))%nat.
Proof.
  induction n as [|n IH]; intros xs H; [apply Nat.le_refl|]. destruct (solid_concat n xs H) as (H1 & H2). cbn [leaves]. etransitivity; [exact H1|]. apply IH. exact H2.
Qed.
Lemma solid_counts n : forall xs, Forall (solid n) xs -> forall i, (length (counts n xs i) <= length (leaves n xs))%nat.
Proof.
  induction n as [|n IH]; intros xs H i; [cbn; lia|]. destruct (solid_concat n xs H) as (H1 & H2). cbn [leaves counts]. destruct i as [|i].
  - rewrite map_length. etransitivity; [exact H1|]. apply solid_length. exact H2.
  - apply IH. exact H2.
Qed.
Lemma compact_counts n xs i : compact n xs -> (length (counts n xs (S i)) <= length (leaves n xs))%nat.
Proof. destruct n as [|n]; cbn [compact counts leaves]; [cbn; lia|]. intros H. apply solid_counts. exact H. Qed.

Lemma keep_solid (xs : list (list coord)) : Forall (solid 1) (keep xs).
Proof.
  apply Forall_forall. intros x Hx. apply filter_In in Hx. destruct Hx as (_ & Hx). split; [destruct x; [discriminate|discriminate]|].
  apply Forall_forall. intros c _. exact I.
Qed.
Lemma visited_compact k d g x : visited k d g = Some x -> compact (n_lists k) [x].
Proof.
  destruct k; cbn [visited n_lists compact]; intros E; try exact I; try discriminate.
  - apply Forall_forall. intros c _. exact I.
  - injection E as <-. cbn [concat]. rewrite app_nil_r. apply keep_solid.
  - apply Forall_forall. intros c _. exact I.
  - injection E as <-. cbn [concat]. rewrite app_nil_r. apply keep_solid.
  - injection E as <-. cbn [concat]. rewrite app_nil_r. apply Forall_forall. intros y Hy. apply filter_In in Hy. destruct Hy as (Hy & Hn).
    split; [destruct y; discriminate|]. apply in_map_iff in Hy. destruct Hy as (z & <- & _). apply keep_solid.
Qed.
Lemma empty_compact k d : k <> KBox -> compact (n_lists k) [nest_empty k d].
Proof. destruct k; cbn; auto. Qed.

(** Few enough lists for their number to be an offset. *)
Definition few (k : geometry_kind) (d : dim) (els : list (option (nest (n_lists k)))) : Prop :=
  forall i, (S i < n_lists k)%nat -> Z.of_nat (length (counts (n_lists k) (map (element k d) els) (S i))) < int32_max.

Section Junk.
  Variable junk : nat -> nat -> N.
  Hypothesis junk_bytes : forall i j, is_byte (junk i j).
  Variables (k : geometry_kind) (l : layout) (d : dim).
  Hypothesis kind : k = KPolygon \/ k = KMultilinestring.
  Notation pv := (polygon_visitor junk).

  Lemma not_box_poly : k <> KBox.
  Proof. destruct kind as [-> | ->]; discriminate. Qed.
  Lemma two_lists : n_lists k = 2%nat.
  Proof. destruct kind as [-> | ->]; reflexivity. Qed.

  Notation vals els := (map (element k d) els).
  Notation cnts els := (counts (n_lists k) (vals els)).
  Notation lvs els := (leaves (n_lists k) (vals els)).

  Lemma visiting_closed w els : visiting k l d w els ->
    closed k l d 0 (nw_builder w) (cnts els) (lvs els) /\ total (cnts els 0%nat) = Z.of_nat (length (cnts els 1%nat)).
  Proof.
    intros [H1 _ _ _]. split; [split; [exact H1|]|]; clear -kind; destruct kind as [-> | ->]; cbn [n_lists counts leaves].
    - apply total_lens.
    - apply total_lens.
    - rewrite map_length. apply total_lens.
    - rewrite map_length. apply total_lens.
  Qed.

  Section Within.
    Variables (bm : bitmap) (nc len : Z) (last : quad Z) (null : bool) (nst : Z).
    Notation W := (NativeVisitorProofs.W bm nc len last null).

    Lemma pg_geom g : made_of (fun g => is_line g \/ is_poly g) (fun c => c <> CMultipoint) g -> wf_geom g ->
      forall evs, geom_events g evs -> forall b dm q m cnt acc, closed k l d 0 b cnt acc -> seen_dims dm -> Z.of_nat (length acc) <= int32_max ->
      ends pv (W b nst dm (sq q 0 m 0) 0) evs (Z.of_nat (length acc) + Z.of_nat (length (concat (sequences d g))))
        (seq_state k l d 0 bm nc len last null nst seen_dims q m 0 cnt acc (sequences d g)).
    Proof.
      induction 1 as [g Hleaf|c s parts Hc Hparts IH]; intros Hw evs He b dm q m cnt acc Hl Hd Hm.
      - destruct Hleaf as [H|H].
        + destruct g as [|s cs| |]; try contradiction H. inversion He as [|? ? e He1| |]; subst. inversion Hw as [|? ? Hw1| |]; subst.
          cbn [app]. eapply ends_cons; [cbn [polygon_visitor]; rewrite dims_code; reflexivity|]. cbn [sequences concat]. rewrite app_nil_r. rewrite map_length.
          apply (seq_closed junk junk_bytes k l d not_box_poly pv 0 ltac:(lia) two_lists ltac:(reflexivity) bm nc len last null nst seen_dims s cs e EGeomEnd b q m 0 1); auto. apply seen_dim.
        + destruct g as [| |s rings|]; try contradiction H. inversion He as [| |? ? e He1|]; subst. inversion Hw as [| |? ? Hw1|]; subst.
          cbn [app]. eapply ends_cons; [cbn [polygon_visitor]; rewrite dims_code; reflexivity|]. rewrite len_rings.
          eapply ends_app; [apply (rings_closed junk junk_bytes k l d not_box_poly pv 0 ltac:(lia) two_lists ltac:(reflexivity) ltac:(reflexivity) ltac:(reflexivity) bm nc len last null nst s rings 0 Hw1 e He1 b q m cnt acc Hl Hm)|apply Z.le_refl|].
          intros Hle w' (b' & dm' & -> & -> & Hl').
          eapply ends_ok; [reflexivity|exact Hle|].
          exists b', (dim_code s). split; [reflexivity|]. split; [apply seen_dim|exact Hl'].
      - inversion He as [| | |? ? ? e He1]; subst. inversion Hw as [| | |? ? ? Hw1]; subst.
        rewrite sequences_coll by exact Hc.
        assert (forall dm0, seen_dims dm0 -> ends pv (W b nst dm0 (sq q 0 m 0) 0) e (Z.of_nat (length acc) + Z.of_nat (length (concat (flat_map (sequences d) parts))))
          (seq_state k l d 0 bm nc len last null nst seen_dims q m 0 cnt acc (flat_map (sequences d) parts))) as Hgo.
        { clear He dm Hd Hw Hparts. revert e He1 b m cnt acc Hl Hm. induction parts as [|p parts IHp]; intros e He1 b m cnt acc Hl Hm dm Hd;
            inversion He1 as [|? ? e1 e2 Hp1 Hp2]; subst.
          - eapply ends_ok; [reflexivity|cbn; lia|]. apply seq_state_nil; auto.
          - inversion Hw1 as [|? ? Hwp Hwr]; subst. cbn [flat_map]. rewrite concat_app.
            eapply ends_app; [apply (IH p (or_introl eq_refl) Hwp e1 Hp1 b dm q m cnt acc Hl Hd Hm)|rewrite len_app; lia|].
            intros Hle w' (b' & dm' & -> & Hd' & Hl').
            eapply ends_impl; [|intros w' H; eapply seq_state_app; exact H].
            rewrite len_app, Z.add_assoc, <- len_app.
            apply IHp; auto. { intros p' Hp'. apply IH. right. exact Hp'. } rewrite len_app. exact Hle. }
        cbn [app]. eapply ends_cons; [cbn [polygon_visitor]; rewrite dims_code; reflexivity|].
        match goal with |- ends _ ?w _ _ _ => replace w with (W b nst (dim_code s) (sq q 0 m 0) 0) by (destruct c; try contradiction; reflexivity) end.
        eapply ends_app; [apply Hgo; apply seen_dim|apply Z.le_refl|]. intros Hle w' (b' & dm' & -> & Hd' & Hl').
        eapply ends_ok; [reflexivity|exact Hle|]. exists b', dm'. auto.
    Qed.
  End Within.

  (** The end of a feature whose last coordinates [cs] may have no offset yet. *)
  Lemma pg_end bm nc len last e b nst dm s0 s2 s3 els seqs cs : bstate bm (map is_valid els) -> nc = nulls (map is_valid els) -> seen_dims dm ->
    few k d (els ++ [e]) -> total (cnts els 0%nat) = Z.of_nat (length (cnts els 1%nat)) ->
    total (plus (cnts els) (at_level 1 (lens (keep seqs))) 1%nat) = Z.of_nat (length (lvs els ++ concat seqs)) ->
    built k l d b (plus (cnts els) (at_level 1 (lens (keep seqs)))) ((lvs els ++ concat seqs) ++ cs) ->
    Z.of_nat (length (lvs els ++ concat seqs)) <= int32_max ->
    counts (n_lists k) [element k d e] 0%nat = [Z.of_nat (length (keep (seqs ++ [cs])))] -> counts (n_lists k) [element k d e] 1%nat = lens (keep (seqs ++ [cs])) ->
    leaves (n_lists k) [element k d e] = concat (seqs ++ [cs]) ->
    took k l d pv (NativeVisitorProofs.W bm nc len last (negb (is_valid e)) b nst dm (Quad s0 (Z.of_nat (length cs)) s2 s3) 0) [EFeatEnd]
      (Z.of_nat (length (lvs els)) + Z.of_nat (length (concat (seqs ++ [cs])))) els (Some e).
  Proof.
    intros Hbm Hnc Hd Hcomp Ht0 Ht1 Hb Hmax Hc0 Hc1 Hlv. cbn [took]. unfold ends. cbn [feed polygon_visitor].
    change (size_at (NativeVisitorProofs.W bm nc len last (negb (is_valid e)) b nst dm (Quad s0 (Z.of_nat (length cs)) s2 s3) 0) 1) with (Z.of_nat (length cs)).
    assert (Z.of_nat (length (lvs els)) + Z.of_nat (length (concat (seqs ++ [cs]))) = Z.of_nat (length ((lvs els ++ concat seqs) ++ cs))) as En.
    { rewrite <- app_assoc, !len_app, concat_app, len_app. cbn [concat]. rewrite app_nil_r. reflexivity. }
    rewrite En in *.
    set (q := Quad s0 (Z.of_nat (length cs)) s2 s3).
    assert (if int32_max <? Z.of_nat (length ((lvs els ++ concat seqs) ++ cs))
      then exists w', (if 0 <? Z.of_nat (length cs) then append_coord_offset junk (NativeVisitorProofs.W bm nc len last (negb (is_valid e)) b nst dm q 0) 1 else VRet (NativeVisitorProofs.W bm nc len last (negb (is_valid e)) b nst dm q 0) 0) = VRet w' EOVERFLOW
      else exists b', (if 0 <? Z.of_nat (length cs) then append_coord_offset junk (NativeVisitorProofs.W bm nc len last (negb (is_valid e)) b nst dm q 0) 1 else VRet (NativeVisitorProofs.W bm nc len last (negb (is_valid e)) b nst dm q 0) 0)
          = VRet (NativeVisitorProofs.W bm nc len last (negb (is_valid e)) b' nst dm q 0) 0 /\
        built k l d b' (plus (cnts els) (at_level 1 (lens (keep (seqs ++ [cs]))))) ((lvs els ++ concat seqs) ++ cs)) as Hflush.
    { rewrite filter_app, keep_one. destruct (Z.ltb_spec 0 (Z.of_nat (length cs))) as [Hpos|Hzero].
      - pose proof (coord_offset_ok junk junk_bytes k l d bm nc len last (negb (is_valid e)) b nst dm q 0 _ _ 1 Hb ltac:(rewrite two_lists; lia)) as H.
        change (Z.of_nat 1) with 1 in H. destruct (int32_max <? Z.of_nat (length ((lvs els ++ concat seqs) ++ cs))); [eauto|].
        destruct H as (b2 & E2 & B2). exists b2. split; [exact E2|]. eapply built_ext; [exact B2| |reflexivity]. intros i _. destruct (Nat.eq_dec 1 i) as [<-|Hi].
        + rewrite add_same, len_app, Ht1. unfold plus. rewrite !at_same. unfold lens. rewrite map_app, app_assoc. f_equal. cbn [map]. f_equal. lia.
        + rewrite add_other by exact Hi. unfold plus. rewrite !at_other by exact Hi. reflexivity.
      - destruct cs as [|c cs]; [|cbn [length] in Hzero; lia]. rewrite !app_nil_r in *. destruct (Z.ltb_spec int32_max (Z.of_nat (length (lvs els ++ concat seqs)))); [lia|].
        exists b. split; [reflexivity|exact Hb]. }
    destruct (Z.ltb_spec int32_max (Z.of_nat (length ((lvs els ++ concat seqs) ++ cs)))) as [Hgt|Hle].
    { destruct Hflush as (w' & ->). cbn [wthen]. change (EOVERFLOW =? 0) with false. cbn iota. change (EOVERFLOW =? 0) with false. cbn iota. eexists _, _. split; [reflexivity|]. right. auto. }
    destruct Hflush as (b1 & -> & B1). cbn [wthen]. change (0 =? 0) with true. cbn iota.
    assert (Z.of_nat (length (plus (cnts els) (at_level 1 (lens (keep (seqs ++ [cs])))) 1%nat)) < int32_max) as Hlen.
    { unfold plus. rewrite at_same. specialize (Hcomp 0%nat ltac:(rewrite two_lists; lia)). rewrite map_app in Hcomp. cbn [map] in Hcomp.
      rewrite counts_app, Hc1 in Hcomp. exact Hcomp. }
    destruct (count_offset_ok junk junk_bytes k l d bm nc len last (negb (is_valid e)) b1 nst dm q 0 _ _ 0 B1 ltac:(rewrite two_lists; lia) Hlen) as (b2 & E2 & B2).
    change (Z.of_nat 0) with 0 in E2. rewrite E2. cbn [wthen]. change (0 =? 0) with true. cbn iota.
    edestruct (feature_bit_lists junk junk_bytes k l d bm nc len last b2 nst dm q 0 els e _ _ ltac:(rewrite two_lists; lia) Hbm Hnc Hd B2) as (w' & E' & V').
    - intros i Hi. rewrite two_lists in Hi. rewrite map_app. cbn [map]. rewrite counts_app. destruct i as [|[|i]]; [| |lia].
      + rewrite add_same, Hc0. unfold plus. rewrite at_other, at_same, app_nil_r by discriminate. f_equal. f_equal. rewrite Ht0, app_length, lens_length. lia.
      + rewrite add_other, Hc1 by discriminate. unfold plus. rewrite at_same. reflexivity.
    - rewrite map_app. cbn [map]. rewrite leaves_app, Hlv, concat_app. cbn [concat]. rewrite app_nil_r, app_assoc. reflexivity.
    - rewrite E'. change (0 =? 0) with true. cbn iota. exists w', 0. split; [reflexivity|]. left. auto.
  Qed.

  Lemma poly_visited g : exists x, visited k d g = Some x /\ counts (n_lists k) [x] 0%nat = [Z.of_nat (length (keep (sequences d g)))] /\
    counts (n_lists k) [x] 1%nat = lens (keep (sequences d g)) /\ leaves (n_lists k) [x] = concat (sequences d g).
  Proof.
    clear -kind. destruct kind as [-> | ->]; cbn [visited n_lists]; (eexists; split; [reflexivity|]; cbn; rewrite app_nil_r; split; [reflexivity|split; [reflexivity|apply concat_nonempty]]).
  Qed.

  Lemma keep_last {A} (xs : list (list A)) : keep (xs ++ [[]]) = keep xs /\ concat (xs ++ [[]]) = concat xs.
  Proof. rewrite filter_app, concat_app. cbn. rewrite !app_nil_r. auto. Qed.

  Lemma poly_some w els g evs : visiting k l d w els -> Z.of_nat (length (lvs els)) <= int32_max ->
    deliverable k g -> wf_geom g -> feature_events (Some g) evs -> (forall x, visited k d g = Some x -> few k d (els ++ [Some x])) ->
    took k l d pv w evs (Z.of_nat (length (lvs els)) + Z.of_nat (length (all_coords d g))) els (option_map Some (visited k d g)).
  Proof.
    intros Hv Hmax Hd Hwf He Hfew. assert (is_point g \/ made_of (fun g => is_line g \/ is_poly g) (fun c => c <> CMultipoint) g) as Hd'.
    { clear -kind Hd. destruct kind as [Ek | Ek]; rewrite Ek in Hd; exact Hd. }
    destruct (poly_visited g) as (x & Ex & Hc0 & Hc1 & Hx). pose proof (Hfew x Ex) as Hcomp. clear Hfew. rewrite Ex. cbn [option_map]. rewrite <- concat_sequences in *.
    destruct (visiting_closed w els Hv) as (Hcl & Ht0). destruct Hv as [H1 H2 H3 H4].
    destruct w as [b bm nc len last nul nst dm [s0 s1 s2 s3] lev]. cbn [nw_builder nw_null_count nw_validity nw_dims] in *.
    inversion He as [|g' ge Hge]; subst g' evs.
    change (EFeatStart :: ge ++ [EFeatEnd]) with ([EFeatStart] ++ ge ++ [EFeatEnd]). eapply took_pre; [reflexivity|]. cbn [qset nw_size nw_dims with_state].
    destruct Hd' as [Hp|Hm].
    - destruct g as [s cs| | |]; try contradiction Hp. inversion Hge as [? ? evs0 He0| | |]; subst d0 cs0 ge. inversion Hwf as [? ? Hw0 _| | |]; subst d0 cs0.
      rewrite <- !app_assoc. eapply took_pre; [reflexivity|].
      destruct (seq_ok junk junk_bytes k l d not_box_poly bm nc len last false pv 1 ltac:(lia) ltac:(intros; reflexivity) s cs evs0 He0 Hw0
                  b nst (Quad 0 0 s2 s3) 0 _ _ H1) as (b' & E & B).
      eapply took_pre; [cbn [nw_is_null nw_nesting nw_size nw_level with_state]; rewrite dims_code; exact E|].
      eapply took_pre; [reflexivity|].
      pose proof (pg_end bm nc len last (Some x) b' nst (dim_code s) 0 s2 s3 els [] (map (convert_coord s d) cs) H3 H2 (seen_dim s) Hcomp Ht0) as H.
      cbn [filter lens map concat app] in H. rewrite !app_nil_r in H. cbn [sequences concat] in Hx, Hc0, Hc1 |- *. rewrite app_nil_r in *.
      change (qadd (Quad 0 0 s2 s3) 1 (Z.of_nat (length cs))) with (Quad 0 (Z.of_nat (length cs)) s2 s3).
      rewrite map_length in H. change (@length (list N) cs) with (@length coord cs) in H. rewrite map_length. apply H; try assumption.
      + rewrite at_nil. exact (proj2 Hcl).
      + eapply built_ext; [exact B| |reflexivity]. intros i _. rewrite at_nil. reflexivity.
    - eapply took_ends.
      { apply (pg_geom bm nc len last false nst g Hm Hwf ge Hge b dm (Quad 0 0 s2 s3) 0 _ _ Hcl H4 Hmax). }
      intros Hle w' (b' & dm' & -> & Hdm & (HB & HT)). change (sq (Quad 0 0 s2 s3) 0 (0 + Z.of_nat (length (keep (sequences d g)))) 0) with (Quad (0 + Z.of_nat (length (keep (sequences d g)))) 0 s2 s3).
      rewrite Z.add_0_l. destruct (keep_last (sequences d g)) as (K1 & K2).
      pose proof (pg_end bm nc len last (Some x) b' nst dm' (Z.of_nat (length (keep (sequences d g)))) s2 s3 els (sequences d g) [] H3 H2 Hdm Hcomp Ht0 HT) as H.
      rewrite K1, K2, app_nil_r in H. apply H; try assumption. rewrite len_app. exact Hle.
  Qed.

  Lemma poly_null w els evs : visiting k l d w els -> few k d (els ++ [None]) -> Z.of_nat (length (lvs els)) <= int32_max -> feature_events None evs ->
    took k l d pv w evs (Z.of_nat (length (lvs els))) els (Some None).
  Proof.
    intros Hv Hcomp Hmax He.
    destruct (visiting_closed w els Hv) as ((HB & HT) & Ht0). destruct Hv as [H1 H2 H3 H4].
    destruct w as [b bm nc len last nul nst dm [s0 s1 s2 s3] lev]. cbn [nw_builder nw_null_count nw_validity nw_dims] in *.
    inversion He; subst evs. change [EFeatStart; ENullFeat; EFeatEnd] with ([EFeatStart; ENullFeat] ++ [EFeatEnd]). eapply took_pre; [reflexivity|].
    pose proof (pg_end bm nc len last None b nst dm 0 s2 s3 els [] [] H3 H2 H4 Hcomp Ht0) as H. cbn [filter lens map concat app nonempty length] in H. rewrite !app_nil_r, Z.add_0_r in H.
    apply H.
    - rewrite at_nil. exact HT.
    - eapply built_ext; [exact HB| |reflexivity]. intros i _. rewrite at_nil. reflexivity.
    - lia.
    - destruct kind as [-> | ->]; reflexivity.
    - destruct kind as [-> | ->]; reflexivity.
    - destruct kind as [-> | ->]; reflexivity.
  Qed.
End Junk.
