(** * Features delivered to a writer of multipolygons *)
From Verif Require Import Base BaseFacts TypesModel GeomSpec VisitorModel VisitorSpec VisitorFacts BufferModel BufferFacts CoordsModel BitmapModel BitmapSpec BitmapProofs
  ArrowModel ArrayViewModel NativeSpec NativeProofs GeomFacts NodesModel NodesSpec CopyCoordsModel CopyCoordsSpec CopyCoordsProofs
  BuilderModel BuilderSpec BuilderRun BuilderFacts BuilderCoords BuilderAppend BuilderFinish BuilderProofs
  NativeWriterModel NativeWriterSpec NativeWriterFacts NativeWriterAppend NativeWriterGeom NativeWriterArray NativeWriterFinish NativeWriterRun
  NativeWriterProofs NativeWriterHistory NativeVisitorSpec NativeVisitorProofs NativeVisitorLines NativeVisitorSeqs NativeVisitorPolygons.
Local Open Scope Z_scope.

Lemma concat_groups_sequences d g : concat (groups d g) = sequences d g.
Proof.
  induction g as [s cs|s cs|s rings|c s parts IH] using geom_ind'; try (cbn [groups concat]; apply app_nil_r).
  destruct c; try (cbn [groups concat]; apply app_nil_r).
  - rewrite groups_coll, sequences_coll by (auto; discriminate). induction parts as [|p parts IHp]; [reflexivity|]. apply Forall_cons_iff in IH. destruct IH as (H1 & H2).
    cbn [flat_map]. rewrite concat_app, H1. f_equal. apply IHp. exact H2.
  - rewrite groups_coll, sequences_coll by (auto; discriminate). induction parts as [|p parts IHp]; [reflexivity|]. apply Forall_cons_iff in IH. destruct IH as (H1 & H2).
    cbn [flat_map]. rewrite concat_app, H1. f_equal. apply IHp. exact H2.
Qed.

Lemma concat_groups d g : concat (concat (groups d g)) = all_coords d g.
Proof. rewrite concat_groups_sequences. apply concat_sequences. Qed.

(** Offsets of groups of sequences. *)
Definition gcnt (cnt : nat -> list Z) (gs : list (list (list coord))) : nat -> list Z :=
  plus (plus cnt (at_level 2 (lens (concat (map keep gs))))) (at_level 1 (lens (keep (map keep gs)))).

Lemma gcnt_app cnt a b i : gcnt (gcnt cnt a) b i = gcnt cnt (a ++ b) i.
Proof.
  unfold gcnt, plus. rewrite !map_app, !filter_app, !concat_app. unfold lens. rewrite !map_app. unfold at_level.
  destruct i as [|[|[|i]]]; cbn [Nat.eqb]; rewrite ?app_nil_r, <- ?app_assoc; reflexivity.
Qed.
Lemma gcnt_1 cnt gs : gcnt cnt gs 1%nat = cnt 1%nat ++ lens (keep (map keep gs)).
Proof. unfold gcnt, plus. rewrite at_same, at_other, app_nil_r by discriminate. reflexivity. Qed.
Lemma gcnt_2 cnt gs : gcnt cnt gs 2%nat = cnt 2%nat ++ lens (concat (map keep gs)).
Proof. unfold gcnt, plus. rewrite at_same, at_other, app_nil_r by discriminate. reflexivity. Qed.
Lemma gcnt_0 cnt gs : gcnt cnt gs 0%nat = cnt 0%nat.
Proof. unfold gcnt, plus. rewrite !at_other, !app_nil_r by discriminate. reflexivity. Qed.
Lemma gcnt_nil cnt i : gcnt cnt [] i = cnt i.
Proof. unfold gcnt. cbn [map concat filter lens]. rewrite at_nil. apply at_nil. Qed.

Lemma keep_group (seqs : list (list coord)) : keep (map keep [seqs]) = if 0 <? Z.of_nat (length (keep seqs)) then [keep seqs] else [].
Proof. cbn [map]. apply keep_one. Qed.

Section Junk.
  Variable junk : nat -> nat -> N.
  Hypothesis junk_bytes : forall i j, is_byte (junk i j).
  Variables (l : layout) (d : dim).
  Notation k := KMultipolygon.
  Notation mv := (multipolygon_visitor junk).

  Lemma not_box_mp : k <> KBox.
  Proof. discriminate. Qed.

  Notation vals els := (map (element k d) els).
  Notation cnts els := (counts (n_lists k) (vals els)).
  Notation lvs els := (leaves (n_lists k) (vals els)).

  (** All sequences are in groups. *)
  Definition grouped (b : builder) (cnt : nat -> list Z) (acc : list coord) : Prop :=
    closed k l d 1 b cnt acc /\ total (cnt 1%nat) = Z.of_nat (length (cnt 2%nat)).

  Lemma grouped_ext b cnt cnt' acc acc' : grouped b cnt acc -> (forall i, cnt i = cnt' i) -> acc = acc' -> grouped b cnt' acc'.
  Proof.
    intros ((H1 & H2) & H3) He <-. split; [split|].
    - eapply built_ext; [exact H1|intros i _; apply He|reflexivity].
    - rewrite <- He. exact H2.
    - rewrite <- !He. exact H3.
  Qed.

  Lemma visiting_grouped w els : visiting k l d w els ->
    grouped (nw_builder w) (cnts els) (lvs els) /\ total (cnts els 0%nat) = Z.of_nat (length (cnts els 1%nat)).
  Proof.
    intros [H1 _ _ _]. split; [split; [split; [exact H1|]|]|]; cbn [n_lists counts leaves].
    - apply total_lens.
    - rewrite map_length. apply total_lens.
    - rewrite map_length. apply total_lens.
  Qed.

  Section Within.
    Variables (bm : bitmap) (nc len : Z) (last : quad Z) (null : bool) (nst : Z).
    Notation W := (NativeVisitorProofs.W bm nc len last null).

    Definition group_state (D : Z -> Prop) (n s3 : Z) (cnt : nat -> list Z) (acc : list coord) (gs : list (list (list coord))) (w : nwriter) : Prop :=
      exists b dm, w = W b nst dm (Quad (n + Z.of_nat (length (keep (map keep gs)))) 0 0 s3) 0 /\ D dm /\
        grouped b (gcnt cnt gs) (acc ++ concat (concat gs)).

    Lemma group_state_app D n s3 cnt acc g1 g2 w : group_state D (n + Z.of_nat (length (keep (map keep g1)))) s3 (gcnt cnt g1) (acc ++ concat (concat g1)) g2 w ->
      group_state D n s3 cnt acc (g1 ++ g2) w.
    Proof.
      intros (b & dm & -> & Hd & Hg). exists b, dm. split; [|split; [exact Hd|]].
      - rewrite map_app, filter_app, app_length, Nat2Z.inj_add, Z.add_assoc. reflexivity.
      - eapply grouped_ext; [exact Hg|intros; apply gcnt_app|]. rewrite !concat_app, app_assoc. reflexivity.
    Qed.
    Lemma group_state_nil (D : Z -> Prop) n s3 b dm cnt acc : grouped b cnt acc -> D dm -> group_state D n s3 cnt acc [] (W b nst dm (Quad n 0 0 s3) 0).
    Proof.
      intros Hg Hd. exists b, dm. cbn [map filter length]. rewrite Z.add_0_r. split; [reflexivity|]. split; [exact Hd|].
      eapply grouped_ext; [exact Hg|intros; rewrite gcnt_nil; reflexivity|cbn; rewrite app_nil_r; reflexivity].
    Qed.

    (** The end of a group. *)
    Lemma group_end (D : Z -> Prop) n s3 b dm cnt acc seqs : total (cnt 1%nat) = Z.of_nat (length (cnt 2%nat)) -> D dm ->
      closed k l d 1 b (plus cnt (at_level 2 (lens (keep seqs)))) (acc ++ concat seqs) -> Z.of_nat (length (cnt 2%nat)) + Z.of_nat (length (keep seqs)) < int32_max ->
      exists w', feed mv (W b nst dm (sq (Quad n 0 0 s3) 1 (0 + Z.of_nat (length (keep seqs))) 0) 1) [EGeomEnd] = Some (w', 0) /\ group_state D n s3 cnt acc [seqs] w'.
    Proof.
      intros Ht Hd (Hb & Hc) Hlen. rewrite Z.add_0_l. change (sq (Quad n 0 0 s3) 1 (Z.of_nat (length (keep seqs))) 0) with (Quad n (Z.of_nat (length (keep seqs))) 0 s3).
      cbn [feed multipolygon_visitor]. change (nw_level (W b nst dm (Quad n (Z.of_nat (length (keep seqs))) 0 s3) 1)) with 1. change (1 =? 2) with false. change (1 =? 1) with true. cbn iota.
      change (with_nw_level (W b nst dm (Quad n (Z.of_nat (length (keep seqs))) 0 s3) 1) (1 - 1)) with (W b nst dm (Quad n (Z.of_nat (length (keep seqs))) 0 s3) 0).
      change (size_at (W b nst dm (Quad n (Z.of_nat (length (keep seqs))) 0 s3) 0) 1) with (Z.of_nat (length (keep seqs))). cbv zeta.
      assert (total (plus cnt (at_level 2 (lens (keep seqs))) 2%nat) = Z.of_nat (length (acc ++ concat seqs))) as Hc' by exact Hc.
      unfold group_state. rewrite keep_group. destruct (Z.ltb_spec 0 (Z.of_nat (length (keep seqs)))) as [Hpos|Hzero].
      - destruct (count_offset_ok junk junk_bytes k l d bm nc len last null b nst dm (Quad n (Z.of_nat (length (keep seqs))) 0 s3) 0 _ _ 1 Hb ltac:(cbn; lia)) as (b2 & E2 & B2).
        { unfold plus. rewrite at_same, app_length, lens_length. lia. }
        change (Z.of_nat 1) with 1 in E2. rewrite E2. cbn [wthen]. change (0 =? 0) with true. cbn iota. eexists. split; [reflexivity|].
        exists b2, dm. split; [reflexivity|]. split; [exact Hd|]. eapply grouped_ext with (acc := acc ++ concat seqs) (cnt := gcnt cnt [seqs]); [|reflexivity|cbn [concat]; rewrite app_nil_r; reflexivity].
        split; [split|].
        + eapply built_ext; [exact B2| |reflexivity]. intros i Hi. destruct i as [|[|[|i]]]; [| | |cbn in Hi; lia].
          * rewrite add_other, gcnt_0 by discriminate. unfold plus. rewrite at_other, app_nil_r by discriminate. reflexivity.
          * rewrite add_same, gcnt_1, keep_group. destruct (Z.ltb_spec 0 (Z.of_nat (length (keep seqs)))); [|lia]. unfold plus. rewrite at_same, (at_other 2 1), app_nil_r by discriminate.
            cbn [lens map]. f_equal. f_equal. rewrite app_length, lens_length, Ht. lia.
          * rewrite add_other, gcnt_2 by discriminate. unfold plus. rewrite at_same. cbn [map concat]. rewrite app_nil_r. reflexivity.
        + rewrite gcnt_2. cbn [map concat]. rewrite app_nil_r. unfold plus in Hc'. rewrite at_same in Hc'. exact Hc'.
        + rewrite gcnt_1, gcnt_2, total_app, Ht, keep_group. destruct (Z.ltb_spec 0 (Z.of_nat (length (keep seqs)))); [|lia]. cbn [map concat lens total fold_right]. rewrite app_nil_r, app_length, map_length. lia.
      - change (0 =? 0) with true. cbn iota. eexists. split; [reflexivity|]. exists b, dm. assert (keep seqs = []) as En by (destruct (keep seqs); [reflexivity|cbn [length] in Hzero; lia]). split; [rewrite En; cbn [length]; rewrite Z.add_0_r; reflexivity|].
        split; [exact Hd|]. rewrite En in *. eapply grouped_ext with (acc := acc ++ concat seqs) (cnt := cnt); [|intros i; unfold gcnt; cbn [map]; rewrite En; cbn [concat app lens filter nonempty map]; rewrite !at_nil; reflexivity|cbn [concat]; rewrite app_nil_r; reflexivity].
        split; [split|exact Ht].
        + eapply built_ext; [exact Hb| |reflexivity]. intros i _. apply at_nil.
        + rewrite <- Hc'. rewrite at_nil. reflexivity.
    Qed.

    Lemma mp_lines parts : Forall is_line parts -> wf_geoms parts -> forall evs, parts_events parts evs ->
      forall b dm q m cnt acc, closed k l d 1 b cnt acc -> seen_dims dm -> Z.of_nat (length acc) <= int32_max ->
      ends mv (W b nst dm (sq q 1 m 0) 1) evs (Z.of_nat (length acc) + Z.of_nat (length (concat (flat_map (sequences d) parts))))
        (seq_state k l d 1 bm nc len last null nst seen_dims q m 1 cnt acc (flat_map (sequences d) parts)).
    Proof.
      induction parts as [|p parts IH]; intros Hp Hw evs He b dm q m cnt acc Hc Hd Hm; inversion He as [|? ? e1 e2 He1 He2]; subst.
      - eapply ends_ok; [reflexivity|cbn; lia|]. apply seq_state_nil; auto.
      - apply Forall_cons_iff in Hp. destruct Hp as (Hp1 & Hp2). inversion Hw as [|? ? Hw1 Hw2]; subst. destruct p as [|s cs| |]; try contradiction.
        inversion He1 as [|? ? e He1'| |]; subst. inversion Hw1 as [|? ? Hw1'| |]; subst. cbn [flat_map]. rewrite concat_app, len_app.
        eapply ends_app.
        + cbn [app]. eapply ends_cons; [cbn [multipolygon_visitor]; rewrite dims_code; reflexivity|].
          apply (seq_closed junk junk_bytes k l d not_box_mp mv 1 ltac:(lia) eq_refl ltac:(reflexivity) bm nc len last null nst seen_dims s cs e EGeomEnd b q m 1 2 cnt acc); auto. apply seen_dim.
        + cbn [sequences concat]. rewrite app_nil_r, map_length. change (@length (list N) cs) with (@length coord cs). lia.
        + intros Hle w' (b' & dm' & -> & Hd' & Hc'). eapply ends_impl; [|intros w' H; eapply seq_state_app; exact H].
          change [map (convert_coord s d) cs] with (sequences d (GLine s cs)) in *. rewrite Z.add_assoc, <- len_app.
          apply IH; auto. rewrite len_app. cbn [sequences concat]. rewrite app_nil_r, map_length. exact Hle.
    Qed.

    Lemma mp_geom g : made_of (fun g => is_poly g \/ multi_of CMultilinestring is_line g) (fun c => c = CMultipolygon \/ c = CCollection) g -> wf_geom g ->
      forall evs, geom_events g evs -> forall b dm n s3 cnt acc, grouped b cnt acc -> seen_dims dm -> Z.of_nat (length acc) <= int32_max ->
      Z.of_nat (length (cnt 2%nat)) + Z.of_nat (length (concat (map keep (groups d g)))) < int32_max ->
      ends mv (W b nst dm (Quad n 0 0 s3) 0) evs (Z.of_nat (length acc) + Z.of_nat (length (concat (concat (groups d g)))))
        (group_state seen_dims n s3 cnt acc (groups d g)).
    Proof.
      induction 1 as [g Hleaf|c s parts Hc Hparts IH]; intros Hw evs He b dm n s3 cnt acc Hg Hd Hm Hfew.
      - destruct Hleaf as [H|H].
        + destruct g as [| |s rings|]; try contradiction H. inversion He as [| |? ? e He1|]; subst. inversion Hw as [| |? ? Hw1|]; subst.
          cbn [app]. eapply ends_cons; [cbn [multipolygon_visitor]; rewrite dims_code; reflexivity|]. cbn [groups concat]. rewrite app_nil_r, len_rings.
          eapply ends_app; [apply (rings_closed junk junk_bytes k l d not_box_mp mv 1 ltac:(lia) eq_refl ltac:(reflexivity) ltac:(reflexivity) ltac:(reflexivity) bm nc len last null nst s rings 1 Hw1 e He1 b (Quad n 0 0 s3) 0 cnt acc (proj1 Hg) Hm)|apply Z.le_refl|].
          intros Hle w' (b' & dm' & -> & -> & Hl'). cbn [groups map concat] in Hfew. rewrite app_nil_r in Hfew.
          destruct (group_end seen_dims n s3 b' (dim_code s) cnt acc _ (proj2 Hg) (seen_dim s) Hl' Hfew) as (w' & E' & G').
          eapply ends_ok; [exact E'|exact Hle|exact G'].
        + destruct g as [| | |c s parts]; try contradiction H. destruct H as (<- & Hp). inversion He as [| | |? ? ? e He1]; subst. inversion Hw as [| | |? ? ? Hw1]; subst.
          cbn [app]. eapply ends_cons; [cbn [multipolygon_visitor]; rewrite dims_code; reflexivity|].
          assert (groups d (GColl CMultilinestring s parts) = [flat_map (sequences d) parts]) as Eg by (cbn [groups]; rewrite sequences_coll by discriminate; reflexivity).
          rewrite Eg in *. cbn [concat]. rewrite app_nil_r.
          eapply ends_app; [apply (mp_lines parts Hp Hw1 e He1 b (dim_code s) (Quad n 0 0 s3) 0 cnt acc (proj1 Hg) (seen_dim s) Hm)|apply Z.le_refl|].
          intros Hle w' (b' & dm' & -> & Hd' & Hl'). cbn [map concat] in Hfew. rewrite app_nil_r in Hfew.
          destruct (group_end seen_dims n s3 b' dm' cnt acc _ (proj2 Hg) Hd' Hl' Hfew) as (w' & E' & G').
          eapply ends_ok; [exact E'|exact Hle|exact G'].
      - inversion He as [| | |? ? ? e He1]; subst. inversion Hw as [| | |? ? ? Hw1]; subst.
        rewrite groups_coll in * by exact Hc.
        assert (forall dm0, seen_dims dm0 -> ends mv (W b nst dm0 (Quad n 0 0 s3) 0) e (Z.of_nat (length acc) + Z.of_nat (length (concat (concat (flat_map (groups d) parts)))))
          (group_state seen_dims n s3 cnt acc (flat_map (groups d) parts))) as Hgo.
        { clear He dm Hd Hw Hparts. revert e He1 b n cnt acc Hg Hm Hfew. induction parts as [|p parts IHp]; intros e He1 b n cnt acc Hg Hm Hfew dm Hd;
            inversion He1 as [|? ? e1 e2 Hp1 Hp2]; subst.
          - eapply ends_ok; [reflexivity|cbn; lia|]. apply group_state_nil; auto.
          - inversion Hw1 as [|? ? Hwp Hwr]; subst. cbn [flat_map] in *. rewrite !concat_app. rewrite map_app, concat_app, app_length, Nat2Z.inj_add in Hfew.
            eapply ends_app; [apply (IH p (or_introl eq_refl) Hwp e1 Hp1 b dm n s3 cnt acc Hg Hd Hm); lia|rewrite len_app; lia|].
            intros Hle w' (b' & dm' & -> & Hd' & Hg').
            eapply ends_impl; [|intros w' H; eapply group_state_app; exact H].
            rewrite len_app, Z.add_assoc, <- len_app.
            apply IHp; auto. { intros p' Hp'. apply IH. right. exact Hp'. } { rewrite len_app. exact Hle. }
            rewrite gcnt_2, app_length, lens_length. lia. }
        cbn [app]. eapply ends_cons; [cbn [multipolygon_visitor]; rewrite dims_code; reflexivity|].
        match goal with |- ends _ ?w _ _ _ => replace w with (W b nst (dim_code s) (Quad n 0 0 s3) 0) by (destruct Hc as [-> | ->]; reflexivity) end.
        eapply ends_app; [apply Hgo; apply seen_dim|apply Z.le_refl|]. intros Hle w' (b' & dm' & -> & Hd' & Hg').
        eapply ends_ok; [reflexivity|exact Hle|]. exists b', dm'. auto.
    Qed.

    (** A feature that is one sequence. *)
    Lemma mp_points parts : Forall is_point parts -> wf_geoms parts -> forall evs, parts_events parts evs ->
      forall b dm x s3 lev cnt acc, built k l d b cnt acc -> seen_dims dm -> (lev = 0 \/ lev = 1) ->
      exists b' dm' lev', feed mv (W b nst dm (Quad 0 0 x s3) lev) evs = Some (W b' nst dm' (Quad 0 0 (x + Z.of_nat (length (flat_map (all_coords d) parts))) s3) lev', 0) /\
        seen_dims dm' /\ (lev' = 0 \/ lev' = 1) /\ built k l d b' cnt (acc ++ flat_map (all_coords d) parts).
    Proof.
      induction parts as [|p parts IH]; intros Hp Hw evs He b dm x s3 lev cnt acc Hb Hd Hl; inversion He as [|? ? e1 e2 He1 He2]; subst.
      - exists b, dm, lev. cbn [feed flat_map length]. rewrite app_nil_r, Z.add_0_r. auto.
      - apply Forall_cons_iff in Hp. destruct Hp as (Hp1 & Hp2). inversion Hw as [|? ? Hw1 Hw2]; subst. destruct p as [s cs| | |]; try contradiction.
        inversion He1 as [? ? e He1'| | |]; subst. inversion Hw1 as [? ? Hw1' _| | |]; subst. rewrite <- !app_assoc.
        destruct (seq_ok junk junk_bytes k l d not_box_mp bm nc len last null mv 2 ltac:(lia) ltac:(reflexivity) s cs e He1' Hw1' b nst (Quad 0 0 x s3) lev cnt acc Hb) as (b1 & E1 & B1).
        cbn [app]. erewrite feed_cons_ok; [|cbn [multipolygon_visitor]; rewrite dims_code; reflexivity].
        match goal with |- context [feed mv ?w (e ++ _)] => replace w with (W b nst (dim_code s) (Quad 0 0 x s3) lev) by (destruct Hl as [-> | ->]; reflexivity) end.
        rewrite (feed_app_ok _ _ _ _ _ E1). erewrite feed_cons_ok with (s1 := W b1 nst (dim_code s) (Quad 0 0 (x + Z.of_nat (length cs)) s3) 0) by (destruct Hl as [-> | ->]; reflexivity).
        destruct (IH Hp2 Hw2 e2 He2 b1 (dim_code s) (x + Z.of_nat (length cs)) s3 0 cnt _ B1 (seen_dim s) (or_introl eq_refl)) as (b2 & dm2 & lev2 & E2 & D2 & L2 & B2).
        assert (all_coords d (GPoint s cs) = map (convert_coord s d) cs) as Ec by (unfold all_coords; cbn [geom_coords]; rewrite map_map; reflexivity).
        exists b2, dm2, lev2. cbn [flat_map]. rewrite Ec. split; [|split; [exact D2|split; [exact L2|rewrite app_assoc; exact B2]]].
        rewrite E2. do 2 f_equal. f_equal. f_equal. rewrite len_app, map_length. change (@length (list N) cs) with (@length coord cs). lia.
    Qed.

    Lemma mp_loose g : is_point g \/ is_line g \/ multi_of CMultipoint is_point g -> wf_geom g -> forall evs, geom_events g evs ->
      forall b dm s3 cnt acc, built k l d b cnt acc ->
      exists b' dm', feed mv (W b nst dm (Quad 0 0 0 s3) 0) evs = Some (W b' nst dm' (Quad 0 0 (Z.of_nat (length (all_coords d g))) s3) 0, 0) /\
        seen_dims dm' /\ built k l d b' cnt (acc ++ all_coords d g) /\ groups d g = [[all_coords d g]].
    Proof.
      intros Hg Hw evs He b dm s3 cnt acc Hb. destruct Hg as [H|[H|H]].
      - destruct g as [s cs| | |]; try contradiction H. inversion He as [? ? e He1| | |]; subst. inversion Hw as [? ? Hw1 _| | |]; subst.
        assert (all_coords d (GPoint s cs) = map (convert_coord s d) cs) as Ec by (unfold all_coords; cbn [geom_coords]; rewrite map_map; reflexivity). rewrite Ec.
        destruct (seq_ok junk junk_bytes k l d not_box_mp bm nc len last null mv 2 ltac:(lia) ltac:(reflexivity) s cs e He1 Hw1 b nst (Quad 0 0 0 s3) 0 cnt acc Hb) as (b1 & E1 & B1).
        exists b1, (dim_code s). split; [|split; [apply seen_dim|split; [exact B1|reflexivity]]].
        cbn [app]. erewrite feed_cons_ok; [|cbn [multipolygon_visitor]; rewrite dims_code; reflexivity]. rewrite (feed_app_ok _ _ _ _ _ E1). rewrite map_length. reflexivity.
      - destruct g as [|s cs| |]; try contradiction H. inversion He as [|? ? e He1| |]; subst. inversion Hw as [|? ? Hw1| |]; subst.
        assert (all_coords d (GLine s cs) = map (convert_coord s d) cs) as Ec by (unfold all_coords; cbn [geom_coords]; rewrite map_map; reflexivity). rewrite Ec.
        destruct (seq_ok junk junk_bytes k l d not_box_mp bm nc len last null mv 2 ltac:(lia) ltac:(reflexivity) s cs e He1 Hw1 b nst (Quad 0 0 0 s3) 1 cnt acc Hb) as (b1 & E1 & B1).
        exists b1, (dim_code s). split; [|split; [apply seen_dim|split; [exact B1|reflexivity]]].
        cbn [app]. erewrite feed_cons_ok; [|cbn [multipolygon_visitor]; rewrite dims_code; reflexivity]. rewrite (feed_app_ok _ _ _ _ _ E1). rewrite map_length. reflexivity.
      - destruct g as [| | |c s parts]; try contradiction H. destruct H as (<- & Hp). inversion He as [| | |? ? ? e He1]; subst. inversion Hw as [| | |? ? ? Hw1]; subst.
        destruct (mp_points parts Hp Hw1 e He1 b (dim_code s) 0 s3 1 cnt acc Hb (seen_dim s) (or_intror eq_refl)) as (b1 & dm1 & lev1 & E1 & D1 & L1 & B1).
        exists b1, dm1. rewrite all_coords_coll. split; [|split; [exact D1|split; [exact B1|cbn [groups]; cbn [sequences]; rewrite all_coords_coll; reflexivity]]].
        cbn [app]. erewrite feed_cons_ok; [|cbn [multipolygon_visitor]; rewrite dims_code; reflexivity]. rewrite (feed_app_ok _ _ _ _ _ E1). rewrite Z.add_0_l.
        destruct L1 as [-> | ->]; reflexivity.
    Qed.
  End Within.

  Notation WW bm nc len last null := (NativeVisitorProofs.W bm nc len last null).

  (** The end of a feature whose last coordinates [cs] may have no offset yet. *)
  Lemma mp_end bm nc len last e b nst dm s0 s3 els gs cs : bstate bm (map is_valid els) -> nc = nulls (map is_valid els) -> seen_dims dm ->
    few k d (els ++ [e]) -> total (cnts els 0%nat) = Z.of_nat (length (cnts els 1%nat)) ->
    total (gcnt (cnts els) gs 2%nat) = Z.of_nat (length (lvs els ++ concat (concat gs))) ->
    total (gcnt (cnts els) gs 1%nat) = Z.of_nat (length (gcnt (cnts els) gs 2%nat)) ->
    built k l d b (gcnt (cnts els) gs) ((lvs els ++ concat (concat gs)) ++ cs) ->
    Z.of_nat (length (lvs els ++ concat (concat gs))) <= int32_max ->
    element k d e = keep (map keep (gs ++ [[cs]])) ->
    took k l d mv (WW bm nc len last (negb (is_valid e)) b nst dm (Quad s0 0 (Z.of_nat (length cs)) s3) 0) [EFeatEnd]
      (Z.of_nat (length (lvs els)) + Z.of_nat (length (concat (concat (gs ++ [[cs]]))))) els (Some e).
  Proof.
    intros Hbm Hnc Hd Hfew Ht0 Ht2 Ht1 Hb Hmax Hel. cbn [took]. unfold ends. cbn [feed multipolygon_visitor].
    set (w := WW bm nc len last (negb (is_valid e)) b nst dm (Quad s0 0 (Z.of_nat (length cs)) s3) 0).
    change (size_at w 2) with (Z.of_nat (length cs)).
    assert (Z.of_nat (length (lvs els)) + Z.of_nat (length (concat (concat (gs ++ [[cs]])))) = Z.of_nat (length ((lvs els ++ concat (concat gs)) ++ cs))) as En.
    { rewrite !len_app, !concat_app, len_app. replace (concat (concat [[cs]])) with cs by (cbn; rewrite !app_nil_r; reflexivity). rewrite Z.add_assoc. reflexivity. }
    assert (forall i, counts (n_lists k) [element k d e] i = gcnt (fun _ => []) (gs ++ [[cs]]) i \/ i = 0%nat \/ (2 < i)%nat) as Hcnt.
    { intros i. rewrite Hel. destruct i as [|[|[|i]]]; [auto| | |right; right; lia]; left.
      - rewrite gcnt_1. cbn [counts n_lists concat]. rewrite app_nil_r. reflexivity.
      - rewrite gcnt_2. cbn [counts n_lists concat]. rewrite app_nil_r, concat_nonempty. reflexivity. }
    assert (Z.of_nat (length (gcnt (cnts els) (gs ++ [[cs]]) 1%nat)) < int32_max /\ Z.of_nat (length (gcnt (cnts els) (gs ++ [[cs]]) 2%nat)) < int32_max) as (Hf1 & Hf2).
    { split; [specialize (Hfew 0%nat ltac:(cbn; lia))|specialize (Hfew 1%nat ltac:(cbn; lia))]; rewrite map_app in Hfew; cbn [map] in Hfew; rewrite counts_app in Hfew.
      - destruct (Hcnt 1%nat) as [E|[E|E]]; [|lia|lia]. rewrite E, gcnt_1 in Hfew. rewrite gcnt_1. exact Hfew.
      - destruct (Hcnt 2%nat) as [E|[E|E]]; [|lia|lia]. rewrite E, gcnt_2 in Hfew. rewrite gcnt_2. exact Hfew. }
    assert (leaves (n_lists k) [element k d e] = concat (concat (gs ++ [[cs]]))) as Hlv.
    { rewrite Hel. cbn [leaves n_lists concat]. rewrite app_nil_r, concat_nonempty. clear. generalize (gs ++ [[cs]]). intros gs'. induction gs' as [|g gs' IH]; [reflexivity|].
      cbn [map concat]. rewrite !concat_app, IH, concat_nonempty. reflexivity. }
    rewrite En.
    assert (if int32_max <? Z.of_nat (length ((lvs els ++ concat (concat gs)) ++ cs))
      then exists w', (if 0 <? Z.of_nat (length cs) then then! w <- append_coord_offset junk w 2; VRet (add_size w 1 1) 0 else VRet w 0) = VRet w' EOVERFLOW
      else exists b', (then! w <- (if 0 <? Z.of_nat (length cs) then then! w <- append_coord_offset junk w 2; VRet (add_size w 1 1) 0 else VRet w 0);
           if 0 <? size_at w 1 then append_count_offset junk w 1 else VRet w 0) = VRet (WW bm nc len last (negb (is_valid e)) b' nst dm (Quad s0 (if 0 <? Z.of_nat (length cs) then 1 else 0) (Z.of_nat (length cs)) s3) 0) 0 /\
        built k l d b' (gcnt (cnts els) (gs ++ [[cs]])) ((lvs els ++ concat (concat gs)) ++ cs)) as Hflush.
    { destruct (Z.ltb_spec 0 (Z.of_nat (length cs))) as [Hpos|Hzero].
      - pose proof (coord_offset_ok junk junk_bytes k l d bm nc len last (negb (is_valid e)) b nst dm (Quad s0 0 (Z.of_nat (length cs)) s3) 0 _ _ 2 Hb ltac:(cbn; lia)) as H.
        change (Z.of_nat 2) with 2 in H. fold w in H. destruct (int32_max <? Z.of_nat (length ((lvs els ++ concat (concat gs)) ++ cs))).
        { rewrite H. cbn [wthen]. change (EOVERFLOW =? 0) with false. cbn iota. eauto. }
        destruct H as (b2 & E2 & B2). rewrite E2. cbn [wthen]. change (0 =? 0) with true. cbn iota.
        change (add_size (WW bm nc len last (negb (is_valid e)) b2 nst dm (Quad s0 0 (Z.of_nat (length cs)) s3) 0) 1 1) with (WW bm nc len last (negb (is_valid e)) b2 nst dm (Quad s0 1 (Z.of_nat (length cs)) s3) 0).
        change (size_at (WW bm nc len last (negb (is_valid e)) b2 nst dm (Quad s0 1 (Z.of_nat (length cs)) s3) 0) 1) with 1. change (0 <? 1) with true. cbn iota.
        assert (keep (map keep [[cs]]) = [[cs]]) as Ek by (destruct cs; [cbn in Hpos; lia|reflexivity]).
        assert (concat (map keep [[cs]]) = [cs]) as Ek2 by (destruct cs; [cbn in Hpos; lia|reflexivity]).
        rewrite gcnt_2 in Hf2. rewrite map_app, concat_app, Ek2 in Hf2. unfold lens in Hf2. rewrite map_app, app_assoc in Hf2.
        destruct (count_offset_ok junk junk_bytes k l d bm nc len last (negb (is_valid e)) b2 nst dm (Quad s0 1 (Z.of_nat (length cs)) s3) 0 _ _ 1 B2 ltac:(cbn; lia)) as (b3 & E3 & B3).
        { rewrite add_same, gcnt_2. eapply Z.le_lt_trans; [|exact Hf2]. clear. rewrite !app_length. cbn [length map]. rewrite map_length. rewrite lens_length. apply Z.le_refl. }
        exists b3. split; [exact E3|]. eapply built_ext; [exact B3| |reflexivity]. intros i Hi. destruct i as [|[|[|i]]]; [| | |cbn in Hi; lia].
        + rewrite !add_other, !gcnt_0 by discriminate. reflexivity.
        + rewrite add_same, add_other, add_same, Ht1 by discriminate. rewrite !gcnt_1, map_app, filter_app, Ek. unfold lens. rewrite map_app. cbn [map]. rewrite app_assoc. f_equal. f_equal. rewrite app_length. cbn [length]. lia.
        + rewrite add_other, add_same, len_app, Ht2 by discriminate. rewrite !gcnt_2, map_app, concat_app, Ek2. unfold lens. rewrite map_app, app_assoc. f_equal. cbn [map]. f_equal. lia.
      - destruct cs as [|c cs]; [|cbn [length] in Hzero; lia]. rewrite !app_nil_r in *. destruct (Z.ltb_spec int32_max (Z.of_nat (length (lvs els ++ concat (concat gs))))); [lia|].
        cbn [wthen]. change (0 =? 0) with true. cbn iota. exists b. split; [reflexivity|]. eapply built_ext; [exact Hb| |reflexivity]. intros i _. rewrite <- gcnt_app. unfold gcnt at 2. cbn [map filter nonempty concat app lens]. rewrite !at_nil. reflexivity. }
    destruct (Z.ltb_spec int32_max (Z.of_nat (length ((lvs els ++ concat (concat gs)) ++ cs)))) as [Hgt|Hle].
    { destruct Hflush as (w' & ->). cbn [wthen]. change (EOVERFLOW =? 0) with false. cbn iota. change (EOVERFLOW =? 0) with false. cbn iota. eexists _, _. split; [reflexivity|]. right. auto. }
    destruct Hflush as (b1 & E1 & B1). set (q := Quad s0 (if 0 <? Z.of_nat (length cs) then 1 else 0) (Z.of_nat (length cs)) s3) in *.
    destruct (count_offset_ok junk junk_bytes k l d bm nc len last (negb (is_valid e)) b1 nst dm q 0 _ _ 0 B1 ltac:(cbn; lia) Hf1) as (b2 & E2 & B2). change (Z.of_nat 0) with 0 in E2.
    edestruct (feature_bit_lists junk junk_bytes k l d bm nc len last b2 nst dm q 0 els e _ _ ltac:(cbn; lia) Hbm Hnc Hd B2) as (w' & E' & V').
    - intros i Hi. rewrite map_app. cbn [map]. rewrite counts_app. cbn [n_lists] in Hi. destruct i as [|[|[|i]]]; [| | |lia].
      + rewrite add_same, gcnt_0, Ht0, gcnt_1, app_length, lens_length, Hel. f_equal. transitivity [Z.of_nat (length (keep (map keep (gs ++ [[cs]]))))]; [|reflexivity]. f_equal. clear. lia.
      + rewrite add_other by discriminate. destruct (Hcnt 1%nat) as [E|[E|E]]; [|lia|lia]. rewrite E, !gcnt_1. reflexivity.
      + rewrite add_other by discriminate. destruct (Hcnt 2%nat) as [E|[E|E]]; [|lia|lia]. rewrite E, !gcnt_2. reflexivity.
    - rewrite map_app. cbn [map]. rewrite leaves_app, Hlv, !concat_app. replace (concat (concat [[cs]])) with cs by (cbn; rewrite !app_nil_r; reflexivity). rewrite app_assoc. reflexivity.
    - destruct (if 0 <? Z.of_nat (length cs) then then! w <- append_coord_offset junk w 2; VRet (add_size w 1 1) 0 else VRet w 0) as [w1 c1|] eqn:Ew; cbn [wthen] in E1 |- *; [|discriminate E1].
      destruct (Z.eqb_spec c1 0) as [->|Hc1]; [|exfalso; injection E1 as _ Hc; contradiction]. cbn [wthen]. rewrite E1. cbn [wthen]. change (0 =? 0) with true. cbn iota. rewrite E2. cbn [wthen]. change (0 =? 0) with true. cbn iota.
      rewrite E'. change (0 =? 0) with true. cbn iota. exists w', 0. split; [reflexivity|]. left. auto.
  Qed.

  Lemma mp_some w els g evs : visiting k l d w els -> Z.of_nat (length (lvs els)) <= int32_max ->
    deliverable k g -> wf_geom g -> feature_events (Some g) evs -> (forall x, visited k d g = Some x -> few k d (els ++ [Some x])) ->
    took k l d mv w evs (Z.of_nat (length (lvs els)) + Z.of_nat (length (all_coords d g))) els (option_map Some (visited k d g)).
  Proof.
    intros Hv Hmax Hd Hwf He Hfew. specialize (Hfew _ eq_refl). cbn [visited option_map].
    destruct (visiting_grouped w els Hv) as (Hg & Ht0). destruct Hv as [H1 H2 H3 H4].
    destruct w as [b bm nc len last nul nst dm [s0 s1 s2 s3] lev]. cbn [nw_builder nw_null_count nw_validity nw_dims] in *.
    inversion He as [|g' ge Hge]; subst g' evs.
    change (EFeatStart :: ge ++ [EFeatEnd]) with ([EFeatStart] ++ ge ++ [EFeatEnd]). eapply took_pre; [reflexivity|]. cbn [qset nw_size nw_dims with_state].
    assert ((is_point g \/ is_line g \/ multi_of CMultipoint is_point g) \/
      made_of (fun g => is_poly g \/ multi_of CMultilinestring is_line g) (fun c => c = CMultipolygon \/ c = CCollection) g) as [Hp|Hm] by (cbn [deliverable] in Hd; tauto).
    - destruct (mp_loose bm nc len last false nst g Hp Hwf ge Hge b dm s3 _ _ H1) as (b' & dm' & E & D & B & Eg).
      eapply took_pre; [exact E|]. rewrite Eg in *.
      pose proof (mp_end bm nc len last (Some (keep (map keep [[all_coords d g]]))) b' nst dm' 0 s3 els [] (all_coords d g) H3 H2 D Hfew Ht0) as H.
      rewrite !gcnt_1, !gcnt_2 in H. cbn [map concat filter lens app] in H. rewrite !app_nil_r in H. apply H; try assumption.
      + exact (proj2 (proj1 Hg)).
      + exact (proj2 Hg).
      + eapply built_ext; [exact B| |reflexivity]. intros i _. rewrite gcnt_nil. reflexivity.
      + reflexivity.
    - rewrite <- concat_groups. eapply took_ends.
      { apply (mp_geom bm nc len last false nst g Hm Hwf ge Hge b dm 0 s3 _ _ Hg H4 Hmax).
        specialize (Hfew 1%nat ltac:(cbn; lia)). rewrite map_app in Hfew. cbn [map element] in Hfew. rewrite counts_app in Hfew. cbn [n_lists] in Hfew.
        cbn [counts concat] in Hfew. rewrite app_nil_r, concat_nonempty, app_length, map_length in Hfew. eapply Z.le_lt_trans; [|exact Hfew]. rewrite map_length, Nat2Z.inj_add.
        cbn [n_lists counts]. rewrite map_length. apply Z.le_refl. }
      intros Hle w' (b' & dm' & -> & Hdm & ((HB & HT2) & HT1)).
      pose proof (mp_end bm nc len last (Some (keep (map keep (groups d g)))) b' nst dm' (0 + Z.of_nat (length (keep (map keep (groups d g))))) s3 els (groups d g) [] H3 H2 Hdm Hfew Ht0 HT2 HT1) as H.
      rewrite !concat_app, map_app, filter_app in H. cbn [concat app map filter nonempty length] in H. rewrite !app_nil_r in H. apply H; try assumption; [|reflexivity].
      rewrite len_app. exact Hle.
  Qed.

  Lemma mp_null w els evs : visiting k l d w els -> few k d (els ++ [None]) -> Z.of_nat (length (lvs els)) <= int32_max -> feature_events None evs ->
    took k l d mv w evs (Z.of_nat (length (lvs els))) els (Some None).
  Proof.
    intros Hv Hfew Hmax He.
    destruct (visiting_grouped w els Hv) as (((HB & HT2) & HT1) & Ht0). destruct Hv as [H1 H2 H3 H4].
    destruct w as [b bm nc len last nul nst dm [s0 s1 s2 s3] lev]. cbn [nw_builder nw_null_count nw_validity nw_dims] in *.
    inversion He; subst evs. change [EFeatStart; ENullFeat; EFeatEnd] with ([EFeatStart; ENullFeat] ++ [EFeatEnd]). eapply took_pre; [reflexivity|].
    pose proof (mp_end bm nc len last None b nst dm 0 s3 els [] [] H3 H2 H4 Hfew Ht0) as H.
    rewrite !gcnt_1, !gcnt_2 in H. cbn [map concat filter nonempty lens app length] in H. rewrite !app_nil_r, Z.add_0_r in H. apply H; try assumption.
    - eapply built_ext; [exact HB| |reflexivity]. intros i _. rewrite gcnt_nil. reflexivity.
    - reflexivity.
  Qed.
End Junk.
