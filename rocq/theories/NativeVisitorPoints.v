(** * Features delivered to a writer of points *)
From Verif Require Import Base BaseFacts TypesModel GeomSpec VisitorModel VisitorSpec VisitorFacts BufferModel BufferFacts CoordsModel BitmapModel BitmapSpec BitmapProofs
  ArrowModel ArrayViewModel NativeSpec NativeProofs GeomFacts NodesModel NodesSpec CopyCoordsModel CopyCoordsSpec CopyCoordsProofs
  BuilderModel BuilderSpec BuilderRun BuilderFacts BuilderCoords BuilderAppend BuilderFinish BuilderProofs
  NativeWriterModel NativeWriterSpec NativeWriterFacts NativeWriterAppend NativeWriterGeom NativeWriterArray NativeWriterFinish NativeWriterRun
  NativeWriterProofs NativeWriterHistory NativeVisitorSpec NativeVisitorProofs NativeVisitorLines.
Local Open Scope Z_scope.

Section Junk.
  Variable junk : nat -> nat -> N.
  Hypothesis junk_bytes : forall i j, is_byte (junk i j).
  Variables (l : layout) (d : dim).
  Notation pv := (point_visitor junk).
  Notation WW bm nc len last null := (NativeVisitorProofs.W bm nc len last null).

  Lemma not_box_point : KPoint <> KBox.
  Proof. discriminate. Qed.

  Section Within.
    Variables (bm : bitmap) (nc len : Z) (last : quad Z) (null : bool).
    Notation W := (NativeVisitorProofs.W bm nc len last null).

    Lemma pv_seq s cs evs b nst q lev cnt acc : seq_events s cs evs -> wf_seq s cs -> built KPoint l d b cnt acc ->
      exists b', feed pv (W b nst (dim_code s) q lev) evs = Some (W b' nst (dim_code s) (qadd q 0 (Z.of_nat (length cs))) lev, 0) /\
        built KPoint l d b' cnt (acc ++ map (convert_coord s d) cs).
    Proof. intros He Hw Hb. apply (seq_ok junk junk_bytes KPoint l d not_box_point bm nc len last null pv 0 ltac:(lia) ltac:(intros; reflexivity) s cs evs He Hw b nst q lev cnt acc Hb). Qed.

    Lemma pv_rings s rings : Forall (wf_seq s) rings -> forall evs, ring_events s rings evs ->
      forall b nst q lev cnt acc, built KPoint l d b cnt acc ->
      exists b', feed pv (W b nst (dim_code s) q lev) evs = Some (W b' nst (dim_code s) (qadd q 0 (Z.of_nat (length (concat rings)))) lev, 0) /\
        built KPoint l d b' cnt (acc ++ map (convert_coord s d) (concat rings)).
    Proof.
      intros Hw. induction rings as [|cs rings IH]; intros evs He b nst q lev cnt acc Hb; inversion He as [|? ? e1 e2 He1 He2]; subst.
      - exists b. cbn [feed concat map length]. rewrite app_nil_r, qadd_0 by lia. auto.
      - apply Forall_cons_iff in Hw. destruct Hw as (Hw1 & Hw2).
        destruct (pv_seq s cs e1 b nst q lev cnt acc He1 Hw1 Hb) as (b1 & E1 & B1).
        destruct (IH Hw2 e2 He2 b1 nst (qadd q 0 (Z.of_nat (length cs))) lev cnt _ B1) as (b2 & E2 & B2).
        exists b2. split.
        + erewrite feed_cons_ok by reflexivity. rewrite (feed_app_ok _ _ _ _ _ E1). cbn [app]. erewrite feed_cons_ok by reflexivity. rewrite E2.
          rewrite qadd_qadd by lia. cbn [concat]. rewrite len_app. reflexivity.
        + cbn [concat]. rewrite map_app, app_assoc. exact B2.
    Qed.

    Lemma pv_geom g : wf_geom g -> forall evs, geom_events g evs -> forall b nst dm q lev cnt acc, built KPoint l d b cnt acc ->
      exists b' dm', feed pv (W b nst dm q lev) evs = Some (W b' nst dm' (qadd q 0 (Z.of_nat (length (all_coords d g)))) lev, 0) /\ seen_dims dm' /\
        built KPoint l d b' cnt (acc ++ all_coords d g).
    Proof.
      induction g as [s cs|s cs|s rings|c s parts IH] using geom_ind'; intros Hw evs He b nst dm q lev cnt acc Hb.
      - inversion He as [? ? e He1| | |]; subst. inversion Hw as [? ? Hw1 _| | |]; subst. unfold all_coords. cbn [geom_coords]. rewrite map_map, map_length.
        destruct (pv_seq s cs e b nst q lev cnt acc He1 Hw1 Hb) as (b1 & E1 & B1). exists b1, (dim_code s). split; [|split; [apply seen_dim|exact B1]].
        cbn [app]. erewrite feed_cons_ok; [|cbn [point_visitor]; rewrite dims_code; reflexivity]. rewrite (feed_app_ok _ _ _ _ _ E1). reflexivity.
      - inversion He as [|? ? e He1| |]; subst. inversion Hw as [|? ? Hw1| |]; subst. unfold all_coords. cbn [geom_coords]. rewrite map_map, map_length.
        destruct (pv_seq s cs e b nst q lev cnt acc He1 Hw1 Hb) as (b1 & E1 & B1). exists b1, (dim_code s). split; [|split; [apply seen_dim|exact B1]].
        cbn [app]. erewrite feed_cons_ok; [|cbn [point_visitor]; rewrite dims_code; reflexivity]. rewrite (feed_app_ok _ _ _ _ _ E1). reflexivity.
      - inversion He as [| |? ? e He1|]; subst. inversion Hw as [| |? ? Hw1|]; subst. unfold all_coords. cbn [geom_coords]. rewrite map_map, map_length.
        destruct (pv_rings s rings Hw1 e He1 b nst q lev cnt acc Hb) as (b1 & E1 & B1). exists b1, (dim_code s). split; [|split; [apply seen_dim|exact B1]].
        cbn [app]. erewrite feed_cons_ok; [|cbn [point_visitor]; rewrite dims_code; reflexivity]. rewrite (feed_app_ok _ _ _ _ _ E1). reflexivity.
      - inversion He as [| | |? ? ? e He1]; subst. inversion Hw as [| | |? ? ? Hw1]; subst. rewrite all_coords_coll.
        assert (forall dm0, seen_dims dm0 -> exists b' dm', feed pv (W b nst dm0 q lev) e = Some (W b' nst dm' (qadd q 0 (Z.of_nat (length (flat_map (all_coords d) parts)))) lev, 0) /\ seen_dims dm' /\
          built KPoint l d b' cnt (acc ++ flat_map (all_coords d) parts)) as Hgo.
        { clear He dm Hw. revert e He1 b q acc Hb. induction parts as [|p parts IHp]; intros e He1 b q acc Hb dm Hd; inversion He1 as [|? ? e1 e2 Hp1 Hp2]; subst.
          - exists b, dm. cbn [feed flat_map length]. rewrite app_nil_r, qadd_0 by lia. auto.
          - inversion Hw1 as [|? ? Hwp Hwr]; subst. apply Forall_cons_iff in IH. destruct IH as (IH1 & IH2).
            destruct (IH1 Hwp e1 Hp1 b nst dm q lev cnt acc Hb) as (b1 & dm1 & E1 & D1 & B1).
            destruct (IHp IH2 Hwr e2 Hp2 b1 (qadd q 0 (Z.of_nat (length (all_coords d p)))) _ B1 dm1 D1) as (b2 & dm2 & E2 & D2 & B2).
            exists b2, dm2. split; [|split; [exact D2|]].
            + rewrite (feed_app_ok _ _ _ _ _ E1), E2, qadd_qadd by lia. cbn [flat_map]. rewrite len_app. reflexivity.
            + cbn [flat_map]. rewrite app_assoc. exact B2. }
        destruct (Hgo (dim_code s) (seen_dim s)) as (b1 & dm1 & E1 & D1 & B1). exists b1, dm1. split; [|split; [exact D1|exact B1]].
        cbn [app]. erewrite feed_cons_ok; [|cbn [point_visitor]; rewrite dims_code; reflexivity]. rewrite (feed_app_ok _ _ _ _ _ E1). reflexivity.
    Qed.
  End Within.

  Lemma pv_end bm nc len last (e : option coord) b nst dm s1 s2 s3 lev els : bstate bm (map is_valid els) -> nc = nulls (map is_valid els) -> seen_dims dm ->
    built KPoint l d b (fun _ => []) (map (element KPoint d) els ++ [element KPoint d e]) ->
    exists w', append_bit junk (WW bm nc len last (negb (is_valid e)) b nst dm (Quad 1 s1 s2 s3) lev) (negb (negb (is_valid e))) (bd_size b) = VRet w' 0 /\
      visiting KPoint l d w' (els ++ [e]).
  Proof.
    intros Hbm Hnc Hd Hb. eapply (feature_bit junk junk_bytes KPoint l d bm nc len last b nst dm (Quad 1 s1 s2 s3) lev els e); try eassumption.
    - intros i Hi. cbn in Hi. lia.
    - rewrite map_app. reflexivity.
    - rewrite (ci_size _ _ _ _ _ (bu_coords _ _ _ _ _ _ Hb)), app_length, map_length. cbn [length]. lia.
  Qed.

  Lemma point_took w els g evs : visiting KPoint l d w els -> match g with Some g => wf_geom g | None => True end -> feature_events g evs ->
    took KPoint l d pv w evs 0 els (match g with Some g => option_map Some (visited KPoint d g) | None => Some None end).
  Proof.
    intros Hv Hwf He. destruct Hv as [H1 H2 H3 H4]. cbn [n_lists leaves] in H1.
    destruct w as [b bm nc len last nul nst dm [s0 s1 s2 s3] lev]. cbn [nw_builder nw_null_count nw_validity nw_dims] in *.
    assert (forall (e : option coord) b dm acc lev, acc = map (element KPoint d) els -> element KPoint d e = nan_coord d -> built KPoint l d b (fun _ => []) acc -> seen_dims dm ->
      took KPoint l d pv (WW bm nc len last (negb (is_valid e)) b nst dm (Quad 0 s1 s2 s3) lev) [EFeatEnd] 0 els (Some e)) as Hempty.
    { clear -H2 H3 junk_bytes. intros e b dm acc lev -> Hel Hb Hd. destruct (cfg_init KPoint l d _ not_box_point (bu_cfg _ _ _ _ _ _ Hb)) as (Hcc & Hg & _).
      cbn [took]. unfold ends. cbn [feed point_visitor]. change (size_at (WW bm nc len last (negb (is_valid e)) b nst dm (Quad 0 s1 s2 s3) lev) 0) with 0.
      change (0 =? 0) with true. cbn iota. cbn [nw_builder NativeVisitorProofs.W]. 
      assert (bd_dims b = dim_code d) as Ed by apply Hcc.
      assert (num_dimensions (bd_dims b) = Some (Z.of_nat (ndim d))) as En by (rewrite Ed; destruct d; reflexivity). rewrite En.
      destruct (empty_coord_append junk junk_bytes l d _ b _ dm (Z.of_nat (ndim d)) Hcc (bu_good _ _ _ _ _ _ Hb) (bu_coords _ _ _ _ _ _ Hb) Hd) as (b' & E & G & C & _ & X & L & F).
      match goal with |- context [coords_append junk ?x ?y ?z ?u ?t ?m] => change (coords_append junk x y z u t m) with (coords_append junk b empty_coord_values (empty_coord (Z.of_nat (ndim d))) dm 0 1) end. rewrite E. cbn [on_builder wthen]. change (0 =? 0) with true. cbn iota.
      destruct (pv_end bm nc len last e b' nst dm s1 s2 s3 lev els H3 H2 Hd) as (w' & E' & V').
      { rewrite Hel. eapply (built_coords junk junk_bytes); eassumption. }
      match goal with |- context [append_bit junk ?x ?y ?z] => change (append_bit junk x y z) with (append_bit junk (WW bm nc len last (negb (is_valid e)) b' nst dm (Quad 1 s1 s2 s3) lev) (negb (negb (is_valid e))) (bd_size b')) end.
      rewrite E'. change (0 =? 0) with true. cbn iota. exists w', 0. split; [reflexivity|]. left. split; [unfold int32_max; lia|auto]. }
    inversion He as [|g' ge Hge]; subst g evs.
    - change [EFeatStart; ENullFeat; EFeatEnd] with ([EFeatStart; ENullFeat] ++ [EFeatEnd]). eapply took_pre; [reflexivity|].
      apply (Hempty None b dm (map (element KPoint d) els) 0); auto.
    - change (EFeatStart :: ge ++ [EFeatEnd]) with ([EFeatStart] ++ ge ++ [EFeatEnd]). eapply took_pre; [reflexivity|]. cbn [qset nw_size nw_dims with_state].
      destruct (pv_geom bm nc len last false g' Hwf ge Hge b nst dm (Quad 0 s1 s2 s3) 0 _ _ H1) as (b' & dm' & E & D & B).
      eapply took_pre; [exact E|]. change (qadd (Quad 0 s1 s2 s3) 0 (Z.of_nat (length (all_coords d g')))) with (Quad (0 + Z.of_nat (length (all_coords d g'))) s1 s2 s3).
      rewrite Z.add_0_l. cbn [visited]. destruct (all_coords d g') as [|c [|c' r]].
      + cbn [option_map length]. apply (Hempty (Some (nan_coord d)) b' dm' (map (element KPoint d) els ++ []) 0); auto. apply app_nil_r.
      + cbn [option_map length]. cbn [took]. unfold ends. cbn [feed point_visitor].
        change (size_at (WW bm nc len last false b' nst dm' (Quad (Z.of_nat 1) s1 s2 s3) 0) 0) with 1. change (1 =? 0) with false. change (1 =? 1) with true. cbn iota. cbn [wthen]. change (0 =? 0) with true. cbn iota.
        destruct (pv_end bm nc len last (Some c) b' nst dm' s1 s2 s3 0 els H3 H2 D B) as (w' & E' & V').
        match goal with |- context [append_bit junk ?x ?y ?z] => change (append_bit junk x y z) with (append_bit junk (WW bm nc len last (negb (is_valid (Some c))) b' nst dm' (Quad 1 s1 s2 s3) 0) (negb (negb (is_valid (Some c)))) (bd_size b')) end.
        rewrite E'. change (0 =? 0) with true. cbn iota. exists w', 0. split; [reflexivity|]. left. split; [unfold int32_max; lia|auto].
      + cbn [option_map took feed point_visitor].
        set (q := Quad _ _ _ _). change (size_at (WW bm nc len last false b' nst dm' q 0) 0) with (Z.of_nat (length (c :: c' :: r))).
        cbn [length]. destruct (Z.eqb_spec (Z.of_nat (S (S (length r)))) 0); [lia|]. destruct (Z.eqb_spec (Z.of_nat (S (S (length r)))) 1); [lia|].
        cbn [wthen]. change (EINVAL =? 0) with false. cbn iota. change (EINVAL =? 0) with false. cbn iota. eexists _, _. split; [reflexivity|]. left. split; [unfold int32_max; lia|auto].
  Qed.
End Junk.
