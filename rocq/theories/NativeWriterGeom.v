(** * Geometries that a native writer takes *)
From Verif Require Import Base BaseFacts TypesModel GeomSpec VisitorModel BufferModel BufferFacts CoordsModel BitmapModel BitmapSpec BitmapProofs
  ArrowModel ArrayViewModel NativeSpec NativeProofs GeomFacts NodesModel NodesSpec CopyCoordsModel CopyCoordsSpec CopyCoordsProofs
  BuilderModel BuilderSpec BuilderRun BuilderFacts BuilderCoords BuilderAppend BuilderFinish BuilderProofs
  NativeWriterModel NativeWriterSpec NativeWriterFacts NativeWriterAppend.
Local Open Scope Z_scope.

Lemma all_coords_coll d c s parts : all_coords d (GColl c s parts) = flat_map (all_coords d) parts.
Proof.
  unfold all_coords. rewrite geom_coords_coll. induction parts as [|g gs IH]; [reflexivity|]. cbn [flat_map]. rewrite map_app. f_equal. exact IH.
Qed.
Lemma line_coords d g cs : line_of d g = Some cs -> all_coords d g = cs.
Proof. destruct g; try discriminate. intros E. injection E as <-. unfold all_coords. cbn [geom_coords]. rewrite map_map. reflexivity. Qed.
Lemma poly_coords d g rings : poly_of d g = Some rings -> all_coords d g = concat rings.
Proof. destruct g; try discriminate. intros E. injection E as <-. unfold all_coords. cbn [geom_coords]. rewrite map_map, concat_map. reflexivity. Qed.
Lemma lines_coords d : forall parts lines, all_some (line_of d) parts = Some lines -> flat_map (all_coords d) parts = concat lines.
Proof.
  induction parts as [|g gs IH]; intros lines E; cbn [all_some] in E; [injection E as <-; reflexivity|].
  destruct (line_of d g) as [cs|] eqn:E1; [|discriminate]. destruct (all_some (line_of d) gs) as [ls|]; [|discriminate]. injection E as <-.
  cbn [flat_map concat]. rewrite (line_coords d g cs E1), (IH ls eq_refl). reflexivity.
Qed.
Lemma polys_coords d : forall parts polys, all_some (poly_of d) parts = Some polys -> flat_map (all_coords d) parts = concat (concat polys).
Proof.
  induction parts as [|g gs IH]; intros polys E; cbn [all_some] in E; [injection E as <-; reflexivity|].
  destruct (poly_of d g) as [cs|] eqn:E1; [|discriminate]. destruct (all_some (poly_of d) gs) as [ls|]; [|discriminate]. injection E as <-.
  cbn [flat_map concat]. rewrite concat_app, (poly_coords d g cs E1), (IH ls eq_refl). reflexivity.
Qed.
Lemma all_some_length {A B} (f : A -> option B) : forall l ys, all_some f l = Some ys -> length l = length ys.
Proof.
  induction l as [|x l IH]; intros ys E; cbn [all_some] in E; [injection E as <-; reflexivity|].
  destruct (f x), (all_some f l); try discriminate. injection E as <-. cbn. f_equal. auto.
Qed.

Definition lens {A} (xs : list (list A)) : list Z := map (fun x => Z.of_nat (length x)) xs.

Lemma line_node m lvl nodes d g cs : repr_geom m lvl nodes g -> line_of d g = Some cs ->
  exists nd, nodes = [nd] /\ nd_type nd = 2%N /\ Z.of_N (nd_size nd) = Z.of_nat (length cs).
Proof.
  intros R E. destruct R; try discriminate. injection E as <-. exists nd. destruct H as [Hty _ _ Hsz _]. rewrite map_length. split; [reflexivity|]. split; [assumption|]. rewrite Hsz. apply nat_N_Z.
Qed.
Lemma line_nodes m d lvl : forall parts rest, repr_parts m lvl rest parts -> forall lines, all_some (line_of d) parts = Some lines ->
  map (fun nd => Z.of_N (nd_size nd)) rest = lens lines.
Proof.
  induction parts as [|g gs IH]; intros rest R lines E; inversion R; subst; cbn [all_some] in E; [injection E as <-; reflexivity|].
  destruct (line_of d g) as [cs|] eqn:E1; [|discriminate]. destruct (all_some (line_of d) gs) as [ls|]; [|discriminate]. injection E as <-.
  destruct (line_node _ _ _ _ _ _ ltac:(eassumption) E1) as (nd & -> & _ & Hn). cbn [app map lens]. rewrite Hn. f_equal. apply IH; auto.
Qed.
Lemma rings_sizes m lvl s rings rn : Forall2 (fun cs nd => seq_node m 2 lvl s cs nd) rings rn ->
  map (fun nd => Z.of_N (nd_size nd)) rn = lens rings.
Proof. unfold lens. induction 1; [reflexivity|]. cbn [map]. f_equal; [|assumption]. destruct H as [_ _ _ Hsz _]. rewrite Hsz. apply nat_N_Z. Qed.
Lemma lens_map {A B} (f : A -> B) xs : lens (map (map f) xs) = lens xs.
Proof. unfold lens. rewrite map_map. apply map_ext. intros. rewrite map_length. reflexivity. Qed.
Lemma lens_length {A} (xs : list (list A)) : length (lens xs) = length xs.
Proof. apply map_length. Qed.
Lemma poly_node m lvl nodes d g rings : repr_geom m lvl nodes g -> poly_of d g = Some rings ->
  exists nd rn, nodes = nd :: rn /\ nd_type nd = 3%N /\ Z.of_N (nd_size nd) = Z.of_nat (length (lens rings)) /\ map (fun nd => Z.of_N (nd_size nd)) rn = lens rings.
Proof.
  intros R E. destruct R; try discriminate. injection E as <-. exists nd, ring_nodes. destruct H as [Hty _ _ Hsz]. rewrite lens_map, lens_length. split; [reflexivity|].
  split; [assumption|]. split; [rewrite Hsz; apply nat_N_Z|]. eapply rings_sizes. eassumption.
Qed.
Lemma polys_nodes m d lvl : forall parts rest, repr_parts m lvl rest parts -> forall polys, all_some (poly_of d) parts = Some polys ->
  poly_nodes (map lens polys) rest.
Proof.
  induction parts as [|g gs IH]; intros rest R polys E; inversion R; subst; cbn [all_some] in E; [injection E as <-; constructor|].
  destruct (poly_of d g) as [cs|] eqn:E1; [|discriminate]. destruct (all_some (poly_of d) gs) as [ls|]; [|discriminate]. injection E as <-.
  destruct (poly_node _ _ _ _ _ _ ltac:(eassumption) E1) as (nd & rn & -> & _ & Hn & Hm). cbn [app map]. constructor; auto.
Qed.

Lemma small_lens {A} (xs : list (list A)) : Forall (fun x => Z.of_nat (length x) < 2 ^ 31) xs -> Forall (fun r => r < 2 ^ 31) (lens xs).
Proof. unfold lens. rewrite Forall_map. auto. Qed.

Lemma concat_lens {A} (polys : list (list (list A))) : concat (map lens polys) = lens (concat polys).
Proof. unfold lens. rewrite concat_map. reflexivity. Qed.

(** Geometries with coordinates. *)
Definition store_full (k : geometry_kind) (d : dim) (g : geom) : option (nest (n_lists k)) :=
  match k return option (nest (n_lists k)) with
  | KPoint => match all_coords d g with [c] => Some c | _ => None end
  | KLinestring =>
      match g with GLine _ _ => line_of d g | GColl CMultilinestring _ [p] => line_of d p | _ => None end
  | KPolygon =>
      match g with GPoly _ _ => poly_of d g | GColl CMultipolygon _ [p] => poly_of d p | _ => None end
  | KMultipoint =>
      match g with GPoint _ _ | GColl CMultipoint _ _ => Some (all_coords d g) | _ => None end
  | KMultilinestring =>
      match g with
      | GLine _ _ => all_some (line_of d) [g]
      | GColl CMultilinestring _ parts => all_some (line_of d) parts
      | _ => None
      end
  | KMultipolygon =>
      match g with
      | GPoly _ _ => all_some (poly_of d) [g]
      | GColl CMultipolygon _ parts => all_some (poly_of d) parts
      | _ => None
      end
  | KBox => None
  end.
Lemma store_cases k d g : store k d g = match geom_coords g with [] => Some (nest_empty k d) | _ => store_full k d g end.
Proof. unfold store. destruct (geom_coords g); reflexivity. Qed.

Lemma store_leaves k d g x : store_full k d g = Some x -> leaves (n_lists k) [x] = all_coords d g.
Proof.
  intros E. destruct k; cbn [store_full n_lists leaves concat] in *; rewrite ?app_nil_r.
  - destruct (all_coords d g) as [|c [|]]; try discriminate. injection E as <-. reflexivity.
  - destruct g as [| |s rings|[] s [|p [|]]]; try discriminate.
    + symmetry. apply line_coords. exact E.
    + rewrite all_coords_coll. cbn [flat_map]. rewrite app_nil_r. symmetry. apply line_coords. exact E.
  - destruct g as [| |s rings|[] s [|p [|]]]; try discriminate.
    + symmetry. apply poly_coords. exact E.
    + rewrite all_coords_coll. cbn [flat_map]. rewrite app_nil_r. symmetry. apply poly_coords. exact E.
  - destruct g as [| |s rings|[] s parts]; try discriminate; injection E as <-; reflexivity.
  - destruct g as [| |s rings|[] s parts]; try discriminate.
    + pose proof (lines_coords d _ _ E) as H. cbn [flat_map] in H. rewrite app_nil_r in H. symmetry. exact H.
    + rewrite all_coords_coll. symmetry. apply lines_coords. exact E.
  - destruct g as [| |s rings|[] s parts]; try discriminate.
    + pose proof (polys_coords d _ _ E) as H. cbn [flat_map] in H. rewrite app_nil_r in H. symmetry. exact H.
    + rewrite all_coords_coll. symmetry. apply polys_coords. exact E.
  - discriminate.
Qed.

Lemma coll_code_eq c : (coll_code c = 4%N -> c = CMultipoint) /\ (coll_code c = 5%N -> c = CMultilinestring) /\ (coll_code c = 6%N -> c = CMultipolygon).
Proof. destruct c; repeat split; discriminate. Qed.

Lemma repr_root m lvl nodes g : repr_geom m lvl nodes g -> exists nd r, nodes = nd :: r /\ nd_type nd = geom_code g.
Proof. intros R. destruct R as [? ? ? ? []|? ? ? ? []|? ? ? ? ? []|? ? ? ? ? ? []]; eauto. Qed.

Section Junk.
  Variable junk : nat -> nat -> N.
  Hypothesis junk_bytes : forall i j, is_byte (junk i j).

  Ltac fld := intros; unfold plus, at_level; cbn; reflexivity.

  Lemma append_offsets_ok k l d w cnt cs m lvl nodes g x : k <> KBox -> writing k l d w cnt cs -> repr_geom m lvl nodes g ->
    store_full k d g = Some x -> small (n_lists k) x -> Z.of_nat (length (geom_coords g)) < 2 ^ 32 ->
    exists w', append_offsets junk w nodes (N.of_nat (length (geom_coords g))) = VRet w' 0 /\
      writing k l d w' (plus cnt (counts (n_lists k) [x])) cs /\ frame w w'.
  Proof.
    intros Hk Hw R E Hs Hc. destruct (repr_root _ _ _ _ R) as (root & parts & -> & Ht).
    pose proof Hw as ([Hcfg _ _ _ _ _] & _). destruct (cfg_init k l d _ Hk Hcfg) as (_ & Hg & _). unfold append_offsets. rewrite Hg, Ht.
    assert (forall n w1 w2 i, (exists w', (append_linestring_offsets junk 1 w1 [n] i) = VRet w' 0 /\ w2 = w') -> True) as _ by auto.
    assert (forall ext w', writing k l d w' (plus cnt ext) cs -> (forall i, (i < n_lists k)%nat -> ext i = counts (n_lists k) [x] i) ->
              writing k l d w' (plus cnt (counts (n_lists k) [x])) cs) as Hext.
    { intros ext w' W He. eapply writing_ext; [exact W| |reflexivity]. intros i Hi. unfold plus. rewrite He by exact Hi. reflexivity. }
    destruct k; try contradiction; cbn [store_full n_lists small] in *; cbn -[append_linestring_offsets append_polygon_offsets append_size append_multipolygon_offsets writing].
    - (* point *)
      assert (length (geom_coords g) = 1%nat) as HL.
      { assert (length (all_coords d g) = length (geom_coords g)) by apply map_length. destruct (all_coords d g) as [|c [|]]; try discriminate. cbn in H. lia. }
      rewrite HL. cbn. exists w. split; [reflexivity|]. split; [|apply frame_refl]. eapply writing_ext; [exact Hw| |reflexivity].
      intros i Hi. cbn [n_lists] in Hi. lia.
    - (* linestring *)
      destruct g as [s cs0|s cs0|s rings|c s gs]; try discriminate.
      + destruct (line_node _ _ _ _ _ _ R E) as (nd & En & _ & Hn). injection En as <- ->.
        destruct (linestring_offsets_ok junk junk_bytes KLinestring l d 0 [] ltac:(cbn; lia) [root] w cnt cs Hw) as (w' & E' & W' & F').
        { constructor; [|constructor]. destruct Hs. lia. }
        cbn [geom_code]. change (Z.of_N 2 =? GT_LINESTRING) with true. cbn iota. exists w'. split; [exact E'|]. split; [|exact F'].
        eapply Hext; [exact W'|]. intros [|i] Hi; cbn in Hi; try lia. cbn [map]. rewrite Hn. reflexivity.
      + destruct c; try discriminate. destruct gs as [|p [|]]; try discriminate. cbn [geom_code coll_code].
        change (Z.of_N 5 =? GT_LINESTRING) with false. change (Z.of_N 5 =? GT_MULTILINESTRING) with true. cbn iota.
        inversion R as [| | |? ? ? ? ? ? Hin Hp]; subst. destruct Hin as [_ _ _ Hz]. rewrite Hz. change (1 <? N.of_nat (length [p]))%N with false. cbn iota.
        inversion Hp as [|? ? ? n1 n2 Rp Rn]; subst. inversion Rn; subst. rewrite app_nil_r in *.
        destruct (line_node _ _ _ _ _ _ Rp E) as (nd & -> & _ & Hn).
        destruct (linestring_offsets_ok junk junk_bytes KLinestring l d 0 [] ltac:(cbn; lia) [nd] w cnt cs Hw) as (w' & E' & W' & F').
        { constructor; [|constructor]. destruct Hs. lia. }
        exists w'. split; [exact E'|]. split; [|exact F'].
        eapply Hext; [exact W'|]. intros [|i] Hi; cbn in Hi; try lia. cbn [map]. rewrite Hn. reflexivity.
    - (* polygon *)
      assert (forall m lvl nodes g', repr_geom m lvl nodes g' -> poly_of d g' = Some x -> exists w', append_polygon_offsets junk 1 w nodes 0 = VRet w' 0 /\
                writing KPolygon l d w' (plus cnt (counts 2 [x])) cs /\ frame w w') as Hpoly.
      { intros m' lvl' nodes g' R' E0. destruct (poly_node _ _ _ _ _ _ R' E0) as (nd & rn & -> & _ & Hn & Hm).
        destruct (polygon_offsets_ok junk junk_bytes KPolygon l d 0 [] ltac:(cbn; lia) [lens x] (nd :: rn ++ [])) with (w := w) (cnt := cnt) (cs := cs) as (w' & E' & W' & F').
        - constructor; auto. constructor.
        - destruct Hs as (Hs1 & Hs2). constructor; [|constructor]. split; [rewrite lens_length; exact Hs1|]. apply small_lens.
          eapply Forall_impl; [|exact Hs2]. intros a Ha. apply Ha.
        - exact Hw.
        - rewrite !app_nil_r in E'. exists w'. split; [exact E'|]. split; [|exact F']. eapply Hext; [exact W'|].
          intros [|[|i]] Hi; cbn in Hi; try lia; cbn; [rewrite lens_length; reflexivity|]. rewrite !app_nil_r. reflexivity. }
      destruct g as [s cs0|s cs0|s rings|c s gs]; try discriminate.
      + exact (Hpoly _ _ _ _ R E).
      + destruct c; try discriminate. destruct gs as [|p [|]]; try discriminate. cbn [geom_code coll_code].
        change (Z.of_N 6 =? GT_POLYGON) with false. change (Z.of_N 6 =? GT_MULTIPOLYGON) with true. cbn iota.
        inversion R as [| | |? ? ? ? ? ? Hin Hp]; subst. destruct Hin as [_ _ _ Hz]. rewrite Hz. change (1 <? N.of_nat (length [p]))%N with false. cbn iota.
        inversion Hp as [|? ? ? n1 n2 Rp Rn]; subst. inversion Rn; subst. rewrite app_nil_r in *. exact (Hpoly _ _ _ _ Rp E).
    - (* multipoint *)
      assert (length (all_coords d g) = length (geom_coords g)) as HL by apply map_length.
      assert (x = all_coords d g) as Hx by (destruct g as [| | |[] ? ?]; try discriminate; congruence).
      destruct (append_size_ok junk junk_bytes KMultipoint l d w cnt cs 0 (N.of_nat (length (geom_coords g))) Hw ltac:(cbn; lia)) as (w' & E' & W' & F').
      { destruct Hs as (Hs & _). rewrite Hx, HL in Hs. rewrite nat_N_Z. exact Hs. }
      assert ((Z.of_N (geom_code g) =? GT_POINT) || (Z.of_N (geom_code g) =? GT_MULTIPOINT) = true) as ->.
      { destruct g as [| | |[] ? ?]; try discriminate; reflexivity. }
      exists w'. split; [exact E'|]. split; [|exact F']. eapply Hext; [exact W'|].
      rewrite Hx. intros [|i] Hi; cbn in Hi; try lia. cbn. rewrite HL, nat_N_Z. reflexivity.
    - (* multilinestring *)
      destruct g as [s cs0|s cs0|s rings|c s gs]; try discriminate.
      + cbn [all_some] in E. destruct (line_of d (GLine s cs0)) as [cs1|] eqn:E1; [|discriminate]. injection E as <-.
        destruct (line_node _ _ _ _ _ _ R E1) as (nd & En & _ & Hn). injection En as <- ->.
        cbn [geom_code]. change (Z.of_N 2 =? GT_LINESTRING) with true. cbn iota.
        destruct (append_size_ok junk junk_bytes KMultilinestring l d w cnt cs 0 1 Hw ltac:(cbn; lia) ltac:(lia)) as (w1 & E1' & W1 & F1).
        rewrite E1'. cbn [wthen]. change (0 =? 0) with true. cbn iota.
        destruct (linestring_offsets_ok junk junk_bytes KMultilinestring l d 1 [] ltac:(cbn; lia) [root] w1 _ cs W1) as (w' & E' & W' & F').
        { constructor; [|constructor]. destruct Hs as (_ & Hs). apply Forall_inv in Hs. destruct Hs. lia. }
        exists w'. split; [exact E'|]. split; [|eapply frame_trans; eassumption]. eapply writing_ext; [exact W'| |reflexivity].
        intros [|[|i]] Hi; cbn in Hi; try lia; unfold plus, at_level; cbn; rewrite ?app_nil_r; [reflexivity|]. rewrite Hn. reflexivity.
      + destruct c; try discriminate. cbn [geom_code coll_code].
        change (Z.of_N 5 =? GT_LINESTRING) with false. change (Z.of_N 5 =? GT_MULTILINESTRING) with true. cbn iota.
        inversion R as [| | |? ? ? ? ? ? Hin Hp]; subst. destruct Hin as [_ _ _ Hz].
        pose proof (line_nodes _ _ _ _ _ Hp _ E) as Hm. pose proof (all_some_length _ _ _ E) as HL.
        destruct (polygon_offsets_ok junk junk_bytes KMultilinestring l d 0 [] ltac:(cbn; lia) [lens x] (root :: parts ++ [])) with (w := w) (cnt := cnt) (cs := cs) as (w' & E' & W' & F').
        * constructor; auto; [rewrite lens_length; lia|constructor].
        * destruct Hs as (Hs1 & Hs2). constructor; [|constructor]. split; [rewrite lens_length; exact Hs1|]. apply small_lens.
          eapply Forall_impl; [|exact Hs2]. intros a Ha. apply Ha.
        * exact Hw.
        * rewrite !app_nil_r in E'. exists w'. split; [exact E'|]. split; [|exact F']. eapply Hext; [exact W'|].
          intros [|[|i]] Hi; cbn in Hi; try lia; cbn; [rewrite lens_length; reflexivity|]. rewrite !app_nil_r. reflexivity.
    - (* multipolygon *)
      destruct g as [s cs0|s cs0|s rings|c s gs]; try discriminate.
      + cbn [all_some] in E. destruct (poly_of d (GPoly s rings)) as [rs|] eqn:E1; [|discriminate]. injection E as <-.
        destruct (poly_node _ _ _ _ _ _ R E1) as (nd & rn & En & _ & Hn & Hm). injection En as <- <-.
        cbn [geom_code]. change (Z.of_N 3 =? GT_POLYGON) with true. cbn iota.
        destruct (append_size_ok junk junk_bytes KMultipolygon l d w cnt cs 0 1 Hw ltac:(cbn; lia) ltac:(lia)) as (w1 & E1' & W1 & F1).
        rewrite E1'. cbn [wthen]. change (0 =? 0) with true. cbn iota.
        destruct (polygon_offsets_ok junk junk_bytes KMultipolygon l d 1 [] ltac:(cbn; lia) [lens rs] (root :: parts ++ [])) with (w := w1) (cnt := plus cnt (at_level 0 [Z.of_N 1])) (cs := cs) as (w' & E' & W' & F').
        * constructor; auto. constructor.
        * destruct Hs as (_ & Hs). apply Forall_inv in Hs. destruct Hs as (Hs1 & Hs2). constructor; [|constructor]. split; [rewrite lens_length; exact Hs1|]. apply small_lens.
          eapply Forall_impl; [|exact Hs2]. intros a Ha. apply Ha.
        * exact W1.
        * rewrite !app_nil_r in E'. exists w'. split; [exact E'|]. split; [|eapply frame_trans; eassumption]. eapply writing_ext; [exact W'| |reflexivity].
          intros [|[|[|i]]] Hi; cbn in Hi; try lia; unfold plus, at_level; cbn; rewrite ?app_nil_r; [reflexivity|rewrite lens_length; reflexivity|reflexivity].
      + destruct c; try discriminate. cbn [geom_code coll_code].
        change (Z.of_N 6 =? GT_POLYGON) with false. change (Z.of_N 6 =? GT_MULTIPOLYGON) with true. cbn iota.
        inversion R as [| | |? ? ? ? ? ? Hin Hp]; subst. destruct Hin as [_ _ _ Hz].
        pose proof (polys_nodes _ _ _ _ _ Hp _ E) as Hm. pose proof (all_some_length _ _ _ E) as HL. unfold append_multipolygon_offsets.
        destruct Hs as (Hs1 & Hs2).
        destruct (append_size_ok junk junk_bytes KMultipolygon l d w cnt cs 0 (nd_size root) Hw ltac:(cbn; lia) ltac:(lia)) as (w1 & E1' & W1 & F1).
        rewrite E1'. cbn [wthen]. change (0 =? 0) with true. cbn iota. rewrite Hz, Nat2N.id, HL, <- (map_length lens).
        destruct (polygon_offsets_ok junk junk_bytes KMultipolygon l d 1 [] ltac:(cbn; lia) (map lens x) parts Hm) with (w := w1) (cnt := plus cnt (at_level 0 [Z.of_N (nd_size root)])) (cs := cs) as (w' & E' & W' & F').
        * rewrite Forall_map. eapply Forall_impl; [|exact Hs2]. intros a (Ha1 & Ha2). split; [rewrite lens_length; exact Ha1|]. apply small_lens.
          eapply Forall_impl; [|exact Ha2]. intros a0 Ha0. apply Ha0.
        * exact W1.
        * rewrite app_nil_r in E'. exists w'. split; [exact E'|]. split; [|eapply frame_trans; eassumption]. eapply writing_ext; [exact W'| |reflexivity].
          intros [|[|[|i]]] Hi; cbn in Hi; try lia; unfold plus, at_level; cbn; rewrite ?app_nil_r.
          -- rewrite Hz, nat_N_Z, HL, ?map_length. reflexivity.
          -- rewrite map_map. f_equal. apply map_ext. intros a. rewrite lens_length. reflexivity.
          -- rewrite concat_lens. reflexivity.
  Qed.
End Junk.
