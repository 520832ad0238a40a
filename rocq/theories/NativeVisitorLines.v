(** * Features delivered to a writer of linestrings or multipoints *)
From Verif Require Import Base BaseFacts TypesModel GeomSpec VisitorModel VisitorSpec VisitorFacts BufferModel BufferFacts CoordsModel BitmapModel BitmapSpec BitmapProofs
  ArrowModel ArrayViewModel NativeSpec NativeProofs GeomFacts NodesModel NodesSpec CopyCoordsModel CopyCoordsSpec CopyCoordsProofs
  BuilderModel BuilderSpec BuilderRun BuilderFacts BuilderCoords BuilderAppend BuilderFinish BuilderProofs
  NativeWriterModel NativeWriterSpec NativeWriterFacts NativeWriterAppend NativeWriterGeom NativeWriterArray NativeWriterFinish NativeWriterRun
  NativeWriterProofs NativeWriterHistory NativeVisitorSpec NativeVisitorProofs.
Local Open Scope Z_scope.

(** What a feature does: the array has one more element, or the feature is refused. *)
Definition took (k : geometry_kind) (l : layout) (d : dim) (v : visitor nwriter) (w : nwriter) (evs : list event) (n : Z)
    (els : list (option (nest (n_lists k)))) (e : option (option (nest (n_lists k)))) : Prop :=
  match e with
  | Some e => ends v w evs n (fun w' => visiting k l d w' (els ++ [e]))
  | None => exists w' c, feed v w evs = Some (w', c) /\ (n <= int32_max /\ c = EINVAL \/ int32_max < n /\ c = EOVERFLOW)
  end.

Lemma took_pre k l d v w w1 e1 e2 n els e : feed v w e1 = Some (w1, 0) -> took k l d v w1 e2 n els e -> took k l d v w (e1 ++ e2) n els e.
Proof.
  intros E H. destruct e as [e|]; cbn [took] in *; [eapply ends_pre; eassumption|]. rewrite (feed_app_ok _ _ _ _ _ E). exact H.
Qed.
Lemma took_ends k l d v w e1 e2 n els e Q : ends v w e1 n Q -> (n <= int32_max -> forall w', Q w' -> took k l d v w' e2 n els e) -> took k l d v w (e1 ++ e2) n els e.
Proof.
  intros (w1 & c1 & E1 & [(Hn & -> & HQ)|(Hn & ->)]) H.
  - eapply took_pre; [exact E1|]. apply H; assumption.
  - assert (feed v w (e1 ++ e2) = Some (w1, EOVERFLOW)) as E by (apply feed_app_fail; [exact E1|discriminate]).
    destruct e as [e|]; cbn [took]; [exists w1, EOVERFLOW|exists w1, EOVERFLOW]; (split; [exact E|right; auto]).
Qed.

Section Junk.
  Variable junk : nat -> nat -> N.
  Hypothesis junk_bytes : forall i j, is_byte (junk i j).
  Variables (k : geometry_kind) (l : layout) (d : dim).
  Hypothesis kind : k = KLinestring \/ k = KMultipoint.
  Notation lv := (linestring_visitor junk).

  Lemma not_box_line : k <> KBox.
  Proof. destruct kind as [-> | ->]; discriminate. Qed.
  Lemma one_list_line : n_lists k = 1%nat.
  Proof. destruct kind as [-> | ->]; reflexivity. Qed.

  (** The end of a feature whose coordinates have no offset yet. *)
  Lemma lv_end_loose bm nc len last e b b1 nst dm s1 s2 s3 lev els cs : bstate bm (map is_valid els) -> nc = nulls (map is_valid els) -> seen_dims dm ->
    lined k l d b (counts (n_lists k) (map (element k d) els)) (leaves (n_lists k) (map (element k d) els)) ->
    built k l d b1 (counts (n_lists k) (map (element k d) els)) (leaves (n_lists k) (map (element k d) els) ++ cs) ->
    counts (n_lists k) [element k d e] 0%nat = [Z.of_nat (length cs)] -> leaves (n_lists k) [element k d e] = cs ->
    took k l d lv (W bm nc len last (negb (is_valid e)) b1 nst dm (Quad 0 s1 s2 s3) lev) [EFeatEnd]
      (Z.of_nat (length (leaves (n_lists k) (map (element k d) els))) + Z.of_nat (length cs)) els (Some e).
  Proof.
    intros Hbm Hnc Hd Hl Hb1 Hc Hlv. cbn [took]. rewrite <- len_app. unfold ends. cbn [feed linestring_visitor].
    change (size_at (W bm nc len last (negb (is_valid e)) b1 nst dm (Quad 0 s1 s2 s3) lev) 0) with 0. change (0 =? 0) with true. cbn iota.
    pose proof (coord_offset_ok junk junk_bytes k l d bm nc len last (negb (is_valid e)) b1 nst dm (Quad 0 s1 s2 s3) lev _ _ 0 Hb1 ltac:(rewrite one_list_line; lia)) as H.
    change (Z.of_nat 0) with 0 in H. destruct (Z.ltb_spec int32_max (Z.of_nat (length (leaves (n_lists k) (map (element k d) els) ++ cs)))) as [Hgt|Hle].
    - rewrite H. cbn [wthen]. change (EOVERFLOW =? 0) with false. cbn iota. change (EOVERFLOW =? 0) with false. cbn iota. eexists _, _. split; [reflexivity|]. right. auto.
    - destruct H as (b2 & E2 & B2). rewrite E2. cbn [wthen]. change (0 =? 0) with true. cbn iota.
      pose proof (lined_push k l d b _ _ cs b2 Hl B2) as (B3 & _).
      destruct (lines_els junk junk_bytes k d els e _ one_list_line eq_refl (plus (counts (n_lists k) (map (element k d) els)) (at_level 0 [Z.of_nat (length cs)]))
                  (leaves (n_lists k) (map (element k d) els) ++ cs)) as (Hcnt & Hacc).
      { unfold plus. rewrite at_same, Hc. reflexivity. }
      { rewrite Hlv. reflexivity. }
      destruct (feature_bit_lists junk junk_bytes k l d bm nc len last b2 nst dm (Quad 0 s1 s2 s3) lev els e _ _ ltac:(rewrite one_list_line; lia) Hbm Hnc Hd B3 Hcnt Hacc)
        as (w' & E' & V'). rewrite E'. change (0 =? 0) with true. cbn iota. exists w', 0. split; [reflexivity|]. left. auto.
  Qed.

  (** The end of a feature that was one sequence. *)
  Lemma lv_end_one bm nc len last e b nst dm s1 s2 s3 lev els cs n : bstate bm (map is_valid els) -> nc = nulls (map is_valid els) -> seen_dims dm ->
    built k l d b (plus (counts (n_lists k) (map (element k d) els)) (at_level 0 [Z.of_nat (length cs)])) (leaves (n_lists k) (map (element k d) els) ++ cs) ->
    counts (n_lists k) [element k d e] 0%nat = [Z.of_nat (length cs)] -> leaves (n_lists k) [element k d e] = cs -> n <= int32_max ->
    took k l d lv (W bm nc len last (negb (is_valid e)) b nst dm (Quad 1 s1 s2 s3) lev) [EFeatEnd] n els (Some e).
  Proof.
    intros Hbm Hnc Hd B3 Hc Hlv Hle. cbn [took]. unfold ends. cbn [feed linestring_visitor].
    change (size_at (W bm nc len last (negb (is_valid e)) b nst dm (Quad 1 s1 s2 s3) lev) 0) with 1. change (1 =? 0) with false. change (1 =? 1) with true. cbn iota. cbn [wthen].
    change (0 =? 0) with true. cbn iota.
    destruct (lines_els junk junk_bytes k d els e _ one_list_line eq_refl (plus (counts (n_lists k) (map (element k d) els)) (at_level 0 [Z.of_nat (length cs)]))
                (leaves (n_lists k) (map (element k d) els) ++ cs)) as (Hcnt & Hacc).
    { unfold plus. rewrite at_same, Hc. reflexivity. }
    { rewrite Hlv. reflexivity. }
    destruct (feature_bit_lists junk junk_bytes k l d bm nc len last b nst dm (Quad 1 s1 s2 s3) lev els e _ _ ltac:(rewrite one_list_line; lia) Hbm Hnc Hd B3 Hcnt Hacc)
      as (w' & E' & V'). rewrite E'. change (0 =? 0) with true. cbn iota. exists w', 0. split; [reflexivity|]. left. auto.
  Qed.

  Lemma visiting_lined w els : visiting k l d w els ->
    lined k l d (nw_builder w) (counts (n_lists k) (map (element k d) els)) (leaves (n_lists k) (map (element k d) els)).
  Proof.
    intros [H1 _ _ _]. split; [exact H1|]. clear -kind. destruct kind as [-> | ->]; cbn [n_lists counts leaves]; apply total_lens.
  Qed.

  Lemma line_null w els evs : visiting k l d w els -> feature_events None evs ->
    took k l d lv w evs (Z.of_nat (length (leaves (n_lists k) (map (element k d) els)))) els (Some None).
  Proof.
    intros Hv He. pose proof (visiting_lined w els Hv) as Hl. inversion He; subst. destruct Hv as [H1 H2 H3 H4].
    destruct w as [b bm nc len last nul nst dm [s0 s1 s2 s3] lev]. cbn [nw_builder nw_null_count nw_validity nw_dims] in *.
    change [EFeatStart; ENullFeat; EFeatEnd] with ([EFeatStart; ENullFeat] ++ [EFeatEnd]). eapply took_pre; [reflexivity|].
    pose proof (lv_end_loose bm nc len last None b b 0 dm 0 s2 s3 0 els [] H3 H2 H4 Hl) as H. cbn [length] in H. rewrite app_nil_r, Z.add_0_r in H. apply H.
    - exact H1.
    - destruct kind as [-> | ->]; reflexivity.
    - destruct kind as [-> | ->]; reflexivity.
  Qed.

  Lemma line_visited g :
    (sequences d g = [] -> exists x, visited k d g = Some x /\ counts (n_lists k) [x] 0%nat = [0] /\ leaves (n_lists k) [x] = []) /\
    (forall cs, sequences d g = [cs] -> exists x, visited k d g = Some x /\ counts (n_lists k) [x] 0%nat = [Z.of_nat (length cs)] /\ leaves (n_lists k) [x] = cs) /\
    (forall a b r, sequences d g = a :: b :: r -> visited k d g = None).
  Proof.
    clear -kind. destruct kind as [-> | ->]; (split; [|split]); cbn [visited].
    all: try (intros a b r ->; reflexivity). all: try (intros ->; eexists; split; [reflexivity|split; reflexivity]).
    all: intros cs ->; exists cs; (split; [reflexivity|split; [reflexivity|cbn; apply app_nil_r]]).
  Qed.

  Lemma line_point w els s cs evs : visiting k l d w els -> wf_geom (GPoint s cs) -> geom_events (GPoint s cs) evs -> 
    took k l d lv w (EFeatStart :: evs ++ [EFeatEnd]) (Z.of_nat (length (leaves (n_lists k) (map (element k d) els))) + Z.of_nat (length cs)) els
      (option_map Some (visited k d (GPoint s cs))).
  Proof.
    intros Hv Hwf He. pose proof (visiting_lined w els Hv) as Hl. destruct Hv as [H1 H2 H3 H4].
    destruct w as [b bm nc len last nul nst dm [s0 s1 s2 s3] lev]. cbn [nw_builder nw_null_count nw_validity nw_dims] in *.
    destruct (line_visited (GPoint s cs)) as (_ & Hone & _). destruct (Hone _ eq_refl) as (x & -> & Hc & Hx). cbn [option_map].
    change (EFeatStart :: evs ++ [EFeatEnd]) with ([EFeatStart] ++ evs ++ [EFeatEnd]). eapply took_pre; [reflexivity|]. cbn [qset nw_size nw_dims].
    revert H2. inversion He as [? ? evs0 He0| | |]; subst. inversion Hwf as [? ? Hw0 _| | |]; subst. intros H2.
    rewrite <- !app_assoc. eapply took_pre; [reflexivity|].
    destruct (seq_ok junk junk_bytes k l d not_box_line bm nc len last false lv 1 ltac:(lia) ltac:(intros; reflexivity) s cs evs0 He0 Hw0
                b 0 (Quad 0 0 s2 s3) 0 _ _ H1) as (b' & E & B).
    eapply took_pre; [cbn [nw_is_null nw_nesting nw_size nw_level with_state]; rewrite dims_code; exact E|].
    eapply took_pre; [reflexivity|].
    pose proof (lv_end_loose bm nc len last (Some x) b b' 0 (dim_code s) (0 + Z.of_nat (length cs)) s2 s3 0 els _ H3 H2 (seen_dim s) Hl B) as H.
    rewrite map_length in H, Hc. apply H; [exact Hc|exact Hx].
  Qed.

  Lemma line_some w els g evs : visiting k l d w els -> Z.of_nat (length (leaves (n_lists k) (map (element k d) els))) <= int32_max ->
    deliverable k g -> wf_geom g -> feature_events (Some g) evs ->
    took k l d lv w evs (Z.of_nat (length (leaves (n_lists k) (map (element k d) els))) + Z.of_nat (length (all_coords d g))) els (option_map Some (visited k d g)).
  Proof.
    intros Hv Hmax Hd Hwf He. assert (is_point g \/ made_of (fun g => is_line g \/ is_poly g \/ multi_of CMultipoint is_point g) (fun c => c <> CMultipoint) g) as Hd'.
    { clear -kind Hd. destruct kind as [Ek | Ek]; rewrite Ek in Hd; exact Hd. }
    inversion He as [|g' ge Hge]; subst. destruct Hd' as [Hp|Hm].
    - destruct g as [s cs| | |]; try contradiction. unfold all_coords. cbn [geom_coords]. rewrite !map_length. apply line_point; assumption.
    - pose proof (visiting_lined w els Hv) as Hl. destruct Hv as [H1 H2 H3 H4].
      destruct w as [b bm nc len last nul nst dm [s0 s1 s2 s3] lev]. cbn [nw_builder nw_null_count nw_validity nw_dims] in *.
      change (EFeatStart :: ge ++ [EFeatEnd]) with ([EFeatStart] ++ ge ++ [EFeatEnd]). eapply took_pre; [reflexivity|]. cbn [qset nw_size nw_dims with_state].
      rewrite <- concat_sequences. eapply took_ends.
      { apply (lv_geom junk junk_bytes k l d not_box_line bm nc len last false one_list_line g Hm Hwf ge Hge b 0 dm 0 0 s2 s3 _ _ Hl ltac:(lia) H4 Hmax). }
      intros Hle w' (b' & nst' & dm' & s1' & -> & _ & Hdm & HL). cbn [fst snd]. rewrite Z.add_0_l.
      destruct (line_visited g) as (Hnone & Hone & Hmany). destruct (sequences d g) as [|cs [|cs' r]].
      + destruct (Hnone eq_refl) as (x & -> & Hc & Hx). cbn [option_map].
        cbn [concat length]. rewrite app_nil_r in HL. 
        eapply (lv_end_loose bm nc len last (Some x) b b' nst' dm' s1' s2 s3 0 els []); try eassumption.
        rewrite app_nil_r. eapply built_ext; [exact (proj1 HL)| |reflexivity]. intros i _. unfold plus, at_level. destruct (Nat.eqb i 0); apply app_nil_r.
      + destruct (Hone _ eq_refl) as (x & -> & Hc & Hx). cbn [option_map].
        cbn [concat length] in *. rewrite !app_nil_r in *. 
        eapply (lv_end_one bm nc len last (Some x) b' nst' dm' s1' s2 s3 0 els cs); try eassumption. exact (proj1 HL).
      + rewrite (Hmany _ _ _ eq_refl). cbn [option_map took]. cbn [feed linestring_visitor].
        set (q := Quad _ _ _ _). change (size_at (W bm nc len last false b' nst' dm' q 0) 0) with (Z.of_nat (length (cs :: cs' :: r))).
        cbn [length]. destruct (Z.eqb_spec (Z.of_nat (S (S (length r)))) 0); [lia|]. destruct (Z.eqb_spec (Z.of_nat (S (S (length r)))) 1); [lia|].
        cbn [wthen]. change (EINVAL =? 0) with false. cbn iota. change (EINVAL =? 0) with false. cbn iota. eexists _, _. split; [reflexivity|]. left. auto.
  Qed.
End Junk.
