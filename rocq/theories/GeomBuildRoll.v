From Verif Require Import Base BaseFacts TypesModel GeomSpec GeomFacts NodesModel NodesSpec VisitorModel VisitorSpec VisitorFacts
  BufferModel BufferFacts GeomVisitModel GeomVisitProofs WkbSpec WkbReaderProofs WkbWriterHistory CopyCoordsModel
  GeomBuildModel GeomBuildSpec GeomBuildProofs.
Local Open Scope Z_scope.

(** ** The sizes set at the end of a feature *)

Lemma roll_app a b end_ sizes :
  roll (a ++ b) end_ sizes =
  (do (b', end_, sizes) <- roll b end_ sizes; do (a', end_, sizes) <- roll a end_ sizes; Ok (a' ++ b', end_, sizes)).
Proof.
  induction a as [|nd a IH]; cbn [app roll].
  - destruct (roll b end_ sizes) as [[[b' e'] s']| | |]; reflexivity.
  - rewrite IH. destruct (roll b end_ sizes) as [[[b' e'] s']| | |]; cbn [obind]; try reflexivity.
    destruct (roll a e' s') as [[[a' e''] s'']| | |]; cbn [obind]; try reflexivity.
    destruct (roll_node nd e'' s'') as [[[nd' e3] s3]| | |]; reflexivity.
Qed.

(** [sizes'] is [sizes] with entry [l] set to [n] (mod 2^32). *)
Definition bumped (sizes sizes' : arr32 N) (l : N) (n : N) : Prop :=
  forall j, aget sizes' j = if j =? Z.of_N l then Some (wrap32 n) else aget sizes j.

Lemma roll_seq b ty d lvl off cs sizes n : ty = 1%N \/ ty = 2%N -> wf_seq d cs -> count32 cs -> (lvl < 32)%N ->
  aget sizes (Z.of_N lvl) = Some n ->
  exists sizes', roll_node (seq_at false b ty d lvl off cs) (b, off + span cs) sizes =
    Ok (seq_at true b ty d lvl off cs, (b, off), sizes') /\ bumped sizes sizes' lvl (n + 1).
Proof.
  intros Hty Hwf Hc Hlvl Hn.
  destruct (aset_some sizes (Z.of_N lvl) (wrap32 (n + 1)) ltac:(lia)) as (sizes' & Es).
  exists sizes'. split; [|intros j; apply (aget_aset _ _ _ _ Es)].
  unfold roll_node.
  assert (nd_level (seq_at false b ty d lvl off cs) = lvl) as -> by (destruct d; reflexivity).
  assert (nd_type (seq_at false b ty d lvl off cs) = ty) as -> by (destruct d; reflexivity).
  assert (q0 (nd_coords (seq_at false b ty d lvl off cs)) = (b, off)) as ->.
  { destruct d; cbn; unfold ptr_add; cbn [fst snd]; rewrite Z.add_0_r; reflexivity. }
  assert (q0 (nd_stride (seq_at false b ty d lvl off cs)) = Z.of_nat (ndim d) * 8) as -> by (destruct d; reflexivity).
  rewrite Hn. cbn [or_ub obind]. rewrite Es. cbn [or_ub obind fst snd].
  replace (is_sequence ty) with true by (destruct Hty; subst; reflexivity).
  rewrite Nat.eqb_refl. cbn [negb]. pose proof (ndim_bounds d) as Hd.
  destruct (Z.eqb_spec (Z.of_nat (ndim d) * 8) 0); [lia|].
  replace (off + span cs - off) with (span cs) by lia. rewrite (span_wf d cs Hwf), Z.quot_mul by lia.
  unfold count32 in Hc. rewrite Z.mod_small by lia.
  replace (Z.to_N (Z.of_nat (length cs))) with (N.of_nat (length cs)) by lia.
  do 3 f_equal. destruct d; reflexivity.
Qed.

Lemma bumped_trans s s1 s2 l n1 n2 : bumped s s1 l n1 -> bumped s1 s2 l n2 -> bumped s s2 l n2.
Proof. intros H1 H2 j. rewrite H2. destruct (j =? Z.of_N l) eqn:E; [reflexivity|]. rewrite H1, E. reflexivity. Qed.

Lemma bumped_get s s' l n : bumped s s' l n -> aget s' (Z.of_N l) = Some (wrap32 n).
Proof. intros H. rewrite H, Z.eqb_refl. reflexivity. Qed.

Lemma bumped_add s s' l a b : bumped s s' l (wrap32 a + b) -> bumped s s' l (a + b).
Proof. unfold bumped. intros H j. rewrite H, wrap32_add. reflexivity. Qed.

Lemma bumped_same s l n : aget s (Z.of_N l) = Some n -> (n < 2 ^ 32)%N -> bumped s s l n.
Proof. intros H Hn j. destruct (Z.eqb_spec j (Z.of_N l)) as [->|]; [|reflexivity]. rewrite wrap32_id by exact Hn. exact H. Qed.

Definition rspan (rings : list (list coord)) : Z := Z.of_nat (length (rings_bytes rings)).
Lemma rspan_cons cs r : rspan (cs :: r) = span cs + rspan r.
Proof. unfold rspan, rings_bytes, span. cbn [concat]. rewrite enc_coords_app, app_length. lia. Qed.

Lemma roll_rings b d lvl rings : Forall (wf_seq d) rings -> Forall count32 rings -> (lvl < 32)%N ->
  forall off sizes, aget sizes (Z.of_N lvl) = Some 0%N ->
  exists sizes', roll (rings_at false b d lvl off rings) (b, off + rspan rings) sizes =
    Ok (rings_at true b d lvl off rings, (b, off), sizes') /\ bumped sizes sizes' lvl (N.of_nat (length rings)).
Proof.
  intros Hwf Hc Hlvl. induction rings as [|cs r IH]; intros off sizes Hn.
  - exists sizes. cbn [rings_at roll]. split; [|apply bumped_same; [exact Hn|reflexivity]].
    change (rspan []) with 0. rewrite Z.add_0_r. reflexivity.
  - inversion Hwf; inversion Hc; subst. cbn [rings_at roll]. rewrite rspan_cons, Z.add_assoc.
    destruct (IH ltac:(assumption) ltac:(assumption) (off + span cs) sizes Hn) as (s1 & -> & B1). cbn [obind].
    destruct (roll_seq b 2 d lvl off cs s1 _ (or_intror eq_refl) ltac:(assumption) ltac:(assumption) Hlvl (bumped_get _ _ _ _ B1))
      as (s2 & -> & B2). cbn [obind].
    exists s2. split; [reflexivity|]. cbn [length].
    replace (N.of_nat (S (length r))) with (N.of_nat (length r) + 1)%N by lia.
    apply bumped_add. exact (bumped_trans _ _ _ _ _ _ B1 B2).
Qed.

Definition below0 (sizes : arr32 N) (lvl : N) : Prop := forall j, Z.of_N lvl < j < 32 -> aget sizes j = Some 0%N.

Definition rolls (g : geom) : Prop := forall b lvl off sizes n, wf_geom g -> counts32 g ->
  (lvl + N.of_nat (nesting g) <= 31)%N -> aget sizes (Z.of_N lvl) = Some n -> below0 sizes lvl ->
  exists sizes', roll (geom_at false b lvl off g) (b, off + gspan g) sizes = Ok (geom_at true b lvl off g, (b, off), sizes') /\
    bumped sizes sizes' lvl (n + 1).

Lemma below0_bumped s s' l n : bumped s s' l n -> below0 s l -> below0 s' l.
Proof. intros B H j Hj. rewrite B. destruct (Z.eqb_spec j (Z.of_N l)); [lia|]. apply H, Hj. Qed.

Definition pspan (gs : list geom) : Z := Z.of_nat (length (flat_map gbytes gs)).
Lemma pspan_cons g gs : pspan (g :: gs) = gspan g + pspan gs.
Proof. unfold pspan, gspan. cbn [flat_map]. rewrite app_length. lia. Qed.

Lemma roll_parts gs : Forall rolls gs -> forall b lvl off sizes, wf_geoms gs -> Forall counts32 gs ->
  (lvl + N.of_nat (nestings gs) <= 31)%N -> aget sizes (Z.of_N lvl) = Some 0%N -> below0 sizes lvl ->
  exists sizes', roll (parts_at false b lvl off gs) (b, off + pspan gs) sizes = Ok (parts_at true b lvl off gs, (b, off), sizes') /\
    bumped sizes sizes' lvl (N.of_nat (length gs)).
Proof.
  induction 1 as [|g gs Hg _ IH]; intros b lvl off sizes Hwf Hc Hl Hn H0.
  - exists sizes. cbn [parts_at roll]. split; [|apply bumped_same; [exact Hn|reflexivity]].
    change (pspan []) with 0. rewrite Z.add_0_r. reflexivity.
  - inversion Hwf; inversion Hc; subst. cbn [parts_at]. rewrite nestings_cons in Hl. rewrite roll_app, pspan_cons, Z.add_assoc.
    destruct (IH b lvl (off + gspan g) sizes ltac:(assumption) ltac:(assumption) ltac:(lia) Hn H0) as (s1 & -> & B1). cbn [obind].
    destruct (Hg b lvl off s1 _ ltac:(assumption) ltac:(assumption) ltac:(lia) (bumped_get _ _ _ _ B1) (below0_bumped _ _ _ _ B1 H0))
      as (s2 & -> & B2). cbn [obind].
    exists s2. split; [reflexivity|]. cbn [length].
    replace (N.of_nat (S (length gs))) with (N.of_nat (length gs) + 1)%N by lia.
    apply bumped_add. exact (bumped_trans _ _ _ _ _ _ B1 B2).
Qed.

Lemma roll_inner ty d lvl k end_ sizes s1 n : (3 <= ty <= 7)%N -> (lvl < 31)%N -> (N.of_nat k < 2 ^ 32)%N ->
  aget sizes (Z.of_N lvl) = Some n -> below0 sizes lvl -> bumped sizes s1 (lvl + 1) (N.of_nat k) ->
  exists s2, roll_node (blank false ty d lvl k) end_ s1 = Ok (blank true ty d lvl k, end_, s2) /\ bumped sizes s2 lvl (n + 1).
Proof.
  intros Hty Hl Hk Hn H0 B1. unfold roll_node, blank. cbn [nd_level nd_type with_size nd_coords nd_stride nd_dims nd_swap].
  assert (aget s1 (Z.of_N lvl) = Some n) as E1.
  { rewrite B1. destruct (Z.eqb_spec (Z.of_N lvl) (Z.of_N (lvl + 1))); [lia|exact Hn]. }
  rewrite E1. cbn [or_ub obind].
  destruct (aset_some s1 (Z.of_N lvl) (wrap32 (n + 1)) ltac:(lia)) as (s1' & Es). rewrite Es. cbn [or_ub obind].
  unfold is_sequence. destruct (N.eqb_spec ty 1); [lia|]. destruct (N.eqb_spec ty 2); [lia|]. cbn [orb].
  destruct (N.leb_spec 3 ty); [|lia]. destruct (N.leb_spec ty 7); [|lia]. cbn [andb].
  rewrite (aget_aset _ _ _ _ Es). destruct (Z.eqb_spec (Z.of_N lvl + 1) (Z.of_N lvl)); [lia|].
  replace (Z.of_N lvl + 1) with (Z.of_N (lvl + 1)) by lia. rewrite (bumped_get _ _ _ _ B1). cbn [or_ub obind].
  destruct (aset_some s1' (Z.of_N (lvl + 1)) 0%N ltac:(lia)) as (s2 & Es2). rewrite Es2. cbn [or_ub obind].
  exists s2. rewrite wrap32_id by exact Hk. split; [reflexivity|].
  intros j. rewrite (aget_aset _ _ _ _ Es2), (aget_aset _ _ _ _ Es), B1.
  destruct (Z.eqb_spec j (Z.of_N lvl)); destruct (Z.eqb_spec j (Z.of_N (lvl + 1))); try lia; try reflexivity.
  subst j. symmetry. apply H0. lia.
Qed.

Lemma roll_one nd end_ sizes : roll [nd] end_ sizes = (do (nd, end_, sizes) <- roll_node nd end_ sizes; Ok ([nd], end_, sizes)).
Proof. reflexivity. Qed.

Lemma geom_rolls g : rolls g.
Proof.
  induction g as [d cs|d cs|d rings|k d parts IH] using geom_ind'; intros b lvl off sizes n Hwf Hc Hl Hn H0.
  - inversion Hwf; inversion Hc; subst. cbn [nesting] in Hl. cbn [geom_at]. rewrite roll_one.
    unfold gspan. rewrite gbytes_point. fold (span cs).
    destruct (roll_seq b 1 d lvl off cs sizes n) as (s & -> & B); auto; [lia|]. exists s. split; [reflexivity|exact B].
  - inversion Hwf; inversion Hc; subst. cbn [nesting] in Hl. cbn [geom_at]. rewrite roll_one.
    unfold gspan. rewrite gbytes_line. fold (span cs).
    destruct (roll_seq b 2 d lvl off cs sizes n) as (s & -> & B); auto; [lia|]. exists s. split; [reflexivity|exact B].
  - inversion Hwf; inversion Hc; subst. pose proof (nesting_pos (GPoly d rings)). cbn [geom_at roll].
    unfold gspan. rewrite gbytes_poly. fold (rspan rings).
    destruct (roll_rings b d (lvl + 1) rings ltac:(assumption) ltac:(assumption) ltac:(lia) off sizes (H0 (Z.of_N (lvl + 1)) ltac:(lia))) as (s1 & -> & B1).
    cbn [obind].
    destruct (roll_inner 3 d lvl (length rings) (b, off) sizes s1 n) as (s2 & -> & B2); auto; try lia.
    exists s2. split; [reflexivity|exact B2].
  - inversion Hwf; inversion Hc; subst. rewrite nesting_coll in Hl. rewrite !geom_at_coll. cbn [roll].
    unfold gspan. rewrite gbytes_coll. fold (pspan parts).
    destruct (roll_parts parts IH b (lvl + 1)%N off sizes ltac:(assumption) ltac:(assumption) ltac:(lia) (H0 (Z.of_N (lvl + 1)) ltac:(lia))) as (s1 & -> & B1).
    { intros j Hj. apply H0. lia. }
    cbn [obind].
    destruct (roll_inner (coll_code k) d lvl (length parts) (b, off) sizes s1 n) as (s2 & -> & B2); auto; try lia; [apply coll_code_37|].
    exists s2. split; [reflexivity|exact B2].
Qed.

(** ** The finished nodes denote the geometry *)

Lemma seq_repr m b data ty d lvl off cs l : nth_error m b = Some data -> tail_at data off (enc_coords LE cs ++ l) -> wf_seq d cs ->
  seq_node m ty lvl d cs (seq_at true b ty d lvl off cs).
Proof.
  intros Hm Ht Hwf. split; try (destruct d; reflexivity).
  intros i j c Hi Hj. unfold node_ordinate.
  assert (qget (nd_coords (seq_at true b ty d lvl off cs)) j = Some (b, off + Z.of_nat j * 8)) as ->.
  { destruct d; cbn [ndim ordinates length] in Hj; destruct j as [|[|[|[|j]]]]; try lia; reflexivity. }
  assert (qget (nd_stride (seq_at true b ty d lvl off cs)) j = Some (Z.of_nat (ndim d) * 8)) as ->.
  { destruct d; cbn [ndim ordinates length] in Hj; destruct j as [|[|[|[|j]]]]; try lia; reflexivity. }
  assert (nd_swap (seq_at true b ty d lvl off cs) = false) as -> by (destruct d; reflexivity).
  assert (wf_coord d c) as [Hlen Hw] by (apply (proj1 (Forall_forall _ _) Hwf); eapply nth_error_In; exact Hi).
  destruct (nth_error c j) as [w|] eqn:Ew; [|apply nth_error_None in Ew; lia].
  assert (w < 2 ^ 64)%N as Hw64 by (apply (proj1 (Forall_forall _ _) Hw); eapply nth_error_In; exact Ew).
  unfold load64, load_bytes, ptr_add. cbn [fst snd]. rewrite Hm.
  rewrite (seq_words data off LE d cs l i j c w Ht Hwf Hi Ew Hj).
  cbn [enc64]. rewrite le_val_bytes by exact Hw64. reflexivity.
Qed.

Lemma rings_repr m b data d lvl rings l : nth_error m b = Some data -> Forall (wf_seq d) rings ->
  forall off, tail_at data off (rings_bytes rings ++ l) ->
  Forall2 (fun cs rn => seq_node m 2 lvl d cs rn) rings (rings_at true b d lvl off rings).
Proof.
  intros Hm. induction 1 as [|cs r Hcs Hr IH]; intros off Ht; cbn [rings_at]; constructor.
  - unfold rings_bytes in Ht. cbn [concat] in Ht. rewrite enc_coords_app, <- app_assoc in Ht.
    eapply seq_repr; eassumption.
  - apply IH. unfold rings_bytes in Ht. cbn [concat] in Ht. rewrite enc_coords_app, <- app_assoc in Ht.
    exact (tail_at_adv _ _ _ _ Ht).
Qed.

Lemma geom_repr m b data g : nth_error m b = Some data -> wf_geom g -> forall lvl off l, tail_at data off (gbytes g ++ l) ->
  repr_geom m lvl (geom_at true b lvl off g) g.
Proof.
  intros Hm. induction g as [d cs|d cs|d rings|k d parts IH] using geom_ind'; intros Hwf lvl off l Ht; inversion Hwf; subst.
  - constructor. rewrite gbytes_point in Ht. eapply seq_repr; eassumption.
  - constructor. rewrite gbytes_line in Ht. eapply seq_repr; eassumption.
  - cbn [geom_at]. constructor; [split; reflexivity|]. rewrite gbytes_poly in Ht. eapply rings_repr; eassumption.
  - rewrite geom_at_coll. constructor; [split; reflexivity|]. rewrite gbytes_coll in Ht.
    match goal with H : wf_geoms parts |- _ => rename H into Hp end. clear Hwf.
    generalize (lvl + 1)%N as lv. intros lv. revert off l Ht Hp.
    induction IH as [|g gs Hg _ IHgs]; intros off l Ht Hp; cbn [parts_at]; [constructor|].
    inversion Hp; subst. cbn [flat_map] in Ht. rewrite <- app_assoc in Ht.
    constructor; [eapply Hg; eassumption|]. eapply IHgs; [|assumption]. exact (tail_at_adv _ _ _ _ Ht).
Qed.

Lemma g_mem_block s : (1 <= g_blk s)%nat -> nth_error (g_mem s) (g_blk s) = Some (b_data (g_coords s)).
Proof.
  intros H. unfold g_mem. destruct (g_blk s) as [|b]; [lia|]. cbn [nth_error]. rewrite nth_error_app2; rewrite repeat_length; [|lia].
  replace (b - (S b - 1))%nat with 0%nat by lia. reflexivity.
Qed.

(** Simple geometries without coordinates need no sizes. *)
Lemma simple_fin g b lvl off : simple g -> geom_coords g = [] -> geom_at false b lvl off g = geom_at true b lvl off g.
Proof.
  destruct g as [d cs|d cs|d [|r rs]|k d [|p ps]]; cbn [simple geom_coords]; intros Hs Hc; try contradiction; try reflexivity.
  - destruct cs; [reflexivity|discriminate].
  - destruct cs; [reflexivity|discriminate].
Qed.

Lemma geom_words_wf g : wf_geom g -> Forall (fun dc => wf_coord (fst dc) (snd dc)) (geom_coords g).
Proof.
  induction g as [d cs|d cs|d rings|k d parts IH] using geom_ind'; intros Hwf; inversion Hwf; subst.
  - cbn [geom_coords]. apply Forall_map. cbn [fst snd]. assumption.
  - cbn [geom_coords]. apply Forall_map. cbn [fst snd]. assumption.
  - cbn [geom_coords]. apply Forall_map. cbn [fst snd]. apply Forall_concat. assumption.
  - rewrite geom_coords_coll.
    match goal with H : wf_geoms parts |- _ => rename H into Hp end. clear Hwf.
    induction IH as [|g gs Hg _ IHgs]; cbn [flat_map]; [constructor|]. inversion Hp; subst. apply Forall_app. split; auto.
Qed.

Lemma gbytes_nonempty g : wf_geom g -> geom_coords g <> [] -> 0 < gspan g.
Proof.
  intros Hwf Hc. unfold gspan, gbytes. pose proof (geom_words_wf g Hwf) as H.
  destruct (geom_coords g) as [|[d c] r]; [contradiction|]. inversion H as [|? ? [Hl _] _]; subst.
  cbn [map fst snd] in *. unfold enc_coords. cbn [flat_map]. rewrite app_length. unfold enc_coord. pose proof (ndim_bounds d).
  destruct c as [|w c]; [cbn in Hl; lia|]. cbn [flat_map]. rewrite app_length, enc64_length. lia.
Qed.

Lemma geom_at_cons fin b lvl off g : exists nd ns, geom_at fin b lvl off g = nd :: ns.
Proof. destruct g; try (cbn [geom_at]; eauto); rewrite ?geom_at_coll; eauto. Qed.

Lemma gbytes_nil g : geom_coords g = [] -> gbytes g = [].
Proof. unfold gbytes. intros ->. reflexivity. Qed.

Theorem build_ok g e s : geom_events g e -> wf_geom g -> counts32 g -> (nesting g <= 31)%nat ->
  (1 <= g_blk s)%nat -> geom_coords g <> [] \/ simple g ->
  exists s', feed geom_step s ([EFeatStart] ++ e ++ [EFeatEnd]) = Some (s', 0) /\ (1 <= g_blk s')%nat /\
    b_data (g_coords s') = gbytes g /\ repr_geom (g_mem s') 0 (g_nodes s') g.
Proof.
  intros He Hwf Hc Hnest Hb Hne. cbn [app].
  remember {| g_nodes := []; g_coords := {| b_data := []; b_cap := b_cap (g_coords s) |}; g_blk := g_blk s; g_level := 0 |} as s0 eqn:Es0.
  assert (geom_step s EFeatStart = VRet s0 0) as E0 by (subst s0; reflexivity).
  assert (home s0) as H0 by (subst s0; split; [exact Hb|constructor]).
  assert (g_level s0 = 0) as L0 by (subst s0; reflexivity).
  assert (b_size (g_coords s0) = 0) as S0 by (subst s0; reflexivity).
  destruct (geom_feed g e He s0 H0 ltac:(lia) ltac:(lia)) as (s1 & E1 & G1).
  rewrite L0, S0 in G1. change (Z.to_N 0) with 0%N in G1.
  pose proof (gr_nodes _ _ _ _ _ G1) as N1. pose proof (gr_data _ _ _ _ _ G1) as D1. pose proof (gr_home _ _ _ _ _ G1) as [B1 _].
  subst s0. cbn [g_nodes map app g_coords b_data] in N1, D1.
  assert (tail_at (b_data (g_coords s1)) 0 (gbytes g ++ [])) as Ht by (rewrite D1, app_nil_r; apply tail_at_0).
  pose proof (geom_repr (g_mem s1) (g_blk s1) _ g (g_mem_block s1 B1) Hwf 0%N 0 [] Ht) as Hr.
  rewrite (feed_cons_ok _ _ _ _ _ E0), (feed_app_ok _ _ _ _ _ E1). cbn [feed geom_step]. unfold g_feat_end.
  destruct (geom_at_cons false (g_blk s1) 0 0 g) as (nd & ns & En). rewrite N1, En.
  assert (b_size (g_coords s1) = gspan g) as Ez by (unfold b_size; rewrite D1; reflexivity).
  rewrite Ez. destruct (Z.eqb_spec (gspan g) 0) as [Hz|Hz].
  - destruct Hne as [Hne|Hs]; [pose proof (gbytes_nonempty g Hwf Hne); lia|].
    change (0 =? 0) with true. cbv iota. exists s1. split; [reflexivity|]. split; [exact B1|]. split; [exact D1|].
    rewrite N1, (simple_fin g _ _ _ Hs); [exact Hr|].
    destruct (geom_coords g) eqn:Eg; [reflexivity|]. exfalso. pose proof (gbytes_nonempty g Hwf ltac:(rewrite Eg; discriminate)). lia.
  - rewrite <- En.
    destruct (geom_rolls g (g_blk s1) 0%N 0 zero_sizes 0%N Hwf Hc ltac:(lia)) as (sz & R & _).
    { reflexivity. }
    { intros j Hj. unfold aget, in32, zero_sizes. destruct (_ && _) eqn:E; [reflexivity|lia]. }
    rewrite Z.add_0_l in R. rewrite R. change (0 =? 0) with true. cbv iota.
    eexists. split; [reflexivity|]. split; [exact B1|]. split; [exact D1|]. cbn [g_nodes]. exact Hr.
Qed.

(** ** Too deep *)

Lemma geom_start_full s ty d : home s -> g_level s = 31 -> (1 <= ty <= 7)%N ->
  exists s', g_geom_start s ty (dimN d) = VRet s' EINVAL.
Proof.
  intros Hs Hl Hty. unfold g_geom_start. rewrite Hl. unfold MAX_NESTING. change (31 =? 31) with true. cbv iota.
  destruct (is_sequence ty); [|eauto]. rewrite num_dimensions_dimN. cbn [or_ub obind].
  destruct (reserve_ok s (Z.of_nat (ndim d)) Hs) as (s1 & -> & _). cbn [obind]. eauto.
Qed.

Definition overflows (g : geom) : Prop := forall e, geom_events g e -> forall s, home s -> 0 <= g_level s <= 31 ->
  31 < g_level s + Z.of_nat (nesting g) -> exists s', feed geom_step s e = Some (s', EINVAL).

Lemma feed_fail {S} (v : visitor S) s s1 e b c : v s e = VRet s1 c -> c <> 0 -> feed v s (e :: b) = Some (s1, c).
Proof. intros H Hc. cbn [feed]. rewrite H. destruct (Z.eqb_spec c 0); [contradiction|reflexivity]. Qed.

Lemma parts_overflow gs : Forall overflows gs -> forall e, parts_events gs e -> forall s, home s -> 0 <= g_level s <= 31 ->
  31 < g_level s + Z.of_nat (nestings gs) -> exists s', feed geom_step s e = Some (s', EINVAL).
Proof.
  induction 1 as [|g gs Hg _ IH]; intros e He s Hs Hl Hnest; inversion He; subst.
  - cbn in Hnest. lia.
  - rewrite nestings_cons in Hnest.
    destruct (Z_lt_le_dec 31 (g_level s + Z.of_nat (nesting g))) as [Hd|Hd].
    + destruct (Hg e1 ltac:(assumption) s Hs Hl Hd) as (s1 & E1). exists s1.
      apply feed_app_fail; [exact E1|discriminate].
    + destruct (geom_feed g e1 ltac:(assumption) s Hs ltac:(lia) Hd) as (s1 & E1 & G1).
      pose proof (gr_level _ _ _ _ _ G1) as L1.
      destruct (IH e2 ltac:(assumption) s1 (gr_home _ _ _ _ _ G1) ltac:(lia) ltac:(lia)) as (s2 & E2).
      exists s2. rewrite (feed_app_ok _ _ s1) by exact E1. exact E2.
Qed.

Lemma geom_overflow g : overflows g.
Proof.
  induction g as [d cs|d cs|d rings|k d parts IH] using geom_ind'; intros e He s Hs Hl Hnest; inversion He; subst; cbn [app].
  - cbn [nesting] in Hnest. destruct (geom_start_full s 1 d Hs ltac:(lia) ltac:(lia)) as (s' & E).
    exists s'. apply feed_fail; [exact E|discriminate].
  - cbn [nesting] in Hnest. destruct (geom_start_full s 2 d Hs ltac:(lia) ltac:(lia)) as (s' & E).
    exists s'. apply feed_fail; [exact E|discriminate].
  - destruct (Z.eq_dec (g_level s) 31) as [E31|E31].
    + destruct (geom_start_full s 3 d Hs E31 ltac:(lia)) as (s' & E). exists s'. apply feed_fail; [exact E|discriminate].
    + destruct rings as [|cs rings]; [cbn [nesting] in Hnest; lia|]. cbn [nesting] in Hnest.
      destruct (geom_start_inner s 3 d 0 Hs ltac:(lia) ltac:(lia)) as (s1 & E1 & G1).
      rewrite (feed_cons_ok _ _ s1) by exact E1. pose proof (gr_level _ _ _ _ _ G1) as L1.
      match goal with H : ring_events _ _ _ |- _ => inversion H; subst end. cbn [app].
      assert (geom_step s1 ERingStart = g_geom_start s1 2 (dimN d)) as Est.
      { cbn [geom_step]. unfold g_ring_start. rewrite (gr_nodes _ _ _ _ _ G1), rev_unit. reflexivity. }
      destruct (geom_start_full s1 2 d (gr_home _ _ _ _ _ G1) ltac:(lia) ltac:(lia)) as (s' & E).
      exists s'. apply feed_fail; [rewrite Est; exact E|discriminate].
  - rewrite nesting_coll in Hnest. pose proof (coll_code_37 k). destruct (Z.eq_dec (g_level s) 31) as [E31|E31].
    + destruct (geom_start_full s (coll_code k) d Hs E31 ltac:(lia)) as (s' & E). exists s'. apply feed_fail; [exact E|discriminate].
    + destruct (geom_start_inner s (coll_code k) d 0 Hs ltac:(lia) ltac:(lia)) as (s1 & E1 & G1).
      rewrite (feed_cons_ok _ _ s1) by exact E1. pose proof (gr_level _ _ _ _ _ G1) as L1.
      match goal with H : parts_events _ _ |- _ => rename H into Hp end.
      destruct (parts_overflow parts IH _ Hp s1 (gr_home _ _ _ _ _ G1) ltac:(lia) ltac:(lia)) as (s2 & E2).
      exists s2. apply feed_app_fail; [exact E2|discriminate].
Qed.

Theorem build_too_deep g e s : geom_events g e -> (31 < nesting g)%nat -> (1 <= g_blk s)%nat ->
  exists s', feed geom_step s ([EFeatStart] ++ e ++ [EFeatEnd]) = Some (s', EINVAL).
Proof.
  intros He Hn Hb. cbn [app].
  remember {| g_nodes := []; g_coords := {| b_data := []; b_cap := b_cap (g_coords s) |}; g_blk := g_blk s; g_level := 0 |} as s0 eqn:Es0.
  assert (geom_step s EFeatStart = VRet s0 0) as E0 by (subst s0; reflexivity).
  assert (home s0) as H0 by (subst s0; split; [exact Hb|constructor]).
  assert (g_level s0 = 0) as L0 by (subst s0; reflexivity).
  destruct (geom_overflow g e He s0 H0 ltac:(lia) ltac:(lia)) as (s1 & E1).
  exists s1. rewrite (feed_cons_ok _ _ _ _ _ E0). apply feed_app_fail; [exact E1|discriminate].
Qed.
