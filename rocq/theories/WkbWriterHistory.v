From Verif Require Import Base BaseFacts TypesModel GeomSpec GeomFacts WkbSpec NodesModel NodesSpec VisitorModel VisitorSpec
  VisitorFacts GeomVisitModel GeomVisitProofs BufferModel BufferFacts ArraySpec WkbWriterModel WkbWriterProofs WkbWriterSpec.
Local Open Scope Z_scope.

Lemma feed_app_fail {S} (v : visitor S) s s1 c a b : feed v s a = Some (s1, c) -> c <> 0 -> feed v s (a ++ b) = Some (s1, c).
Proof.
  revert s; induction a as [|e a IH]; intros s H Hc; cbn [feed app] in *; [congruence|].
  destruct (v s e) as [s' c'|]; [|discriminate]. destruct (c' =? 0); [apply IH; assumption|assumption].
Qed.

(** ** Events below the deepest level are refused *)

Definition inner (e : event) : Prop :=
  match e with EGeomStart _ _ | ERingStart | ECoords _ _ | ERingEnd | EGeomEnd => True | _ => False end.

Lemma refuse_level s e r : w_level s = 31 -> inner e -> feed wkb_step s (e :: r) = Some (s, EINVAL).
Proof.
  intros Hl Hi. assert (wkb_check_level s = false) as Hc by (unfold wkb_check_level; rewrite Hl; reflexivity).
  destruct e; try contradiction; cbn [feed wkb_step];
    unfold geom_start_wkb, ring_start_wkb, coords_wkb, ring_end_wkb, geom_end_wkb; rewrite Hc; reflexivity.
Qed.

Lemma seq_head d cs evs z : seq_events d cs evs -> inner z -> exists e r, evs ++ [z] = e :: r /\ inner e.
Proof. intros H Hz. destruct H; cbn [app]; eexists; eexists; (split; [reflexivity|]); [exact Hz|exact I]. Qed.
Lemma ring_head d cs evs z : ring_events d cs evs -> inner z -> exists e r, evs ++ [z] = e :: r /\ inner e.
Proof. intros H Hz. destruct H; cbn [app]; eexists; eexists; (split; [reflexivity|]); [exact Hz|exact I]. Qed.
Lemma geom_head g evs : geom_events g evs -> exists t d r, evs = EGeomStart t d :: r.
Proof. intros H. destruct H; cbn [app]; eauto. Qed.
Lemma parts_head gs evs z : parts_events gs evs -> inner z -> exists e r, evs ++ [z] = e :: r /\ inner e.
Proof.
  intros H Hz. destruct H as [|g gs e1 e2 H1 H2]; cbn [app]; [eexists; eexists; (split; [reflexivity|]); exact Hz|].
  destruct (geom_head g e1 H1) as (t & d & r & ->). cbn [app]. eexists; eexists; (split; [reflexivity|]). exact I.
Qed.
Lemma geom_body g evs : geom_events g evs -> exists t d e r, evs = EGeomStart t d :: e :: r /\ inner e.
Proof.
  intros H. destruct H as [d cs e H|d cs e H|d rings e H|k d parts e H]; cbn [app].
  - destruct (seq_head d cs e EGeomEnd H I) as (h & r & -> & Hh). eauto 10.
  - destruct (seq_head d cs e EGeomEnd H I) as (h & r & -> & Hh). eauto 10.
  - destruct (ring_head d rings e EGeomEnd H I) as (h & r & -> & Hh). eauto 10.
  - destruct (parts_head parts e EGeomEnd H I) as (h & r & -> & Hh). eauto 10.
Qed.

Definition refuses (L : Z) (evs : list event) : Prop :=
  forall s x, w_level s = L -> aget (w_size s) L = Some x -> (x < 2 ^ 32)%N -> buf_ok (w_values s) ->
  exists s', feed wkb_step s evs = Some (s', EINVAL).

Lemma refuses_app L e1 e2 : refuses L e1 -> refuses L (e1 ++ e2).
Proof.
  intros H s x Hl Hx Hlt Hok. destruct (H s x Hl Hx Hlt Hok) as [s' Hs']. exists s'.
  apply feed_app_fail; [exact Hs'|discriminate].
Qed.

Lemma delivers_refuses L e1 e2 b n : delivers L e1 b n -> refuses L e2 -> refuses L (e1 ++ e2).
Proof.
  intros H1 H2 s x Hl Hx Hlt Hok. destruct (H1 s x Hl Hx Hlt Hok) as (s1 & F1 & Fr & D & X & O).
  rewrite (feed_app_ok _ _ _ _ _ F1). eapply H2; eauto; [|apply wrap32_lt]. rewrite (fr_level _ _ Fr). exact Hl.
Qed.

Lemma refuses_inside L t d evs : 0 <= L <= 30 -> refuses (L + 1) evs ->
  refuses L ([EGeomStart t d] ++ evs ++ [EGeomEnd]).
Proof.
  intros HL H s x Hl Hx Hlt Hok.
  destruct (geom_start_ok s L x t d Hl HL Hx) as (s1 & E1 & O & _). cbn [app].
  rewrite (feed_cons_ok _ _ _ _ _ E1).
  destruct (H s1 0%N (op_level _ _ _ _ _ O) (op_zero _ _ _ _ _ O) ltac:(lia) (op_ok _ _ _ _ _ O)) as [s2 E2].
  exists s2. apply feed_app_fail; [exact E2|discriminate].
Qed.

Lemma refuses_geom g : wf_geom g -> forall L evs, 0 <= L <= 30 -> 30 < L + Z.of_nat (nesting g) -> geom_events g evs ->
  refuses L evs.
Proof.
  induction g as [d cs|d cs|d rings|k d parts IH] using geom_ind'; intros Hwf L evs HL Hn He.
  1-4: destruct (Z.eq_dec L 30) as [->|HL30];
    [destruct (geom_body _ _ He) as (t & dd & e & r & -> & Hi); intros s x Hl Hx Hlt Hok;
     destruct (geom_start_ok s 30 x t dd Hl ltac:(lia) Hx) as (s1 & E1 & O & _);
     rewrite (feed_cons_ok _ _ _ _ _ E1); exists s1; apply refuse_level; [apply O|exact Hi]|].
  - cbn [nesting] in Hn. lia.
  - cbn [nesting] in Hn. lia.
  - inversion He as [| |? ? e Hr|]; subst. destruct rings as [|c rings]; cbn [nesting] in Hn; [lia|].
    assert (L = 29) as -> by lia. apply refuses_inside; [lia|].
    inversion Hr as [|? ? e1 e2 H1 H2]; subst. intros s x Hl Hx Hlt Hok.
    destruct (ring_start_ok s 30 x Hl ltac:(lia) Hx) as (s1 & E1 & O & _).
    rewrite (feed_cons_ok _ _ _ _ _ E1). exists s1.
    destruct (seq_head d c e1 ERingEnd H1 I) as (h & r & E & Hh).
    rewrite app_assoc, E. apply refuse_level; [apply O|exact Hh].
  - inversion He as [| | |? ? ? e Hp]; subst. inversion Hwf as [| | |? ? ? Hw]; subst. apply wf_geoms_Forall in Hw.
    rewrite nesting_coll in Hn. apply refuses_inside; [lia|].
    assert (30 < L + 1 + Z.of_nat (nestings parts)) as Hns by lia. clear Hn He Hwf.
    revert Hw Hns e Hp. induction IH as [|g gs Hg Hgs IHgs]; intros Hw Hns e Hp; [cbn in Hns; lia|].
    inversion Hp; subst. inversion Hw; subst. rewrite nestings_cons in Hns.
    destruct (Z_lt_le_dec 30 (L + 1 + Z.of_nat (nesting g))) as [Hd|Hd].
    + apply refuses_app. apply Hg; [assumption|lia|lia|assumption].
    + eapply delivers_refuses; [apply (delivers_geom g); [assumption|lia|lia|eassumption]|].
      apply IHgs; [assumption|lia|assumption].
Qed.

(** ** One feature *)

Definition bytes_of (e : option bytes) : bytes := match e with Some b => b | None => [] end.
Definition valid_of (e : option bytes) : bool := match e with Some _ => true | None => false end.

(** [added s s' e]: the writer has gained the element [e]. *)
Record added (s s' : wst) (e : option bytes) : Prop := {
  ad_data : data s' = data s ++ bytes_of e;
  ad_offsets : w_offsets s' = w_offsets s ++ [to_int32 (b_size (w_values s))];
  ad_length : w_length s' = w_length s + 1;
  ad_nulls : w_nulls s' = w_nulls s + if valid_of e then 0 else 1;
  ad_validity : w_validity s' =
    if valid_of e then option_map (fun bits => bits ++ [true]) (w_validity s)
    else Some (match w_validity s with Some bits => bits | None => repeat true (Z.to_nat (w_length s)) end ++ [false]);
  ad_ok : buf_ok (w_values s) -> buf_ok (w_values s')
}.

Lemma feat_start_ok s : b_size (w_values s) <= 2147483647 ->
  exists s', wkb_step s EFeatStart = VRet s' 0 /\ w_level s' = 0 /\ aget (w_size s') 0 = Some 0%N /\
    w_values s' = w_values s /\ w_validity s' = w_validity s /\ w_nulls s' = w_nulls s /\
    w_offsets s' = w_offsets s ++ [to_int32 (b_size (w_values s))] /\ w_length s' = w_length s + 1 /\
    w_is_null s' = Some false.
Proof.
  intros H. cbn [wkb_step]. unfold feat_start_wkb.
  destruct (aset_spec (w_size s) 0 0%N) as (a & -> & Ha); [lia|]. cbn [vor_ub].
  cbn [set_is_null set_book set_size set_level w_values w_offsets].
  destruct (Z.ltb_spec 2147483647 (b_size (w_values s))); [lia|].
  eexists. split; [reflexivity|]. cbn. rewrite Ha. auto 10.
Qed.

Lemma visit_feature_ok s f evs : feature_events f evs -> (forall g, f = Some g -> wf_geom g /\ (nesting g <= 30)%nat) ->
  b_size (w_values s) <= 2147483647 -> buf_ok (w_values s) ->
  exists s', feed wkb_step s evs = Some (s', 0) /\ added s s' (feature_wkb f).
Proof.
  intros He Hf Hsz Hok. destruct (feat_start_ok s Hsz) as (s1 & E1 & L1 & X1 & V1 & B1 & N1 & O1 & Len1 & I1).
  inversion He as [|g e Hg]; subst.
  - rewrite (feed_cons_ok _ _ _ _ _ E1). cbn [feed wkb_step null_feat_wkb]. change (0 =? 0) with true. cbv iota.
    unfold feat_end_wkb. cbn [set_is_null w_is_null vor_ub]. change (0 =? 0) with true. cbv iota.
    eexists. split; [reflexivity|].
    split; unfold push_null, data; cbn; try congruence.
    + rewrite V1, app_nil_r. reflexivity.
    + rewrite B1, Len1. replace (w_length s + 1 - 1) with (w_length s) by lia. reflexivity.
  - destruct (Hf g eq_refl) as [Hwf Hn].
    destruct (delivers_geom g Hwf 0 e ltac:(lia) ltac:(lia) Hg s1 0%N L1 X1 ltac:(lia)) as (s2 & E2 & F & D2 & X2 & O2).
    { rewrite V1. exact Hok. }
    cbn [app]. rewrite (feed_cons_ok _ _ _ _ _ E1), (feed_app_ok _ _ _ _ _ E2). cbn [feed wkb_step].
    destruct (fr_book _ _ F) as [Bv Bo Bl Bn Bi].
    unfold feat_end_wkb. rewrite Bi, I1. cbn [vor_ub]. change (0 =? 0) with true. cbv iota.
    eexists. split; [reflexivity|]. unfold data in *. rewrite V1 in D2.
    unfold push_valid. rewrite Bv, B1. destruct (w_validity s) as [bits|] eqn:Ev; (split; cbn;
      [exact D2|congruence|congruence|lia|rewrite Ev; cbn [option_map]; congruence|auto]).
Qed.

Lemma visit_overflow s f evs : feature_events f evs -> 2147483647 < b_size (w_values s) ->
  exists s', feed wkb_step s evs = Some (s', EOVERFLOW).
Proof.
  intros He Hsz.
  assert (forall r, exists s', feed wkb_step s (EFeatStart :: r) = Some (s', EOVERFLOW)) as H.
  { intros r. cbn [feed wkb_step]. unfold feat_start_wkb.
    destruct (aset_spec (w_size s) 0 0%N) as (a & -> & Ha); [lia|]. cbn [vor_ub].
    cbn [set_is_null set_book set_size set_level w_values w_offsets].
    destruct (Z.ltb_spec 2147483647 (b_size (w_values s))); [|lia].
    change (EOVERFLOW =? 0) with false. cbv iota. eauto. }
  destruct He; apply H.
Qed.

Lemma visit_too_deep s g evs : feature_events (Some g) evs -> wf_geom g -> (30 < nesting g)%nat ->
  b_size (w_values s) <= 2147483647 -> buf_ok (w_values s) ->
  exists s', feed wkb_step s evs = Some (s', EINVAL).
Proof.
  intros He Hwf Hn Hsz Hok. destruct (feat_start_ok s Hsz) as (s1 & E1 & L1 & X1 & V1 & B1 & N1 & O1 & Len1 & I1).
  inversion He as [|? e Hg]; subst. cbn [app]. rewrite (feed_cons_ok _ _ _ _ _ E1).
  destruct (refuses_geom g Hwf 0 e ltac:(lia) ltac:(lia) Hg s1 0%N L1 X1 ltac:(lia)) as [s2 E2].
  { rewrite V1. exact Hok. }
  exists s2. apply feed_app_fail; [exact E2|discriminate].
Qed.

(** ** Append *)

Lemma append_sequence_ok m values nd d cs : holds m nd d cs -> wf_seq d cs -> nd_size nd = N.of_nat (length cs) ->
  seq_small d cs -> buf_ok values ->
  exists values', append_sequence 2 m values nd = Ok values' /\ b_data values' = b_data values ++ enc_coords LE cs /\
    buf_ok values'.
Proof.
  intros Hh Hwf Hsz Hsmall Hok. unfold seq_small in Hsmall.
  assert (forall cap values', b_data values' = b_data values -> b_cap values' = cap -> buf_ok values' ->
    Z.of_nat (ndim d * length cs * 8) <= cap - b_size values' -> forall f, exists v,
    append_sequence (S f) m values' nd = Ok v /\ b_data v = b_data values ++ enc_coords LE cs /\ buf_ok v) as Hfit.
  { intros cap v Hd Hc Hv Hroom f. cbn [append_sequence]. rewrite Hc.
    rewrite (write_sequence_ok m nd d cs) by assumption. cbn [obind].
    destruct (Z.leb_spec (Z.of_nat (ndim d * length cs * 8)) (cap - b_size v)); [|lia]. cbn [or_ub obind].
    assert (length (flat_map (le_bytes 8) (concat cs)) = (ndim d * length cs * 8)%nat) as Hlen.
    { rewrite flat_map_concat_map, (concat_length_const 8).
      - rewrite map_length, (concat_len d) by exact Hwf. lia.
      - rewrite Forall_map. apply Forall_forall. intros w _. apply le_bytes_length. }
    rewrite firstn_all2 by lia.
    eexists. split; [reflexivity|]. split.
    - cbn [b_data]. rewrite Hd. f_equal. unfold enc_coords, enc_coord, enc64.
      clear. induction cs as [|c cs IH]; cbn [concat flat_map]; [reflexivity|]. rewrite flat_map_app, IH. reflexivity.
    - unfold buf_ok, b_size in *. cbn [b_data b_cap]. rewrite app_length, Hlen. lia. }
  destruct (Z_le_gt_dec (Z.of_nat (ndim d * length cs * 8)) (b_cap values - b_size values)) as [Hr|Hr].
  - apply (Hfit (b_cap values) values eq_refl eq_refl Hok Hr 1%nat).
  - cbn [append_sequence].
    assert (write_sequence m nd (b_cap values - b_size values) = Ok (Z.of_nat (ndim d * length cs * 8), None)) as ->.
    { destruct Hh as [Hd Ho]. unfold write_sequence. rewrite Hd, num_dimensions_dimN. cbn [or_ub obind].
      rewrite Z.mod_small by (pose proof (ndim_bounds d); lia).
      replace (Z.to_N (Z.of_nat (ndim d))) with (N.of_nat (ndim d)) by lia. rewrite Hsz.
      replace (N.of_nat (ndim d) * N.of_nat (length cs))%N with (N.of_nat (ndim d * length cs)) by lia.
      rewrite wrap32_id by exact Hsmall.
      replace (Z.of_N (N.of_nat (ndim d * length cs) * 8)) with (Z.of_nat (ndim d * length cs * 8)) by lia.
      destruct (Z.ltb_spec (b_cap values - b_size values) (Z.of_nat (ndim d * length cs * 8))); [reflexivity|lia]. }
    cbn [obind]. destruct (Z.leb_spec (Z.of_nat (ndim d * length cs * 8)) (b_cap values - b_size values)); [lia|].
    pose proof (buf_reserve_room values (Z.of_nat (ndim d * length cs * 8))) as Hroom.
    refine (Hfit _ (buf_reserve values (Z.of_nat (ndim d * length cs * 8))) (buf_reserve_data _ _) eq_refl _ _ 0%nat);
      [unfold buf_ok|]; lia.
Qed.

(** [appends m nodes bs]: the node list appends [bs] and goes on with what follows it. *)
Definition appends (m : mem) (nodes : list node) (bs : bytes) : Prop :=
  forall rest values, buf_ok values -> exists values', b_data values' = b_data values ++ bs /\ buf_ok values' /\
    append_buffer m (nodes ++ rest) 0 values = append_buffer m rest 0 values'.

Lemma type_code_dim nd t d : nd_type nd = t -> nd_dims nd = dimN d -> (t < 1000)%N ->
  [1%N] ++ le_bytes 4 (type_code (nd_type nd) (nd_dims nd)) = iso_header d t.
Proof. intros -> -> H. rewrite type_code_iso by exact H. reflexivity. Qed.

Lemma append_rings m d lvl rings ring_nodes : Forall2 (fun cs rn => seq_node m 2 lvl d cs rn) rings ring_nodes ->
  Forall (wf_seq d) rings -> Forall (seq_small d) rings ->
  forall rest values, buf_ok values -> exists values', b_data values' = b_data values ++ flat_map (enc_ring LE) rings /\
    buf_ok values' /\
    append_buffer m (ring_nodes ++ rest) (N.of_nat (length rings)) values = append_buffer m rest 0 values'.
Proof.
  induction 1 as [|cs rn rings rns Hrn Hrns IH]; intros Hwf Hsm rest values Hok.
  - exists values. split; [rewrite app_nil_r; reflexivity|]. split; [exact Hok|]. reflexivity.
  - inversion Hwf; inversion Hsm; subst. cbn [app append_buffer length].
    destruct (N.ltb_spec 0 (N.of_nat (S (length rings)))); [|lia].
    destruct (append_sequence_ok m (buf_append values (le_bytes 4 (nd_size rn))) rn d cs) as (v1 & -> & D1 & O1);
      [eapply seq_node_holds; exact Hrn|assumption|apply Hrn|assumption|apply buf_append_ok|].
    destruct (IH ltac:(assumption) ltac:(assumption) rest v1 O1) as (v2 & D2 & O2 & E2).
    exists v2. split; [|split; [exact O2|]].
    + rewrite D2, D1, buf_append_data, (sn_size _ _ _ _ _ _ Hrn). cbn [flat_map]. unfold enc_ring at 2. unfold enc32.
      rewrite <- !app_assoc. reflexivity.
    + replace (N.of_nat (S (length rings)) - 1)%N with (N.of_nat (length rings)) by lia. exact E2.
Qed.

Lemma appends_geom m : forall g, wf_geom g -> small_geom g -> forall lvl nodes, repr_geom m lvl nodes g ->
  appends m nodes (iso_wkb g).
Proof.
  intros g. induction g as [d cs|d cs|d rings|k d parts IH] using geom_ind'; intros Hwf Hsm lvl nodes Hr;
    inversion Hr; inversion Hwf; inversion Hsm; subst; intros tl values Hok.
  - (* point *)
    match goal with H : seq_node _ _ _ _ _ _ |- _ => rename H into Hsn end.
    cbn [app append_buffer]. change (0 <? 0)%N with false. cbv iota.
    rewrite (sn_type _ _ _ _ _ _ Hsn). change (1 =? 1)%N with true. cbv iota. rewrite (sn_size _ _ _ _ _ _ Hsn).
    assert (b_data (buf_append (buf_append values [1%N]) (le_bytes 4 (type_code 1 (nd_dims nd)))) = b_data values ++ iso_header d 1) as Hh.
    { rewrite !buf_append_data, <- app_assoc. f_equal. rewrite (sn_dims _ _ _ _ _ _ Hsn), type_code_iso by lia. reflexivity. }
    destruct cs as [|c [|c2 cs]]; [| |cbn in *; lia].
    + change (N.of_nat (length (@nil coord)) =? 0)%N with true. cbv iota. rewrite (sn_dims _ _ _ _ _ _ Hsn) in *.
      rewrite num_dimensions_dimN. pose proof (ndim_bounds d).
      destruct (Z.leb_spec 0 (Z.of_nat (ndim d))); [|lia]. destruct (Z.leb_spec (Z.of_nat (ndim d)) 4); [|lia]. cbn [andb].
      eexists. split; [|split; [|reflexivity]]; [|apply buf_append_ok].
      rewrite buf_append_data, Hh. cbn [iso_wkb]. rewrite <- app_assoc. do 2 f_equal. destruct d; vm_compute; reflexivity.
    + change (N.of_nat (length [c]) =? 0)%N with false. cbv iota.
      destruct (append_sequence_ok m (buf_append (buf_append values [1%N]) (le_bytes 4 (type_code 1 (nd_dims nd)))) nd d [c])
        as (v1 & -> & D1 & O1);
        [eapply seq_node_holds; exact Hsn|assumption|apply Hsn|assumption|apply buf_append_ok|].
      exists v1. split; [|split; [exact O1|reflexivity]]. rewrite D1, Hh. cbn [iso_wkb]. rewrite <- app_assoc. reflexivity.
  - (* linestring *)
    match goal with H : seq_node _ _ _ _ _ _ |- _ => rename H into Hsn end.
    cbn [app append_buffer]. change (0 <? 0)%N with false. cbv iota.
    rewrite (sn_type _ _ _ _ _ _ Hsn). change (2 =? 1)%N with false. change (2 =? 2)%N with true. cbv iota.
    match goal with |- context [append_sequence 2 m ?v nd] => destruct (append_sequence_ok m v nd d cs) as (v1 & -> & D1 & O1);
        [eapply seq_node_holds; exact Hsn|assumption|apply Hsn|assumption|apply buf_append_ok|] end.
    exists v1. split; [|split; [exact O1|reflexivity]].
    rewrite D1, !buf_append_data, (sn_dims _ _ _ _ _ _ Hsn), (sn_size _ _ _ _ _ _ Hsn), type_code_iso by lia.
    cbn [iso_wkb]. unfold iso_header. rewrite <- !app_assoc. reflexivity.
  - (* polygon *)
    match goal with H : inner_node _ _ _ _ _ |- _ => rename H into Hin end.
    cbn [app append_buffer]. change (0 <? 0)%N with false. cbv iota.
    rewrite (in_type _ _ _ _ _ Hin). change (3 =? 1)%N with false. change (3 =? 2)%N with false. change (3 =? 3)%N with true.
    cbv iota. rewrite (in_size _ _ _ _ _ Hin).
    match goal with |- context [append_buffer m _ (N.of_nat (length rings)) ?v] =>
      destruct (append_rings m d (lvl + 1)%N rings ring_nodes ltac:(assumption) ltac:(assumption) ltac:(assumption) tl v
        (buf_append_ok _ _)) as (v1 & D1 & O1 & E1) end.
    exists v1. split; [|split; [exact O1|exact E1]].
    rewrite D1, !buf_append_data, (in_dims _ _ _ _ _ Hin), type_code_iso by lia.
    cbn [iso_wkb]. unfold iso_header. rewrite <- !app_assoc. reflexivity.
  - (* collection *)
    match goal with H : inner_node _ _ _ _ _ |- _ => rename H into Hin end.
    cbn [app append_buffer]. change (0 <? 0)%N with false. cbv iota.
    rewrite (in_type _ _ _ _ _ Hin). destruct (coll_code_range k) as (C1 & C2 & C3 & C4). rewrite C1, C2, C3, C4. cbv iota.
    rewrite (in_size _ _ _ _ _ Hin).
    assert (appends m rest (flat_map iso_wkb parts)) as Hparts.
    { match goal with H : repr_parts _ _ _ _ |- _ => rename H into Hp end.
      match goal with H : wf_geoms _ |- _ => apply wf_geoms_Forall in H; rename H into Hw end.
      match goal with H : Forall small_geom _ |- _ => rename H into Hs end.
      clear Hin Hr Hwf Hsm. revert rest Hp. induction IH as [|g gs Hg Hgs IHgs]; intros nodes Hp; inversion Hp; subst.
      - intros r v Hv. exists v. rewrite app_nil_r. auto.
      - inversion Hw; inversion Hs; subst. intros r v Hv. cbn [flat_map].
        match goal with H : repr_geom _ _ ?n _ |- _ =>
          destruct (Hg ltac:(assumption) ltac:(assumption) _ _ H (n2 ++ r) v Hv) as (v1 & D1 & O1 & E1) end.
        destruct (IHgs ltac:(assumption) ltac:(assumption) n2 ltac:(assumption) r v1 O1) as (v2 & D2 & O2 & E2).
        exists v2. rewrite <- app_assoc, E1, E2. split; [rewrite D2, D1, app_assoc; reflexivity|]. auto. }
    match goal with |- context [append_buffer m _ 0 ?v] => destruct (Hparts tl v (buf_append_ok _ _)) as (v1 & D1 & O1 & E1) end.
    exists v1. split; [|split; [exact O1|exact E1]].
    rewrite D1, !buf_append_data, (in_dims _ _ _ _ _ Hin), type_code_iso by (destruct k; cbn; lia).
    rewrite iso_wkb_coll. unfold iso_header. rewrite <- !app_assoc. reflexivity.
Qed.

Lemma append_ok m lvl nodes g s : repr_geom m lvl nodes g -> wf_geom g -> small_geom g -> buf_ok (w_values s) ->
  exists s', wkb_append m nodes s = VRet s' 0 /\ added s s' (Some (iso_wkb g)).
Proof.
  intros Hr Hwf Hsm Hok. unfold wkb_append. cbn [set_offsets w_values].
  destruct (appends_geom m g Hwf Hsm lvl nodes Hr [] (w_values s) Hok) as (v & D & O & E).
  rewrite app_nil_r in E. rewrite E. cbn [append_buffer].
  eexists. split; [reflexivity|]. unfold append_validity, push_valid. cbn.
  destruct (w_validity s) as [bits|] eqn:Ev; (split; cbn; try rewrite Ev; auto; lia).
Qed.

Lemma append_null_ok s : exists s', wkb_append_null s = VRet s' 0 /\ added s s' None.
Proof.
  eexists. split; [reflexivity|]. unfold append_validity, push_null. cbn.
  split; unfold data; cbn; auto.
  - rewrite app_nil_r. reflexivity.
  - replace (w_length s + 1 - 1) with (w_length s) by lia. reflexivity.
Qed.

(** ** Histories *)

Lemma run_op_ok s op f s' : writes op f -> buf_ok (w_values s) -> run_op s op = Some (s', 0) -> added s s' (feature_wkb f).
Proof.
  intros Hw Hok Hrun. destruct Hw as [f evs He Hwf|m lvl nodes g Hr Hwf Hsm|]; cbn [run_op] in Hrun.
  - destruct (Z_lt_le_dec 2147483647 (b_size (w_values s))) as [Hbig|Hsz].
    { destruct (visit_overflow s f evs He Hbig) as [s1 E1]. rewrite E1 in Hrun. discriminate. }
    assert (forall g, f = Some g -> (nesting g <= 30)%nat) as Hn.
    { intros g ->. destruct (le_lt_dec (nesting g) 30) as [|Hd]; [assumption|].
      destruct (visit_too_deep s g evs He (Hwf g eq_refl) Hd Hsz Hok) as [s1 E1]. rewrite E1 in Hrun. discriminate. }
    destruct (visit_feature_ok s f evs He (fun g Eg => conj (Hwf g Eg) (Hn g Eg)) Hsz Hok) as (s1 & E1 & A).
    rewrite E1 in Hrun. injection Hrun as <-. exact A.
  - destruct (append_ok m lvl nodes g s Hr Hwf Hsm Hok) as (s1 & E1 & A). rewrite E1 in Hrun. injection Hrun as <-. exact A.
  - destruct (append_null_ok s) as (s1 & E1 & A). rewrite E1 in Hrun. injection Hrun as <-. exact A.
Qed.

(** Running sums of the element sizes. *)
Fixpoint starts (o : Z) (els : list (option bytes)) : list Z :=
  match els with
  | [] => []
  | e :: r => o :: starts (o + Z.of_nat (length (bytes_of e))) r
  end.
Definition total (els : list (option bytes)) : Z := Z.of_nat (length (concat (map bytes_of els))).

Lemma starts_app o a b : starts o (a ++ b) = starts o a ++ starts (o + total a) b.
Proof.
  revert o; induction a as [|e a IH]; intros o; cbn [app starts].
  - unfold total. cbn. rewrite Z.add_0_r. reflexivity.
  - rewrite IH. cbn [app]. do 2 f_equal. unfold total. cbn [map concat]. rewrite app_length. f_equal. lia.
Qed.

Record whistory (s : wst) (els : list (option bytes)) : Prop := {
  wh_data : data s = concat (map bytes_of els);
  wh_offsets : w_offsets s = map to_int32 (starts 0 els);
  wh_length : w_length s = Z.of_nat (length els);
  wh_nulls : w_nulls s = count_nulls els;
  wh_validity : w_validity s = if forallb valid_of els then None else Some (map valid_of els);
  wh_ok : buf_ok (w_values s)
}.

Lemma count_nulls_app {A} (a b : list (option A)) : count_nulls (a ++ b) = count_nulls a + count_nulls b.
Proof. unfold count_nulls. rewrite filter_app, app_length. lia. Qed.

Lemma all_valid_map els : forallb valid_of els = true -> map valid_of els = repeat true (length els).
Proof.
  induction els as [|e els IH]; cbn; [reflexivity|]. intros H. apply andb_true_iff in H as [He H]. rewrite He, IH by exact H. reflexivity.
Qed.

Lemma whistory_added s s' els e : whistory s els -> added s s' e -> whistory s' (els ++ [e]).
Proof.
  intros [D O Len N V K] [Da Oa La Na Va Ka]. split.
  - rewrite Da, D, map_app, concat_app. cbn [map concat]. rewrite app_nil_r. reflexivity.
  - rewrite Oa, O, starts_app, map_app. cbn [starts map]. do 3 f_equal. unfold b_size. fold (data s). rewrite D. reflexivity.
  - rewrite La, Len, app_length. cbn [length]. lia.
  - rewrite Na, N, count_nulls_app. destruct e; reflexivity.
  - rewrite Va, V, forallb_app, map_app. cbn [forallb map]. destruct e as [b|]; cbn [valid_of].
    + rewrite !andb_true_r. destruct (forallb valid_of els); reflexivity.
    + rewrite andb_false_r. cbn [andb]. destruct (forallb valid_of els) eqn:E.
      * rewrite Len, Nat2Z.id, (all_valid_map els E). reflexivity.
      * reflexivity.
  - apply Ka. exact K.
Qed.

Lemma whistory_clean s : clean s -> whistory s [].
Proof.
  intros [V O B L N]. split; cbn; auto.
  - unfold data. rewrite B. reflexivity.
  - rewrite B. unfold buf_ok, b_size. cbn. lia.
Qed.

Lemma run_ops_ok ops : forall fs s s' els, Forall2 writes ops fs -> whistory s els -> run_ops s ops = Some (s', 0) ->
  whistory s' (els ++ map feature_wkb fs).
Proof.
  induction ops as [|op ops IH]; intros fs s s' els Hw Hs Hrun; inversion Hw as [|? f ? fs' H1 H2]; subst; cbn [run_ops map] in *.
  - injection Hrun as <-. rewrite app_nil_r. exact Hs.
  - destruct (run_op s op) as [[s1 c]|] eqn:E; [|discriminate].
    destruct (Z.eqb_spec c 0) as [->|]; [|congruence].
    pose proof (run_op_ok s op f s1 H1 (wh_ok _ _ Hs) E) as A.
    specialize (IH fs' s1 s' (els ++ [feature_wkb f]) H2 (whistory_added _ _ _ _ Hs A) Hrun).
    rewrite <- app_assoc in IH. exact IH.
Qed.

Lemma starts_length o els : length (starts o els) = length els.
Proof. revert o; induction els as [|e els IH]; intros o; cbn; [reflexivity|]. rewrite IH. reflexivity. Qed.

Lemma starts_nth els i e : nth_error els i = Some e -> nth_error (starts 0 els) i = Some (total (firstn i els)).
Proof.
  assert (forall o, nth_error els i = Some e -> nth_error (starts o els) i = Some (o + total (firstn i els))) as H.
  { revert i; induction els as [|x els IH]; intros [|i] o Hi; cbn in Hi |- *; try discriminate.
    - unfold total. cbn. rewrite Z.add_0_r. reflexivity.
    - rewrite IH by exact Hi. f_equal. unfold total. cbn [map concat]. rewrite app_length. lia. }
  intros Hi. rewrite (H 0 Hi). reflexivity.
Qed.

Lemma total_app a b : total (a ++ b) = total a + total b.
Proof. unfold total. rewrite map_app, concat_app, app_length. lia. Qed.

(** The entries of a finished offsets buffer. *)
Lemma offsets_nth els i : (i <= length els)%nat -> nth_error (starts 0 els ++ [total els]) i = Some (total (firstn i els)).
Proof.
  intros Hi. destruct (nth_error els i) as [e|] eqn:E.
  - rewrite nth_error_app1 by (rewrite starts_length; apply nth_error_Some; congruence). apply (starts_nth _ _ _ E).
  - apply nth_error_None in E. assert (i = length els) as -> by lia. rewrite nth_error_app2; rewrite starts_length; [|lia].
    rewrite Nat.sub_diag, firstn_all. reflexivity.
Qed.

Lemma total_firstn els i : 0 <= total (firstn i els) <= total els.
Proof. split; [unfold total; lia|]. rewrite <- (firstn_skipn i els) at 2. rewrite total_app. unfold total at 3. lia. Qed.

Lemma starts_bound els : Forall (fun o => 0 <= o <= total els) (starts 0 els).
Proof.
  apply Forall_forall. intros o Ho. apply In_nth_error in Ho as [i Hi].
  assert (i < length els)%nat by (rewrite <- (starts_length 0); apply nth_error_Some; congruence).
  destruct (nth_error els i) as [e|] eqn:E; [|apply nth_error_None in E; lia].
  rewrite (starts_nth _ _ _ E) in Hi. injection Hi as <-. apply total_firstn.
Qed.

Lemma firstn_S_nth {A} (l : list A) i x : nth_error l i = Some x -> firstn (S i) l = firstn i l ++ [x].
Proof.
  revert i; induction l as [|y l IH]; intros [|i] H; cbn in H; try discriminate.
  - injection H as ->. reflexivity.
  - cbn [firstn app]. f_equal. apply IH. exact H.
Qed.

Lemma array_element els i e len nulls v : nth_error els i = Some e ->
  element {| ba_length := len; ba_null_count := nulls; ba_validity := v; ba_offsets := starts 0 els ++ [total els];
             ba_data := concat (map bytes_of els) |} i = Some (bytes_of e).
Proof.
  intros Hi. unfold element. cbn [ba_offsets ba_data].
  assert (i < length els)%nat by (apply nth_error_Some; congruence).
  rewrite !offsets_nth by lia.
  assert (total (firstn (S i) els) = total (firstn i els) + Z.of_nat (length (bytes_of e))) as HS.
  { rewrite (firstn_S_nth _ _ _ Hi), total_app. unfold total at 2. cbn [map concat]. rewrite app_nil_r. reflexivity. }
  rewrite HS. destruct (Z.leb_spec (total (firstn i els)) (total (firstn i els) + Z.of_nat (length (bytes_of e)))); [|lia].
  replace (Z.to_nat (total (firstn i els) + Z.of_nat (length (bytes_of e)) - total (firstn i els))) with (length (bytes_of e)) by lia.
  assert (concat (map bytes_of els) =
          concat (map bytes_of (firstn i els)) ++ bytes_of e ++ concat (map bytes_of (skipn (S i) els))) as ->.
  { rewrite <- (firstn_skipn (S i) els) at 1. rewrite (firstn_S_nth _ _ _ Hi), !map_app, !concat_app. cbn [map concat].
    rewrite app_nil_r, <- app_assoc. reflexivity. }
  unfold total. apply slice_app_at. reflexivity.
Qed.

Lemma no_nulls els : forallb valid_of els = true -> count_nulls els = 0.
Proof.
  unfold count_nulls. induction els as [|[b|] els IH]; cbn; try discriminate; [reflexivity|]. exact IH.
Qed.

Lemma finish_ok s els : whistory s els -> total els <= 2147483647 ->
  exists s' a, wkb_finish s = (s', 0, Some a) /\ array_holds a els /\ clean s'.
Proof.
  intros [D O Len N V K] Ht. unfold wkb_finish.
  assert (b_size (w_values s) = total els) as Hsz by (unfold b_size; fold (data s); rewrite D; reflexivity).
  rewrite Hsz. destruct (Z.ltb_spec 2147483647 (total els)); [lia|].
  assert (0 <= total els) by (unfold total; lia).
  assert (map to_int32 (starts 0 els) = starts 0 els) as Hid.
  { pose proof (starts_bound els) as Hb. clear O. induction Hb as [|o l Ho Hl IH]; cbn; [reflexivity|].
    rewrite to_int32_small by lia. f_equal. exact IH. }
  rewrite O, Hid, to_int32_small by lia.
  set (a := {| ba_length := w_length s; ba_null_count := w_nulls s; ba_validity := w_validity s;
               ba_offsets := starts 0 els ++ [total els]; ba_data := b_data (w_values s) |}).
  assert (validate_binary a = true) as Hval.
  { unfold validate_binary, a. cbn [ba_length ba_null_count ba_validity ba_offsets ba_data]. rewrite V, Len, N.
    rewrite !andb_true_iff. split; [split; [split|]|].
    - lia.
    - destruct (forallb valid_of els) eqn:E.
      + rewrite (no_nulls els E). reflexivity.
      + rewrite map_length. rewrite Z.leb_refl. apply orb_true_r.
    - rewrite app_length, starts_length. cbn [length]. destruct (Z.eqb_spec (Z.of_nat (length els)) 0); lia.
    - assert (nth_error (starts 0 els ++ [total els]) 0 = Some 0) as Hz0 by (rewrite offsets_nth by lia; reflexivity).
      assert (nth_error (starts 0 els ++ [total els]) (Z.to_nat (Z.of_nat (length els))) = Some (total els)) as Hl.
      { rewrite Nat2Z.id, offsets_nth by lia. rewrite firstn_all. reflexivity. }
      destruct (starts 0 els ++ [total els]) as [|o r]; [reflexivity|].
      cbn [nth_error] in Hz0. injection Hz0 as ->. rewrite Hl. cbn [andb].
      change (Z.of_nat (length (b_data (w_values s)))) with (b_size (w_values s)). rewrite Hsz. lia. }
  rewrite Hval. eexists; exists a. split; [reflexivity|]. split.
  - split; unfold a; cbn [ba_length ba_null_count ba_validity ba_offsets ba_data].
    + exact Len.
    + exact N.
    + rewrite offsets_nth by lia. reflexivity.
    + rewrite app_length, starts_length. cbn [length]. lia.
    + apply Forall_app. split; [|constructor; [lia|constructor]].
      eapply Forall_impl; [|apply starts_bound]. cbv beta. lia.
    + intros bits Hb. rewrite V in Hb. destruct (forallb valid_of els); [discriminate|]. injection Hb as <-. apply map_length.
    + intros i e Hi. split.
      * change (b_data (w_values s)) with (data s). rewrite D. apply array_element. exact Hi.
      * unfold is_valid. cbn [ba_validity]. rewrite V. destruct (forallb valid_of els) eqn:E.
        -- rewrite forallb_forall in E. specialize (E e (nth_error_In _ _ Hi)). destruct e; [reflexivity|discriminate].
        -- rewrite nth_error_map, Hi. destruct e; reflexivity.
  - split; reflexivity.
Qed.

Lemma finish_overflow s els : whistory s els -> 2147483647 < total els -> wkb_finish s = (s, EOVERFLOW, None).
Proof.
  intros [D O Len N V K] Ht. unfold wkb_finish.
  assert (b_size (w_values s) = total els) as -> by (unfold b_size; fold (data s); rewrite D; reflexivity).
  destruct (Z.ltb_spec 2147483647 (total els)); [reflexivity|lia].
Qed.

Lemma total_size_eq fs : total_size fs = total (map feature_wkb fs).
Proof. unfold total_size, total. rewrite map_map. reflexivity. Qed.

Lemma wkb_history ops fs s s' : clean s -> Forall2 writes ops fs -> run_ops s ops = Some (s', 0) ->
  (total_size fs < 2 ^ 31 -> exists s'' a, wkb_finish s' = (s'', 0, Some a) /\ array_holds a (map feature_wkb fs) /\ clean s'') /\
  (2 ^ 31 <= total_size fs -> wkb_finish s' = (s', EOVERFLOW, None)).
Proof.
  intros Hc Hw Hrun. pose proof (run_ops_ok ops fs s s' [] Hw (whistory_clean s Hc) Hrun) as Hs. cbn [app] in Hs.
  rewrite total_size_eq. split; intros Ht.
  - apply finish_ok; [exact Hs|lia].
  - eapply finish_overflow; [exact Hs|lia].
Qed.
