From Verif Require Import Base BaseFacts Text GeomSpec GeomFacts VisitorModel VisitorSpec VisitorFacts BufferModel BufferFacts
  ArraySpec WkbWriterModel WkbWriterProofs WkbWriterSpec WkbWriterHistory WktSpec WktWriterModel WktWriterProofs WktWriterSpec.
Local Open Scope Z_scope.

Section Writer.
Variable print_double : N -> Z -> bytes.
Hypothesis print_short : forall w p, 0 <= p <= 16 -> (length (print_double w p) <= 40)%nat.
Variable cfg : kcfg.
Hypothesis precision_ok : 0 <= kc_precision cfg <= 16.

Notation print := (fun w => print_double w (kc_precision cfg)).
Notation step := (wkt_step print_double cfg).
Notation inside := (inside cfg).
Notation goes := (goes print_double cfg).
Notation emits := (emits print_double cfg).
Notation par_in := (par_in cfg).

(** ** Geometries nested too deeply are refused *)

Definition refused (s : kst) (evs : list event) : Prop :=
  exists s' c, feed step s evs = Some (s', c) /\ (c = EINVAL \/ (c = EAGAIN /\ 0 <= kc_max cfg)).

Lemma refused_app s e1 e2 : refused s e1 -> refused s (e1 ++ e2).
Proof.
  intros (s' & c & F & Hc). exists s', c. split; [|exact Hc]. apply feed_app_fail; [exact F|].
  destruct Hc as [->|[-> _]]; discriminate.
Qed.

Lemma goes_refused s e1 t P e2 : goes s e1 t P -> (forall s1, P s1 -> ready s1 -> refused s1 e2) -> refused s (e1 ++ e2).
Proof.
  intros [(s1 & F & HP & D & B & R)|(s1 & F & S)] H.
  - destruct (H s1 HP R) as (s2 & c & F2 & Hc). exists s2, c. rewrite (feed_app_ok _ _ _ _ _ F). auto.
  - exists s1, EAGAIN. split; [apply feed_app_fail; [exact F|discriminate]|]. right. split; [reflexivity|]. apply S.
Qed.

Lemma geom_start_deep s t d r : k_level s = 31 -> refused s (EGeomStart t d :: r).
Proof.
  intros Hl. exists (kset_level s 32), EINVAL. cbn [feed wkt_step]. unfold geom_start_wkt. rewrite Hl. auto.
Qed.
Lemma ring_start_deep s r : k_level s = 31 -> refused s (ERingStart :: r).
Proof.
  intros Hl. exists (kset_level s 32), EINVAL. cbn [feed wkt_step]. unfold ring_start_wkt. rewrite Hl. auto.
Qed.

(** A part of [g] inside an open level, and the part's contents. *)
Lemma body_refused g : typed g -> wf_geom g -> forall M par e s, 0 <= M <= 31 -> 32 < M + Z.of_nat (nesting g) ->
  geom_events g (EGeomStart (geom_code g) (dimN (geom_dim g)) :: e) ->
  inside M (geom_code g) par s -> aget (k_i s) M = Some 0 -> ready s -> refused s e.
Proof.
  induction g as [d cs|d cs|d rings|k d parts IH] using geom_ind'; intros Hty Hwf M par e s HM Hn H Hin Hi R; cbn [geom_code geom_dim] in *.
  - cbn [nesting] in Hn. lia.
  - cbn [nesting] in Hn. lia.
  - inversion H as [| |? ? e' He' Eq1 Eq2|]; subst. destruct rings as [|cs rings]; cbn [nesting] in Hn; [lia|].
    inversion He'; subst. cbn [app]. apply ring_start_deep. destruct Hin as (Hl & _). lia.
  - inversion H as [| | |? ? ? e' He' Eq1 Eq2]; subst. rewrite nesting_coll in Hn.
    inversion Hwf as [| | |? ? ? Hwfs]; subst. apply wf_geoms_Forall in Hwfs. inversion Hty as [| | |? ? ? Hmem Htys]; subst.
    apply refused_app. clear H Hty Hwf. assert (exists x, aget (k_i s) M = Some x /\ 0 <= x) as (x & Hx & Hx0) by (exists 0; split; [exact Hi|lia]). clear Hi.
    assert (31 <= M + Z.of_nat (nestings parts)) as Hn' by lia. assert (parts <> [] \/ parts = []) as Hne by (destruct parts; [right|left]; congruence).
    destruct Hne as [Hne| ->]; [|cbn [nestings fold_right] in Hn; lia]. clear Hne Hn'.
    revert e' He' s Hin x Hx Hx0 R.
    induction parts as [|g gs IHgs]; intros e' He' s Hin x Hx Hx0 R; [cbn [nestings fold_right] in Hn; lia|].
    inversion He' as [|? ? e1 e2 H1 H2]; subst. inversion IH as [|? ? Hg Hgs]; subst. inversion Hwfs; subst. inversion Hmem; subst. inversion Htys; subst.
    rewrite nestings_cons in Hn. pose proof (nesting_pos g). destruct (geom_events_split g e1 H1) as (e & ->).
    destruct (Z.eq_dec M 31) as [->|HM31].
    { cbn [app]. apply geom_start_deep. apply Hin. }
    destruct (geom_start_part print_double print_short cfg M (coll_code k) par g s x ltac:(lia) Hin Hx Hx0 R)
      as (s1 & E & D & K & O & L1 & G1 & I1 & PG & PI & B).
    assert (ready s1) as R1.
    { split; [exact O|]. destruct R as [_ (st & Hst)]. exists st. rewrite (kb_start _ _ K). exact Hst. }
    destruct (Z_lt_le_dec 32 (M + 1 + Z.of_nat (nesting g))) as [Hd|Hd].
    + apply refused_app. destruct (Hg ltac:(assumption) ltac:(assumption) (M + 1) (par_in (coll_code k)) e s1) as (s2 & c & F & Hc); try assumption; try lia.
      { split; [exact L1|]. split; [exact G1|]. eapply parens_in; [exact print_short|exact L1|lia|exact PG]. }
      exists s2, c. split; [|exact Hc]. rewrite (feed_cons_ok _ _ _ _ _ E). exact F.
    + assert (emits M (coll_code k) par (EGeomStart (geom_code g) (dimN (geom_dim g)) :: e)
               (fun x => items $"(" x [tag_in (coll_code k) g ++ body_in print_double cfg (par_in (coll_code k)) g]) 1) as E1.
      { apply emits_part with (t := geom_code g).
        - exact print_short.
        - lia.
        - intros s' x' Hin' Hx' Hp' R'. apply (geom_start_part print_double print_short cfg M (coll_code k) par); try assumption; lia.
        - apply body_ok; try assumption; try lia.
          destruct (par_in (coll_code k)) eqn:Ep; [left; reflexivity|right].
          unfold WktWriterProofs.par_in in Ep. apply negb_false_iff, andb_true_iff in Ep as [_ Ep]. apply N.eqb_eq in Ep.
          destruct k; try discriminate. destruct g; try contradiction. eauto. }
      eapply goes_refused; [apply (E1 s x); assumption|]. cbv beta. intros s2 (In2 & B2 & X2) R2.
      eapply IHgs; try eassumption; try lia.
Qed.

Lemma root_refused g evs s : typed g -> wf_geom g -> (32 < nesting g)%nat -> geom_events g evs -> k_level s = -1 -> ready s -> refused s evs.
Proof.
  intros Hty Hwf Hn H Hl R. destruct (geom_events_split g evs H) as (e & ->).
  destruct (geom_start_root print_double print_short cfg g s Hl R) as (s1 & E & D & K & O & In1 & I1).
  assert (ready s1) as R1.
  { split; [exact O|]. destruct R as [_ (st & Hst)]. exists st. rewrite (kb_start _ _ K). exact Hst. }
  destruct (body_refused g Hty Hwf 0 true e s1 ltac:(lia) ltac:(lia) H In1 I1 R1) as (s2 & c & F & Hc).
  exists s2, c. split; [|exact Hc]. rewrite (feed_cons_ok _ _ _ _ _ E). exact F.
Qed.

(** ** One feature *)

(** The fields that make up the array, as those of a WKB writer. *)
Definition to_wst (s : kst) : wst :=
  {| w_validity := k_validity s; w_offsets := k_offsets s; w_values := k_values s; w_gt := fun _ => None; w_dims := fun _ => None;
     w_pos := fun _ => None; w_size := fun _ => None; w_level := 0; w_length := k_length s; w_nulls := k_nulls s; w_is_null := None |}.

Lemma feat_start_kok s : b_size (k_values s) <= 2147483647 -> buf_ok (k_values s) ->
  exists s', step s EFeatStart = VRet s' 0 /\ k_level s' = -1 /\ k_values s' = k_values s /\ k_validity s' = k_validity s /\
    k_nulls s' = k_nulls s /\ k_offsets s' = k_offsets s ++ [to_int32 (b_size (k_values s))] /\ k_length s' = k_length s + 1 /\
    k_is_null s' = Some false /\ k_start s' = Some (b_size (k_values s)) /\ ready s'.
Proof.
  intros H Hok. cbn [wkt_step]. unfold feat_start_wkt. cbn [kset_level kset_book kset_feat k_values k_offsets].
  destruct (Z.ltb_spec 2147483647 (b_size (k_values s))); [lia|]. eexists. split; [reflexivity|]. cbn. repeat split; try exact Hok; unfold ready; cbn; eauto.
Qed.

(** What becomes of a text under the limit: [cut] tells whether no null came before. *)
Definition limited (cut : bool) (t b : bytes) : Prop :=
  if kc_max cfg <? 0 then b = t
  else if cut then b = firstn (Z.to_nat (kc_max cfg)) t
  else exists q, t = b ++ q /\ (q = [] \/ kc_max cfg <= Z.of_nat (length b)).

Definition element_of (cut : bool) (f : option geom) (e : option bytes) : Prop :=
  match f, e with
  | None, None => True
  | Some g, Some b => limited cut (wkt print (kc_flat cfg) g) b
  | _, _ => False
  end.

Lemma feat_end_ok s0 s (t : bytes) : (exists p q, t = p ++ q /\ kdata s = kdata s0 ++ p /\ (q = [] \/ (0 <= kc_max cfg /\ kc_max cfg <= Z.of_nat (length p)))) ->
  k_is_null s = Some false -> k_start s = Some (b_size (k_values s0)) -> k_validity s = k_validity s0 -> buf_ok (k_values s) ->
  k_length s = k_length s0 + 1 -> k_nulls s = k_nulls s0 -> k_offsets s = k_offsets s0 ++ [to_int32 (b_size (k_values s0))] ->
  exists s' b, feat_end_wkt cfg s = VRet s' 0 /\ limited (match k_validity s0 with None => true | Some _ => false end) t b /\
    added (to_wst s0) (to_wst s') (Some b).
Proof.
  intros (p & q & Ht & Hd & Hq) Hn Hst Hv Hok Hlen Hnulls Hoff. unfold feat_end_wkt. rewrite Hn, Hv. cbn [vor_ub].
  destruct (k_validity s0) as [bits|] eqn:Ev.
  - eexists; exists p. split; [reflexivity|]. split.
    + unfold limited. destruct (Z.ltb_spec (kc_max cfg) 0); [|].
      * destruct Hq as [->|Hq]; [|lia]. rewrite app_nil_r in Ht. congruence.
      * exists q. split; [exact Ht|]. destruct Hq as [Hq|[_ Hq]]; auto.
    + split; unfold data; cbn [to_wst w_values w_offsets w_length w_nulls w_validity bytes_of valid_of kset_book k_values k_offsets k_length k_nulls k_validity]; try assumption.
      * lia.
      * rewrite Ev. reflexivity.
      * intros _. exact Hok.
  - destruct (Z.leb_spec 0 (kc_max cfg)) as [Hm|Hm].
    + rewrite Hst. cbn [vor_ub].
      assert (b_size (k_values s) - b_size (k_values s0) = Z.of_nat (length p)) as Hsz.
      { unfold b_size. fold (kdata s). rewrite Hd, app_length. unfold kdata. lia. }
      rewrite Hsz.
      set (s1 := kset_values s _).
      assert (firstn (Z.to_nat (kc_max cfg)) t = firstn (Z.to_nat (kc_max cfg)) p) as Hf.
      { rewrite Ht, firstn_app. destruct Hq as [->|[_ Hq]]; [rewrite firstn_nil, app_nil_r; reflexivity|].
        replace (Z.to_nat (kc_max cfg) - length p)%nat with O by lia. cbn [firstn]. apply app_nil_r. }
      destruct (Z.ltb_spec (kc_max cfg) (Z.of_nat (length p))).
      * exists s1, (firstn (Z.to_nat (kc_max cfg)) p). split; [reflexivity|]. split.
        { unfold limited. destruct (Z.ltb_spec (kc_max cfg) 0); [lia|]. congruence. }
        assert (firstn (Z.to_nat (b_size (k_values s0) + kc_max cfg)) (b_data (k_values s)) = kdata s0 ++ firstn (Z.to_nat (kc_max cfg)) p) as Hcut.
        { fold (kdata s). rewrite Hd, firstn_app. unfold b_size. fold (kdata s0).
          rewrite firstn_all2 by lia. f_equal. f_equal. lia. }
        split; unfold data, s1; cbn [to_wst w_values w_offsets w_length w_nulls w_validity bytes_of valid_of kset_values k_values k_offsets k_length k_nulls k_validity b_data b_cap]; try assumption.
        -- lia.
        -- rewrite Hv, Ev. reflexivity.
        -- intros _. unfold buf_ok, b_size in *. cbn [b_data b_cap]. rewrite firstn_length. lia.
      * exists s, p. split; [reflexivity|]. split.
        { unfold limited. destruct (Z.ltb_spec (kc_max cfg) 0); [lia|]. rewrite Hf, firstn_all2 by lia. reflexivity. }
        split; unfold data; cbn [to_wst w_values w_offsets w_length w_nulls w_validity bytes_of valid_of]; try assumption.
        -- lia.
        -- rewrite Hv, Ev. reflexivity.
        -- intros _. exact Hok.
    + exists s, p. split; [reflexivity|]. split.
      { unfold limited. destruct (Z.ltb_spec (kc_max cfg) 0); [|lia]. destruct Hq as [->|Hq]; [|lia]. rewrite app_nil_r in Ht. congruence. }
      split; unfold data; cbn [to_wst w_values w_offsets w_length w_nulls w_validity bytes_of valid_of]; try assumption.
      * lia.
      * rewrite Hv, Ev. reflexivity.
      * intros _. exact Hok.
Qed.

Lemma feature_ok s f evs : feature_events f evs -> expressible f -> shallow f ->
  b_size (k_values s) <= 2147483647 -> buf_ok (k_values s) ->
  exists s' e, wkt_feature print_double cfg s evs = Some (s', 0) /\ added (to_wst s) (to_wst s') e /\
    element_of (match k_validity s with None => true | Some _ => false end) f e.
Proof.
  intros He Hf Hsh Hsz Hok. destruct (feat_start_kok s Hsz Hok) as (s1 & E1 & L1 & V1 & B1 & N1 & O1 & Len1 & I1 & S1 & R1).
  unfold wkt_feature. inversion He as [|g e Hg]; subst.
  - rewrite (feed_cons_ok _ _ _ _ _ E1). cbn [feed wkt_step null_feat_wkt]. change (0 =? 0) with true. cbv iota.
    unfold feat_end_wkt. cbn [kset_feat k_is_null vor_ub]. change (0 =? 0) with true. cbv iota. change (0 =? EAGAIN) with false. cbv iota.
    eexists; exists None. split; [reflexivity|]. split; [|exact I].
    split; unfold data, kpush_null; cbn [to_wst kset_book kset_feat w_values w_offsets w_length w_nulls w_validity bytes_of valid_of k_values k_offsets k_length k_nulls k_validity]; try congruence.
    + rewrite V1, app_nil_r. reflexivity.
    + rewrite B1, Len1. replace (k_length s + 1 - 1) with (k_length s) by lia. reflexivity.
  - destruct (Hf g eq_refl) as [Hty Hwf]. specialize (Hsh g eq_refl).
    assert (exists s2 (c : option unit), feed step s ([EFeatStart] ++ e ++ [EFeatEnd]) =
              match c with None => match feat_end_wkt cfg s2 with VRet s' c => Some (s', c) | VUB => None end | Some _ => Some (s2, EAGAIN) end /\
            same_kbook s1 s2 /\ buf_ok (k_values s2) /\
            exists p q, wkt print (kc_flat cfg) g = p ++ q /\ kdata s2 = kdata s ++ p /\
              (q = [] \/ (0 <= kc_max cfg /\ kc_max cfg <= Z.of_nat (length p)))) as (s2 & c & F & K2 & Ok2 & Hpq).
    { cbn [app]. rewrite (feed_cons_ok _ _ _ _ _ E1).
      destruct (root_ok print_double print_short cfg precision_ok g e s1 Hty Hwf Hsh Hg L1 R1)
        as [(s2 & F & _ & D & K & R)|(s2 & F & [(p & q & T & D) K O M (st & Hst & Hl)])].
      - exists s2, None. rewrite (feed_app_ok _ _ _ _ _ F). split; [|split; [exact K|split; [apply R|]]].
        + cbn [feed wkt_step]. destruct (feat_end_wkt cfg s2) as [s' c|]; [|reflexivity]. destruct (Z.eqb_spec c 0) as [->|]; reflexivity.
        + eexists; exists []. split; [rewrite app_nil_r; reflexivity|]. unfold kdata in *. rewrite D, V1. auto.
      - exists s2, (Some tt). rewrite (feed_app_fail _ _ _ _ _ _ F) by discriminate. split; [reflexivity|].
        split; [exact K|]. split; [exact O|]. exists p, q. split; [exact T|]. unfold kdata in *. rewrite D, V1. split; [reflexivity|].
        right. split; [exact M|]. rewrite S1 in Hst. injection Hst as <-. unfold b_size in Hl. rewrite D, V1, app_length in Hl. lia. }
    destruct K2 as [Kv Ko Kl Kn Ks Ki].
    destruct (feat_end_ok s s2 _ Hpq) as (s3 & b & E3 & Lb & A); try congruence; try lia.
    exists s3, (Some b). rewrite F. split; [|split; [exact A|exact Lb]].
    destruct c as [[]|].
    + change (EAGAIN =? EAGAIN) with true. cbv iota. rewrite E3. reflexivity.
    + rewrite E3. change (0 =? EAGAIN) with false. cbv iota. reflexivity.
Qed.

Lemma feature_overflow s f evs : feature_events f evs -> 2147483647 < b_size (k_values s) ->
  exists s', wkt_feature print_double cfg s evs = Some (s', EOVERFLOW).
Proof.
  intros He Hsz.
  assert (forall r, exists s', feed step s (EFeatStart :: r) = Some (s', EOVERFLOW)) as H.
  { intros r. cbn [feed wkt_step]. unfold feat_start_wkt. cbn [kset_level kset_book kset_feat k_values k_offsets].
    destruct (Z.ltb_spec 2147483647 (b_size (k_values s))); [|lia]. change (EOVERFLOW =? 0) with false. cbv iota. eauto. }
  unfold wkt_feature. destruct He.
  - destruct (H [ENullFeat; EFeatEnd]) as [s' ->]. eexists; reflexivity.
  - destruct (H (e ++ [EFeatEnd])) as [s' H']. cbn [app]. rewrite H'. eexists; reflexivity.
Qed.

Lemma feature_too_deep s g evs : feature_events (Some g) evs -> typed g -> wf_geom g -> (32 < nesting g)%nat -> kc_max cfg < 0 ->
  b_size (k_values s) <= 2147483647 -> buf_ok (k_values s) ->
  exists s', wkt_feature print_double cfg s evs = Some (s', EINVAL) /\ feed step s evs = Some (s', EINVAL).
Proof.
  intros He Hty Hwf Hn Hm Hsz Hok. destruct (feat_start_kok s Hsz Hok) as (s1 & E1 & L1 & V1 & B1 & N1 & O1 & Len1 & I1 & S1 & R1).
  inversion He as [|? e Hg]; subst. cbn [app]. unfold wkt_feature. rewrite (feed_cons_ok _ _ _ _ _ E1).
  destruct (root_refused g e s1 Hty Hwf Hn Hg L1 R1) as (s2 & c & F & Hc). destruct Hc as [->|[_ Hc]]; [|lia].
  rewrite (feed_app_fail _ _ _ _ _ _ F) by discriminate. exists s2. auto.
Qed.

(** ** Histories *)

(** [elements cut fs els]: the elements of the array, [cut] until the first null. *)
Inductive elements : bool -> list (option geom) -> list (option bytes) -> Prop :=
| el_nil cut : elements cut [] []
| el_null cut fs els : elements false fs els -> elements cut (None :: fs) (None :: els)
| el_geom cut g b fs els : limited cut (wkt print (kc_flat cfg) g) b -> elements cut fs els -> elements cut (Some g :: fs) (Some b :: els).

Lemma run_features_ok evss : forall fs s s' els0, Forall2 feature_events fs evss -> Forall expressible fs ->
  (Forall shallow fs \/ kc_max cfg < 0) -> whistory (to_wst s) els0 -> run_features print_double cfg s evss = Some (s', 0) ->
  exists els, whistory (to_wst s') (els0 ++ els) /\ elements (forallb valid_of els0) fs els.
Proof.
  induction evss as [|evs evss IH]; intros fs s s' els0 Hev Hex Hsh Hh Hrun; inversion Hev as [|f ? fs' ? H1 H2]; subst; cbn [run_features] in Hrun.
  - injection Hrun as <-. exists []. rewrite app_nil_r. split; [exact Hh|constructor].
  - inversion Hex as [|? ? Hf Hfs]; subst. pose proof (wh_ok _ _ Hh) as Hok. cbn [to_wst w_values] in Hok.
    destruct (Z_le_gt_dec (b_size (k_values s)) 2147483647) as [Hsz|Hsz].
    2:{ destruct (feature_overflow s f evs H1 ltac:(lia)) as [s1 E]. rewrite E in Hrun. change (EOVERFLOW =? 0) with false in Hrun. discriminate. }
    assert (shallow f) as Hsf.
    { destruct Hsh as [Hsh|Hm]; [inversion Hsh; assumption|]. intros g ->. destruct (Hf g eq_refl) as [Hty Hwf].
      destruct (Nat.le_gt_cases (nesting g) 32) as [|Hn]; [assumption|].
      destruct (feature_too_deep s g evs H1 Hty Hwf ltac:(lia) Hm Hsz Hok) as (s1 & E & _). rewrite E in Hrun. discriminate. }
    destruct (feature_ok s f evs H1 Hf Hsf Hsz Hok) as (s1 & e & E & A & He). rewrite E in Hrun. change (0 =? 0) with true in Hrun. cbv iota in Hrun.
    pose proof (whistory_added _ _ _ _ Hh A) as Hh1.
    assert (Forall shallow fs' \/ kc_max cfg < 0) as Hsh' by (destruct Hsh as [Hsh|]; [left; inversion Hsh; assumption|right; assumption]).
    destruct (IH fs' s1 s' _ H2 Hfs Hsh' Hh1 Hrun) as (els & Hw & Hels).
    exists (e :: els). rewrite <- app_assoc in Hw. split; [exact Hw|].
    rewrite forallb_app in Hels. cbn [forallb] in Hels. rewrite andb_true_r in Hels.
    assert ((match k_validity s with None => true | Some _ => false end) = forallb valid_of els0) as Hcut.
    { pose proof (wh_validity _ _ Hh) as Hv. cbn [to_wst w_validity] in Hv. rewrite Hv. destruct (forallb valid_of els0); reflexivity. }
    rewrite Hcut in He. destruct f as [g|], e as [b|]; try contradiction; cbn [element_of valid_of] in *.
    + rewrite andb_true_r in Hels. constructor; assumption.
    + rewrite andb_false_r in Hels. constructor. exact Hels.
Qed.

Lemma kclean_history s : kclean s -> whistory (to_wst s) [].
Proof. intros [V O B L N]. apply whistory_clean. split; assumption. Qed.

Lemma kfinish_ok s els : whistory (to_wst s) els -> total els <= 2147483647 ->
  exists s' a, wkt_finish s = (s', 0, Some a) /\ array_holds a els /\ kclean s'.
Proof.
  intros Hh Ht. destruct (finish_ok (to_wst s) els Hh Ht) as (s' & a & E & A & C).
  unfold wkb_finish in E. unfold wkt_finish. cbn [to_wst w_values w_length w_nulls w_validity w_offsets] in E.
  destruct (2147483647 <? b_size (k_values s)); [discriminate|].
  eexists; exists a. injection E as _ Ec <-. rewrite Ec. split; [reflexivity|]. split; [exact A|]. split; reflexivity.
Qed.
Lemma kfinish_overflow s els : whistory (to_wst s) els -> 2147483647 < total els -> wkt_finish s = (s, EOVERFLOW, None).
Proof.
  intros [D O Len N V K] Ht. unfold wkt_finish.
  assert (b_size (k_values s) = total els) as -> by (unfold b_size; unfold data in D; cbn [to_wst w_values] in D; rewrite D; reflexivity).
  destruct (Z.ltb_spec 2147483647 (total els)); [reflexivity|lia].
Qed.

Lemma elements_unlimited cut fs els : kc_max cfg < 0 -> elements cut fs els -> els = map (feature_text print_double cfg) fs.
Proof.
  intros Hm H. induction H as [|cut fs els H IH|cut g b fs els Hb H IH]; cbn [map]; [reflexivity|rewrite IH; reflexivity|].
  rewrite IH. unfold limited in Hb. destruct (Z.ltb_spec (kc_max cfg) 0); [|lia]. subst b. reflexivity.
Qed.

Lemma text_size_eq fs : text_size print_double cfg fs = total (map (feature_text print_double cfg) fs).
Proof. unfold text_size, total. rewrite map_map. reflexivity. Qed.

Lemma wkt_history evss fs s s' : kclean s -> kc_max cfg < 0 -> Forall2 feature_events fs evss -> Forall expressible fs ->
  run_features print_double cfg s evss = Some (s', 0) ->
  (text_size print_double cfg fs < 2 ^ 31 ->
     exists s'' a, wkt_finish s' = (s'', 0, Some a) /\ array_holds a (map (feature_text print_double cfg) fs) /\ kclean s'') /\
  (2 ^ 31 <= text_size print_double cfg fs -> wkt_finish s' = (s', EOVERFLOW, None)).
Proof.
  intros Hc Hm Hev Hex Hrun.
  destruct (run_features_ok evss fs s s' [] Hev Hex (or_intror Hm) (kclean_history s Hc) Hrun) as (els & Hh & Hels).
  cbn [app] in Hh. rewrite (elements_unlimited _ _ _ Hm Hels) in Hh. rewrite text_size_eq. split; intros Ht.
  - apply kfinish_ok; [exact Hh|lia].
  - eapply kfinish_overflow; [exact Hh|lia].
Qed.

Lemma wkt_limited_history evss fs s s' : kclean s -> Forall2 feature_events fs evss -> Forall expressible fs -> Forall shallow fs ->
  run_features print_double cfg s evss = Some (s', 0) ->
  exists els, elements true fs els /\
    (total els < 2 ^ 31 -> exists s'' a, wkt_finish s' = (s'', 0, Some a) /\ array_holds a els /\ kclean s'').
Proof.
  intros Hc Hev Hex Hsh Hrun.
  destruct (run_features_ok evss fs s s' [] Hev Hex (or_introl Hsh) (kclean_history s Hc) Hrun) as (els & Hh & Hels).
  exists els. split; [exact Hels|]. intros Ht. apply kfinish_ok; [exact Hh|lia].
Qed.

Lemma elements_cut gs k els : 0 <= kc_max cfg -> elements true (map Some gs ++ repeat None k) els ->
  els = map (fun g => Some (firstn (Z.to_nat (kc_max cfg)) (wkt print (kc_flat cfg) g))) gs ++ repeat None k.
Proof.
  intros Hm. revert els. induction gs as [|g gs IH]; intros els H; cbn [map app] in *.
  - assert (forall cut els, elements cut (repeat None k) els -> els = repeat None k) as Hr.
    { clear. induction k as [|k IH]; intros cut els H; cbn [repeat] in *; inversion H; subst; [reflexivity|]. f_equal. eapply IH; eassumption. }
    eapply Hr; exact H.
  - inversion H as [| |? ? b ? els' Hb H']; subst. rewrite (IH _ H').
    unfold limited in Hb. destruct (Z.ltb_spec (kc_max cfg) 0); [lia|]. subst b; reflexivity.
Qed.

End Writer.

(** ** The properties, for the settings that a visitor can have *)

Lemma config_precision p f m : 0 <= kc_precision (wkt_config p f m) <= 16.
Proof. cbn. destruct (Z.ltb_spec p 0); [cbn; lia|]. destruct (Z.ltb_spec 16 p); cbn; lia. Qed.

Section Config.
Variable print_double : N -> Z -> bytes.
Hypothesis print_short : forall w p, 0 <= p <= 16 -> (length (print_double w p) <= 40)%nat.
Variables (precision : Z) (flat : bool) (max : Z).
Notation cfg := (wkt_config precision flat max).

Lemma canonical_text g evs s : max < 0 ->
  typed g -> wf_geom g -> (nesting g <= 32)%nat -> geom_events g evs -> b_size (k_values s) < 2 ^ 31 -> buf_ok (k_values s) ->
  exists s', feed (wkt_step print_double cfg) s ([EFeatStart] ++ evs ++ [EFeatEnd]) = Some (s', 0) /\
    b_data (k_values s') = b_data (k_values s) ++ wkt (fun w => print_double w (kc_precision cfg)) flat g /\
    k_offsets s' = k_offsets s ++ [to_int32 (b_size (k_values s))] /\ k_length s' = k_length s + 1.
Proof.
  intros Hm Hty Hwf Hn Hg Hsz Hok.
  destruct (feature_ok print_double print_short cfg (config_precision _ _ _) s (Some g) _ (fe_geom g evs Hg)) as (s' & e & E & A & He);
    try assumption; try lia.
  { intros ? [= <-]. auto. } { intros ? [= <-]. exact Hn. }
  destruct e as [b|]; [|contradiction]. cbn [element_of] in He. unfold limited in He. change (kc_max cfg) with max in He. change (kc_flat cfg) with flat in He.
  destruct (Z.ltb_spec max 0); [|lia]. subst b. exists s'. split.
  - unfold wkt_feature in E. destruct (feed _ _ _) as [[s2 c]|] eqn:F; [|discriminate].
    destruct (Z.eqb_spec c EAGAIN) as [->|]; [|exact E]. exfalso.
    destruct (feat_start_kok print_double cfg s ltac:(lia) Hok) as (s1 & E1 & L1 & V1 & B1 & N1 & O1 & Len1 & I1 & S1 & R1).
    cbn [app] in F. rewrite (feed_cons_ok _ _ _ _ _ E1) in F.
    destruct (root_ok print_double print_short cfg (config_precision _ _ _) g evs s1 Hty Hwf Hn Hg L1 R1)
      as [(s3 & F3 & _ & D & K & R)|(s3 & F3 & [_ _ _ M _])]; [|change (kc_max cfg) with max in M; lia].
    rewrite (feed_app_ok _ _ _ _ _ F3) in F. cbn [feed wkt_step] in F. unfold feat_end_wkt in F.
    rewrite (kb_is_null _ _ K), I1 in F. cbn [vor_ub] in F. destruct (k_validity s3); [discriminate F|].
    change (kc_max cfg) with max in F. destruct (Z.leb_spec 0 max); [lia|]. discriminate F.
  - destruct A as [AD AO AL _ _ _]. split; [exact AD|]. split; [exact AO|exact AL].
Qed.

Lemma limit_no_null gs k evss s s' : 0 <= max -> kclean s ->
  Forall typed gs -> Forall wf_geom gs -> Forall (fun g => (nesting g <= 32)%nat) gs ->
  Forall2 feature_events (map Some gs ++ repeat None k) evss ->
  run_features print_double cfg s evss = Some (s', 0) -> max * Z.of_nat (length gs) < 2 ^ 31 ->
  exists s'' a, wkt_finish s' = (s'', 0, Some a) /\
    array_holds a (map (fun g => Some (firstn (Z.to_nat max) (wkt (fun w => print_double w (kc_precision cfg)) flat g))) gs ++ repeat None k).
Proof.
  intros Hm Hc Hty Hwf Hn Hev Hrun Hsz.
  assert (forall P : option geom -> Prop, P None -> (forall g, In g gs -> P (Some g)) -> Forall P (map Some gs ++ repeat None k)) as Hall.
  { intros P HN HS. apply Forall_app. split; apply Forall_forall; intros f Hf.
    - apply in_map_iff in Hf as (g & <- & Hg). auto.
    - apply repeat_spec in Hf. subst. exact HN. }
  rewrite Forall_forall in Hty, Hwf, Hn.
  destruct (wkt_limited_history print_double print_short cfg (config_precision _ _ _) evss _ s s' Hc Hev) as (els & Hels & Hfin); try assumption.
  - apply Hall; [intros ? [=]|]. intros g Hg ? [= <-]. auto.
  - apply Hall; [intros ? [=]|]. intros g Hg ? [= <-]. auto.
  - apply elements_cut in Hels; [|exact Hm]. subst els.
    destruct Hfin as (s'' & a & E & A & _); [|eauto].
    eapply Z.le_lt_trans; [|exact Hsz]. change (kc_max cfg) with max. clear -Hm. unfold total.
    induction gs as [|g gs IH]; cbn [map app concat length bytes_of] in *; [|rewrite app_length, firstn_length; lia].
    rewrite Z.mul_0_r. apply Z.eq_le_incl, (f_equal Z.of_nat (y := O)). induction k; [reflexivity|exact IHk].
Qed.

Lemma limit_prefix fs evss s s' : kclean s -> Forall expressible fs -> Forall shallow fs -> Forall2 feature_events fs evss ->
  run_features print_double cfg s evss = Some (s', 0) -> text_size print_double cfg fs < 2 ^ 31 ->
  exists s'' a els, wkt_finish s' = (s'', 0, Some a) /\ array_holds a els /\ kclean s'' /\
    Forall2 (fun f e => match f, e with
                        | None, None => True
                        | Some g, Some b => exists q, wkt (fun w => print_double w (kc_precision cfg)) flat g = b ++ q
                        | _, _ => False
                        end) fs els.
Proof.
  intros Hc Hex Hsh Hev Hrun Hsz.
  destruct (wkt_limited_history print_double print_short cfg (config_precision _ _ _) evss _ s s' Hc Hev) as (els & Hels & Hfin); try assumption.
  assert (total els <= text_size print_double cfg fs /\
    Forall2 (fun f e => match f, e with
                        | None, None => True
                        | Some g, Some b => exists q, wkt (fun w => print_double w (kc_precision cfg)) flat g = b ++ q
                        | _, _ => False
                        end) fs els) as [Ht Hf].
  { clear -Hels. induction Hels as [|cut fs els H [IH1 IH2]|cut g b fs els Hb H [IH1 IH2]].
    - split; [unfold total, text_size; cbn; lia|constructor].
    - split; [exact IH1|constructor; auto].
    - assert (exists q, wkt (fun w => print_double w (kc_precision cfg)) flat g = b ++ q) as (q & Eq).
      { unfold limited in Hb. destruct (kc_max cfg <? 0); [exists []; rewrite app_nil_r; symmetry; exact Hb|]. destruct cut.
        - eexists. rewrite Hb. symmetry. apply firstn_skipn.
        - destruct Hb as (q & Hq & _). eauto. }
      split; [|constructor; eauto]. rewrite text_size_eq in *. unfold total in *. cbn [map concat].
      change (bytes_of (feature_text print_double cfg (Some g))) with (wkt (fun w => print_double w (kc_precision cfg)) flat g).
      rewrite Eq, !app_length. cbn [bytes_of]. lia. }
  destruct Hfin as (s'' & a & E & A & C); [lia|]. exists s'', a, els. auto.
Qed.
End Config.
