From Verif Require Import Base BaseFacts Text GeomSpec GeomFacts VisitorModel VisitorSpec VisitorFacts BufferModel BufferFacts
  ArraySpec WkbWriterModel WkbWriterProofs WktSpec WktWriterModel WktWriterProofs WktWriterSpec.
Local Open Scope Z_scope.

Section Writer.
Variable print_double : N -> Z -> bytes.
Hypothesis print_short : forall w p, 0 <= p <= 16 -> (length (print_double w p) <= 40)%nat.
Variable cfg : kcfg.
Hypothesis precision_ok : 0 <= kc_precision cfg <= 16.
Notation step := (wkt_step print_double cfg).

(** The levels up to [l] are initialised. *)
Definition slots (s : kst) (l : Z) : Prop :=
  forall j, 0 <= j <= l -> (exists x, aget (k_i s) j = Some x /\ 0 <= x) /\ (exists t, aget (k_gt s) j = Some t).
Record kinv (s : kst) : Prop := {
  ki_ok : buf_ok (k_values s);
  ki_level : -1 <= k_level s <= 31;
  ki_slots : slots s (k_level s);
  ki_start : exists st, k_start s = Some st;
  ki_null : exists b, k_is_null s = Some b
}.

(** One call: it returns, and if it succeeds (or stops at the limit) the next calls may follow. *)
Definition safe (r : vres kst) : Prop :=
  exists s' c, r = VRet s' c /\ (c = 0 -> kinv s') /\ (c = EAGAIN -> exists b st, k_is_null s' = Some b /\ k_start s' = Some st).

Lemma safe_err s c : c <> 0 -> c <> EAGAIN -> safe (VRet s c).
Proof. intros H0 H1. exists s, c. split; [reflexivity|]. split; intros; congruence. Qed.
Lemma safe_ok s : kinv s -> safe (VRet s 0).
Proof. intros H. exists s, 0. split; [reflexivity|]. split; [auto|discriminate]. Qed.

Lemma open_safe s s1 l t : kinv s -> l = k_level s + 1 -> l <= 31 ->
  k_level s1 = l -> k_i s1 = k_i s -> k_gt s1 = k_gt s -> same_kbook s s1 -> buf_ok (k_values s1) -> safe (open_level s1 t).
Proof.
  intros [Ok Lv Sl St Nu] -> Hl L1 I1 G1 K1 O1.
  assert (exists x, (0 <= k_level s -> aget (k_i s) (k_level s) = Some x) /\ 0 <= x) as (x & Hx & Hx0).
  { destruct (Z_le_gt_dec 0 (k_level s)) as [H|H]; [|exists 0; lia]. destruct (Sl (k_level s) ltac:(lia)) as [(x & Hx & Hx0) _]. exists x. auto. }
  destruct (open_level_ok print_double print_short s1 (k_level s) x t) as (s' & E & [OL OG OI OPG OPI OB OK OV]).
  { exact L1. } { lia. } { rewrite I1. exact Hx. }
  rewrite E. apply safe_ok. split.
  - rewrite OV. exact O1.
  - lia.
  - intros j Hj. rewrite OL in Hj. destruct (Z.eq_dec j (k_level s + 1)) as [->|H1].
    + split; [exists 0; split; [exact OI|lia]|exists t; exact OG].
    + destruct (Z.eq_dec j (k_level s)) as [->|H2].
      * split; [exists (x + 1); split; [apply OPI; lia|lia]|]. rewrite OPG, G1. apply Sl. lia.
      * destruct (OB j ltac:(lia)) as [A B]. rewrite A, B, I1, G1. apply Sl. lia.
  - rewrite (kb_start _ _ OK), (kb_start _ _ K1). exact St.
  - rewrite (kb_is_null _ _ OK), (kb_is_null _ _ K1). exact Nu.
Qed.

Lemma parens_some s : slots s (k_level s) -> exists p, parens cfg s = Some p.
Proof.
  intros Sl. unfold parens. destruct (Z.ltb_spec (k_level s) 1); [cbn; eauto|]. destruct (negb (kc_flat cfg)); [cbn; eauto|]. cbn [orb].
  destruct (Sl (k_level s - 1) ltac:(lia)) as [_ (t & ->)]. eauto.
Qed.

Lemma pop_inv s t : kinv s -> 0 <= k_level s -> kinv (kwrite (kset_level s (k_level s - 1)) t).
Proof.
  intros [Ok Lv Sl St Nu] Hl. split; cbn; try assumption.
  - apply kwrite_ok.
  - lia.
  - intros j Hj. cbn in Hj. apply (Sl j). lia.
Qed.

Lemma step_safe s e : kinv s -> view_event e -> safe (step s e).
Proof.
  intros K Hv. pose proof K as [Ok Lv Sl (st & Hst) (nu & Hnu)]. destruct e as [| |t d| |n cs| | |]; cbn [wkt_step].
  - (* feat_start *) unfold feat_start_wkt. cbn [kset_level kset_book kset_feat k_values k_offsets].
    destruct (2147483647 <? b_size (k_values s)); [apply safe_err; discriminate|]. apply safe_ok.
    split; cbn; eauto; [lia|]. intros j Hj. cbn in Hj. lia.
  - (* null_feat *) apply safe_ok. split; cbn; eauto.
  - (* geom_start *) unfold geom_start_wkt. cbn [kset_level k_level k_i].
    change (wkt_check_level _) with ((0 <=? k_level s + 1) && (k_level s + 1 <=? 31)).
    destruct (Z.leb_spec 0 (k_level s + 1)); [|lia]. destruct (Z.leb_spec (k_level s + 1) 31); [|apply safe_err; discriminate]. cbn [andb negb].
    replace (k_level s + 1 - 1) with (k_level s) by lia.
    assert (exists s0, (if 0 <? k_level s + 1 then
                match aget (k_i s) (k_level s) with
                | Some x => Some (if 0 <? x then kwrite (kset_level s (k_level s + 1)) $", " else kwrite (kset_level s (k_level s + 1)) $"(")
                | None => None end else Some (kset_level s (k_level s + 1))) = Some s0 /\
             k_level s0 = k_level s + 1 /\ k_i s0 = k_i s /\ k_gt s0 = k_gt s /\ same_kbook s s0 /\ buf_ok (k_values s0)) as (s0 & -> & L0 & I0 & G0 & K0 & O0).
    { destruct (Z.ltb_spec 0 (k_level s + 1)).
      - destruct (Sl (k_level s) ltac:(lia)) as [(x & -> & _) _].
        exists (kwrite (kset_level s (k_level s + 1)) (if 0 <? x then $", " else $"(")). split; [destruct (0 <? x); reflexivity|].
        repeat split. apply kwrite_ok.
      - eexists. split; [reflexivity|]. repeat split. exact Ok. }
    cbn [vor_ub].
    assert (exists tg, (if k_level s + 1 =? 0 then Some true
                   else match aget (k_gt s0) (k_level s) with Some p => Some (p =? 7)%N | None => None end) = Some tg) as (tg & ->).
    { destruct (Z.eqb_spec (k_level s + 1) 0); [eauto|]. rewrite G0. destruct (Sl (k_level s) ltac:(lia)) as [_ (t' & ->)]. eauto. }
    cbn [vor_ub]. destruct tg.
    + destruct ((t <? 1) || (7 <? t))%N; [apply safe_err; discriminate|]. destruct (dimensions_tag d) as [tag|]; [|apply safe_err; discriminate].
      eapply open_safe; try exact K; try reflexivity; try assumption; [|apply kwrite_ok]. destruct K0; split; assumption.
    + eapply open_safe; try exact K; try reflexivity; try assumption.
  - (* ring_start *) unfold ring_start_wkt. cbn [kset_level k_level k_i].
    change (wkt_check_level _) with ((0 <=? k_level s + 1) && (k_level s + 1 <=? 31)).
    destruct (Z.leb_spec 0 (k_level s + 1)); [|lia]. destruct (Z.leb_spec (k_level s + 1) 31); [|apply safe_err; discriminate]. cbn [andb negb].
    replace (k_level s + 1 - 1) with (k_level s) by lia.
    assert (exists c, (if 0 <? k_level s + 1 then match aget (k_i s) (k_level s) with Some x => Some (0 <? x) | None => None end
                       else Some false) = Some c) as (c & ->).
    { destruct (Z.ltb_spec 0 (k_level s + 1)); [|eauto]. destruct (Sl (k_level s) ltac:(lia)) as [(x & -> & _) _]. eauto. }
    cbn [vor_ub]. destruct c; (eapply open_safe; try exact K; try reflexivity; try assumption; [split; reflexivity|apply kwrite_ok]).
  - (* coords *) destruct Hv as [Hn Hcs]. destruct cs as [|c cs]; [apply safe_ok; exact K|].
    destruct (Z_le_gt_dec 0 (k_level s)) as [H0|H0].
    2:{ unfold coords_wkt, wkt_check_level. destruct (Z.leb_spec 0 (k_level s)); [lia|]. apply safe_err; discriminate. }
    destruct (Sl (k_level s) ltac:(lia)) as [(x & Hx & Hx0) (gl & Hg)]. destruct (parens_some s Sl) as (p & Hp).
    pose proof (emits_coords print_double print_short cfg precision_ok (k_level s) gl p (N.to_nat n) (c :: cs) ltac:(lia) ltac:(lia)
      ltac:(eapply Forall_impl; [|exact Hcs]; cbv beta; intros; lia) s x (conj eq_refl (conj Hg Hp)) Hx Hx0
      (conj Ok (ex_intro _ st Hst))) as G.
    rewrite N2Nat.id in G. destruct G as [(s' & F & ((L' & G' & P') & B' & X') & D' & K' & [O' S'])|(s' & F & [_ K' O' _ _])]; cbn [feed wkt_step] in F;
      destruct (coords_wkt print_double cfg s n (c :: cs)) as [s2 c2|]; try discriminate.
    + assert (s2 = s' /\ c2 = 0) as [-> ->] by (destruct (Z.eqb_spec c2 0); inversion F; split; congruence). apply safe_ok. split; try assumption.
      * lia.
      * intros j Hj. rewrite L' in Hj. destruct (Z.eq_dec j (k_level s)) as [->|Hj'].
        -- split; [eexists; split; [exact X'|lia]|eauto].
        -- destruct (B' j ltac:(lia)) as [A B]. rewrite A, B. apply Sl. lia.
      * rewrite (kb_is_null _ _ K'). eauto.
    + assert (s2 = s' /\ c2 = EAGAIN) as [-> ->] by (destruct (Z.eqb_spec c2 0); inversion F; split; congruence). exists s', EAGAIN. split; [reflexivity|].
      split; [discriminate|]. intros _. rewrite (kb_is_null _ _ K'), (kb_start _ _ K'). eauto.
  - (* ring_end *) unfold ring_end_wkt, wkt_check_level.
    destruct (Z.leb_spec 0 (k_level s)); [|apply safe_err; discriminate]. destruct (Z.leb_spec (k_level s) 31); [|lia]. cbn [andb negb].
    destruct (Sl (k_level s) ltac:(lia)) as [(x & -> & _) _]. cbn [vor_ub]. apply safe_ok, pop_inv; assumption.
  - (* geom_end *) unfold geom_end_wkt, wkt_check_level.
    destruct (Z.leb_spec 0 (k_level s)); [|apply safe_err; discriminate]. destruct (Z.leb_spec (k_level s) 31); [|lia]. cbn [andb negb].
    destruct (Sl (k_level s) ltac:(lia)) as [(x & -> & _) _]. cbn [vor_ub]. destruct (x =? 0); [apply safe_ok, pop_inv; assumption|].
    destruct (parens_some s Sl) as (p & ->). cbn [vor_ub]. destruct p; [apply safe_ok, pop_inv; assumption|]. apply safe_ok.
    split; cbn; eauto; [lia|]. intros j Hj. cbn in Hj. apply (Sl j). lia.
  - (* feat_end *) unfold feat_end_wkt. rewrite Hnu. cbn [vor_ub]. destruct nu.
    + apply safe_ok. split; cbn; eauto.
    + destruct (k_validity s); [apply safe_ok; split; cbn; eauto|]. destruct (Z.leb_spec 0 (kc_max cfg)); [|apply safe_ok; exact K].
      rewrite Hst. cbn [vor_ub]. destruct (kc_max cfg <? b_size (k_values s) - st); [|apply safe_ok; exact K].
      apply safe_ok. split; cbn; eauto. unfold buf_ok, b_size in *. cbn [b_data b_cap]. rewrite firstn_length. lia.
Qed.

Lemma feed_safe evs : forall s, kinv s -> Forall view_event evs ->
  exists s' c, feed step s evs = Some (s', c) /\ (c = EAGAIN -> exists b st, k_is_null s' = Some b /\ k_start s' = Some st).
Proof.
  induction evs as [|e evs IH]; intros s K Hv; cbn [feed].
  - exists s, 0. split; [reflexivity|discriminate].
  - inversion Hv; subst. destruct (step_safe s e K ltac:(assumption)) as (s' & c & -> & K' & A). destruct (Z.eqb_spec c 0) as [->|Hc].
    + apply IH; auto.
    + exists s', c. auto.
Qed.

Lemma first_safe s evs : buf_ok (k_values s) -> Forall view_event evs ->
  exists s' c, feed step s (EFeatStart :: evs) = Some (s', c) /\
    (c = EAGAIN -> exists b st, k_is_null s' = Some b /\ k_start s' = Some st).
Proof.
  intros Hok Hv. cbn [feed wkt_step]. unfold feat_start_wkt. cbn [kset_level kset_book kset_feat k_values k_offsets].
  destruct (2147483647 <? b_size (k_values s)).
  - change (EOVERFLOW =? 0) with false. cbv iota. eexists; exists EOVERFLOW. split; [reflexivity|discriminate].
  - change (0 =? 0) with true. cbv iota. apply feed_safe; [|exact Hv]. split; cbn; eauto; [lia|]. intros j Hj. cbn in Hj. lia.
Qed.

Lemma feature_safe s evs : buf_ok (k_values s) -> Forall view_event evs -> wkt_feature print_double cfg s (EFeatStart :: evs) <> None.
Proof.
  intros Hok Hv. unfold wkt_feature. destruct (first_safe s evs Hok Hv) as (s' & c & -> & A).
  destruct (Z.eqb_spec c EAGAIN) as [->|]; [|discriminate]. destruct (A eq_refl) as (b & st & Hb & Hs).
  unfold feat_end_wkt. rewrite Hb, Hs. cbn [vor_ub]. destruct b; [discriminate|]. destruct (k_validity s'); [discriminate|].
  destruct (0 <=? kc_max cfg); [|discriminate]. destruct (kc_max cfg <? b_size (k_values s') - st); discriminate.
Qed.

Lemma any_order_safe s evs : buf_ok (k_values s) -> Forall view_event evs ->
  feed step s (EFeatStart :: evs) <> None /\ wkt_feature print_double cfg s (EFeatStart :: evs) <> None.
Proof.
  intros Hok Hv. split; [|apply feature_safe; assumption]. destruct (first_safe s evs Hok Hv) as (s' & c & -> & _). discriminate.
Qed.
End Writer.
