(** * The visit of a node list that ends too early *)
From Verif Require Import Base BaseFacts TypesModel GeomSpec GeomFacts NodesModel NodesSpec VisitorModel VisitorFacts GeomVisitModel GeomVisitProofs
  TruncatedSpec.
Local Open Scope Z_scope.

(** Every polygon is followed by its rings. *)
Definition rings_there (nodes : list node) : Prop := forall before poly after,
  nodes = before ++ poly :: after -> nd_type poly = 3%N -> (nd_size poly <= N.of_nat (length after))%N.

Lemma rings_there_app a b : rings_there a -> rings_there b -> rings_there (a ++ b).
Proof.
  intros Ha Hb before poly after E Ht.
  destruct (app_eq_app _ _ _ _ E) as (l & [(E1 & E2)|(E1 & E2)]).
  - destruct l as [|x l].
    + cbn in E2. apply (Hb [] poly after); auto.
    + injection E2 as <- E2. subst after. rewrite app_length. specialize (Ha _ _ _ E1 Ht). lia.
  - apply (Hb _ _ _ E2 Ht).
Qed.

Lemma rings_there_cons nd l : nd_type nd <> 3%N -> rings_there l -> rings_there (nd :: l).
Proof.
  intros Hn Hl before poly after E Ht. destruct before as [|x before]; injection E as ? E; subst; [congruence|].
  apply (Hl _ _ _ eq_refl Ht).
Qed.

Lemma no_polygon l : Forall (fun nd => nd_type nd <> 3%N) l -> rings_there l.
Proof.
  intros H before poly after -> Ht. apply Forall_app in H. destruct H as [_ H]. inversion H; subst. contradiction.
Qed.

Lemma coll_code_not k : coll_code k <> 3%N. Proof. destruct k; discriminate. Qed.

Lemma ring_types m d lvl rings ns : Forall2 (fun cs rn => seq_node m 2 lvl d cs rn) rings ns -> Forall (fun nd => nd_type nd <> 3%N) ns.
Proof. induction 1; constructor; [|assumption]. rewrite (sn_type _ _ _ _ _ _ H). discriminate. Qed.

Lemma repr_rings m : forall g lvl sub, repr_geom m lvl sub g -> rings_there sub.
Proof.
  induction g as [d cs|d cs|d rings|k d parts IH] using geom_ind'; intros lvl sub H; inversion H; subst.
  - apply no_polygon. repeat constructor. match goal with H : seq_node _ _ _ _ _ _ |- _ => rewrite (sn_type _ _ _ _ _ _ H) end. discriminate.
  - apply no_polygon. repeat constructor. match goal with H : seq_node _ _ _ _ _ _ |- _ => rewrite (sn_type _ _ _ _ _ _ H) end. discriminate.
  - intros before poly after E Ht. destruct before as [|x before]; injection E as ? E; subst.
    + match goal with H : inner_node _ _ _ _ _ |- _ => rewrite (in_size _ _ _ _ _ H) end.
      match goal with H : Forall2 _ _ _ |- _ => rewrite (Forall2_length _ _ _ H) end. lia.
    + match goal with H : Forall2 _ _ _ |- _ => apply ring_types in H; exact (no_polygon _ H _ _ _ eq_refl Ht) end.
  - apply rings_there_cons.
    + match goal with H : inner_node _ _ _ _ _ |- _ => rewrite (in_type _ _ _ _ _ H) end. apply coll_code_not.
    + match goal with H : repr_parts _ _ ?r parts |- _ => rename r into rest; rename H into Hrp end.
      clear -IH Hrp. remember (lvl + 1)%N as l1 eqn:E. clear E.
      revert rest Hrp; induction parts as [|g gs IHg]; intros rest Hrp; inversion Hrp; subst.
      * apply no_polygon. constructor.
      * inversion IH as [|? ? Ha Hb]; subst. apply rings_there_app; [eapply Ha; eassumption|apply IHg; assumption].
Qed.

Lemma ends_app a b : rings_there a -> (ends_in_rings (a ++ b) <-> ends_in_rings b).
Proof.
  intros Ha. split.
  - intros (before & poly & after & E & Ht & Hs).
    destruct (app_eq_app _ _ _ _ E) as (l & [(E1 & E2)|(E1 & E2)]).
    + destruct l as [|x l].
      * cbn in E2. exists [], poly, after. auto.
      * injection E2 as <- E2. subst after. rewrite app_length in Hs. specialize (Ha _ _ _ E1 Ht). lia.
    + exists l, poly, after. auto.
  - intros (before & poly & after & -> & Ht & Hs). exists (a ++ before), poly, after. rewrite app_assoc. auto.
Qed.

Lemma ends_cons nd l : nd_type nd <> 3%N -> (ends_in_rings (nd :: l) <-> ends_in_rings l).
Proof. intros H. apply (ends_app [nd]). apply no_polygon. repeat constructor. exact H. Qed.

Lemma ends_nil : ~ ends_in_rings [].
Proof. intros (before & poly & after & E & _). destruct before; discriminate. Qed.

(** What is returned. *)
Definition stops {A} (cut : list node) (p : prog A) : Prop :=
  (snd (trace p) = Err EINVAL /\ ends_in_rings cut) \/ (snd (trace p) = UB /\ ~ ends_in_rings cut).

Lemma stops_bind {A B} cut (p : prog A) (f : A -> prog B) : stops cut p -> stops cut (pbind p f).
Proof.
  unfold stops. rewrite trace_bind. destruct (trace p) as [e o]. cbn [snd].
  intros [(-> & H)|(-> & H)]; [left|right]; split; auto.
Qed.

Lemma stops_after {A B} cut (p : prog A) (f : A -> prog B) e a : trace p = (e, Ok a) -> stops cut (f a) -> stops cut (pbind p f).
Proof.
  unfold stops. rewrite trace_bind. intros ->. destruct (trace (f a)) as [e2 o]. cbn [snd]. tauto.
Qed.

Lemma stops_emit {A} cut e (p : prog A) : stops cut p -> stops cut (pbind (emit e) (fun _ => p)).
Proof. intros H. eapply stops_after; [reflexivity|exact H]. Qed.

Lemma stops_iff {A} a b (p : prog A) : (ends_in_rings a <-> ends_in_rings b) -> stops a p -> stops b p.
Proof. unfold stops. tauto. Qed.

Definition node_stops m (g : geom) : Prop := wf_geom g -> forall lvl cut missing, repr_geom m lvl (cut ++ missing) g -> missing <> [] ->
  forall pre fuel, (length cut < fuel)%nat ->
  stops cut (visit_node m (pre ++ cut) fuel (Z.of_nat (length pre)) (Z.of_nat (length cut))).

Lemma get_node_end (pre : list node) : get_node (pre ++ []) (Z.of_nat (length pre)) = UB.
Proof.
  unfold get_node. destruct (Z.ltb_spec (Z.of_nat (length pre)) 0); [lia|].
  rewrite Nat2Z.id, app_nil_r. rewrite (proj2 (nth_error_None _ _)) by lia. reflexivity.
Qed.

Lemma parts_stop m lvl f : forall parts, Forall (node_stops m) parts -> wf_geoms parts ->
  forall cut missing, repr_parts m lvl (cut ++ missing) parts -> missing <> [] ->
  forall pre fu, (length cut < f)%nat -> (length cut < fu)%nat ->
  stops cut (ploop fu (N.of_nat (length parts))
    (fun st : Z * Z => let (child, n) := st in
       let! n' := visit_node m (pre ++ cut) f child n in Ret (Ok (child + (n - n'), n')))
    (Z.of_nat (length pre), Z.of_nat (length cut))).
Proof.
  induction parts as [|g gs IHp]; intros IH Hwf cut missing Hr Hm pre fu Hf Hfu; inversion Hr; subst.
  - match goal with H : [] = _ |- _ => symmetry in H; apply app_eq_nil in H; destruct H; contradiction end.
  - destruct fu as [|fu]; [lia|]. cbn [ploop].
    destruct (N.eqb_spec (N.of_nat (length (g :: gs))) 0) as [Hz|_]; [cbn in Hz; lia|].
    inversion Hwf; subst. inversion IH as [|? ? IHg IHgs]; subst.
    match goal with H : n1 ++ n2 = cut ++ missing |- _ => destruct (app_eq_app _ _ _ _ H) as (l & [(E1 & E2)|(E1 & E2)]) end.
    + (* the list ends in this part or just after it *)
      destruct l as [|x l].
      * rewrite app_nil_r in E1. cbn in E2. subst cut. subst missing.
        match goal with H : repr_geom _ _ n1 g |- _ => rename H into Hg end.
        match goal with H : repr_parts _ _ n2 gs |- _ => rename H into Hps end.
        destruct (visit_node_ok m g ltac:(assumption) _ _ Hg pre [] f
                    ltac:(pose proof (repr_depth _ _ _ _ Hg); lia) (Z.of_nat (length n1)) ltac:(lia)) as (e1 & Ev & _).
        rewrite app_nil_r in Ev.
        eapply stops_after.
        { cbv beta iota. eapply trace_bind_ret; [exact Ev|reflexivity]. }
        replace (N.of_nat (length (g :: gs)) - 1)%N with (N.of_nat (length gs)) by (cbn [length]; lia).
        assert (length n1 <> 0)%nat as Hn1.
        { inversion Hg; subst; discriminate. }
        specialize (IHp IHgs ltac:(assumption) [] n2 Hps Hm (pre ++ n1) fu ltac:(cbn; lia) ltac:(cbn; lia)).
        rewrite app_nil_r in IHp. cbn [length] in IHp.
        replace (Z.of_nat (length pre) + (Z.of_nat (length n1) - (Z.of_nat (length n1) - Z.of_nat (length n1))))
          with (Z.of_nat (length (pre ++ n1))) by (rewrite app_length; lia).
        replace (Z.of_nat (length n1) - Z.of_nat (length n1)) with (Z.of_nat 0) by lia.
        eapply stops_iff; [|exact IHp]. symmetry. rewrite <- (app_nil_r n1) at 1. apply ends_app. eapply repr_rings; eassumption.
      * subst n1. apply stops_bind. apply stops_bind.
        eapply IHg; [assumption|eassumption|discriminate|assumption].
    + (* it ends later *)
      subst cut. subst n2.
      match goal with H : repr_geom _ _ n1 g |- _ => rename H into Hg end.
      match goal with H : repr_parts _ _ _ gs |- _ => rename H into Hps end.
      rewrite app_length in Hf, Hfu.
      destruct (visit_node_ok m g ltac:(assumption) _ _ Hg pre l f
                  ltac:(pose proof (repr_depth _ _ _ _ Hg); lia) (Z.of_nat (length (n1 ++ l))) ltac:(rewrite app_length; lia)) as (e1 & Ev & _).
      eapply stops_after.
      { cbv beta iota. eapply trace_bind_ret; [exact Ev|reflexivity]. }
      replace (N.of_nat (length (g :: gs)) - 1)%N with (N.of_nat (length gs)) by (cbn [length]; lia).
      assert (length n1 <> 0)%nat as Hn1.
      { inversion Hg; subst; discriminate. }
      specialize (IHp IHgs ltac:(assumption) l missing Hps Hm (pre ++ n1) fu ltac:(lia) ltac:(lia)).
      rewrite <- app_assoc in IHp.
      replace (Z.of_nat (length pre) + (Z.of_nat (length (n1 ++ l)) - (Z.of_nat (length (n1 ++ l)) - Z.of_nat (length n1))))
        with (Z.of_nat (length (pre ++ n1))) by (rewrite !app_length; lia).
      replace (Z.of_nat (length (n1 ++ l)) - Z.of_nat (length n1)) with (Z.of_nat (length l)) by (rewrite app_length; lia).
      eapply stops_iff; [|exact IHp]. symmetry. apply ends_app. eapply repr_rings; eassumption.
Qed.

Lemma all_stop m : forall g, node_stops m g.
Proof.
  induction g as [d cs|d cs|d rings|k d parts IH] using geom_ind'; intros Hwf lvl cut missing Hr Hm pre fuel Hf;
    (destruct fuel as [|f]; [lia|]);
    (destruct cut as [|nd cut];
      [cbn [visit_node length]; rewrite get_node_end; right; split; [reflexivity|apply ends_nil]|]).
  - inversion Hr. match goal with H : [] = _ |- _ => symmetry in H; apply app_eq_nil in H; destruct H; contradiction end.
  - inversion Hr. match goal with H : [] = _ |- _ => symmetry in H; apply app_eq_nil in H; destruct H; contradiction end.
  - inversion Hr; subst. cbn [visit_node]. rewrite get_node_at, trace_ret_bind.
    match goal with H : inner_node _ _ _ _ ?x |- _ => rename H into Hin end.
    match goal with H : Forall2 _ rings _ |- _ => rename H into HF2 end.
    apply stops_emit. apply stops_bind.
    rewrite (in_type _ _ _ _ _ Hin), (in_size _ _ _ _ _ Hin).
    change ((3 =? 1) || (3 =? 2))%N with false. change (3 =? 3)%N with true. cbv iota.
    apply Forall2_length in HF2. rewrite app_length in HF2.
    destruct missing as [|x missing]; [contradiction|]. cbn [length] in *.
    destruct (Z.ltb_spec (Z.of_nat (S (length cut)) - 1) (Z.of_N (N.of_nat (length rings)))); [|lia].
    left. split; [reflexivity|]. exists [], nd, cut. split; [reflexivity|]. split; [apply (in_type _ _ _ _ _ Hin)|].
    rewrite (in_size _ _ _ _ _ Hin). lia.
  - inversion Hr; inversion Hwf; subst. cbn [visit_node]. rewrite get_node_at, trace_ret_bind.
    match goal with H : inner_node _ _ _ _ ?x |- _ => rename H into Hin end.
    apply stops_emit. apply stops_bind.
    rewrite (in_type _ _ _ _ _ Hin), (in_size _ _ _ _ _ Hin).
    destruct (coll_code_range k) as (-> & -> & -> & ->). cbn [orb]. cbv iota.
    apply stops_bind. cbn [length] in Hf.
    eapply stops_iff; [symmetry; apply ends_cons; rewrite (in_type _ _ _ _ _ Hin); apply coll_code_not|].
    replace (Z.of_nat (length pre) + 1) with (Z.of_nat (length (pre ++ [nd]))) by (rewrite app_length; cbn [length]; lia).
    replace (Z.of_nat (length (nd :: cut)) - 1) with (Z.of_nat (length cut)) by (cbn [length]; lia).
    replace (pre ++ nd :: cut) with ((pre ++ [nd]) ++ cut) by (rewrite <- app_assoc; reflexivity).
    eapply parts_stop; [exact IH|assumption|eassumption|assumption|lia|rewrite !app_length; cbn [length]; lia].
Qed.

Lemma visit_truncated m nodes missing g : repr_geom m 0 (nodes ++ missing) g -> wf_geom g -> missing <> [] ->
  (ends_in_rings nodes -> snd (trace (view_visit m nodes)) = Err EINVAL) /\
  (~ ends_in_rings nodes -> snd (trace (view_visit m nodes)) = UB).
Proof.
  intros Hr Hwf Hm. pose proof (all_stop m g Hwf _ _ _ Hr Hm [] (S (length nodes)) ltac:(lia)) as H. cbn [app length] in H.
  change (Z.of_nat 0) with 0 in H.
  assert (stops nodes (view_visit m nodes)) as Hs.
  { unfold view_visit. apply stops_emit. apply stops_bind. exact H. }
  destruct Hs as [(-> & H1)|(-> & H1)]; split; intros; try reflexivity; contradiction.
Qed.
