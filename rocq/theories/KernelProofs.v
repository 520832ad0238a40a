From Coq Require Import Sorting.Sorted.
From Verif Require Import Base BaseFacts TypesModel GeomSpec GeomFacts VisitorModel VisitorSpec VisitorFacts FloatModel FloatSpec FloatFacts BufferModel ArrowModel BitmapModel
  BitmapSpec BitmapProofs ArrayViewModel BuilderModel NativeSpec NativeVisitProofs WkbSpec WktGrammar WktReaderModel WktReaderSafety WktReaderProofs ArrayReaderModel SerialSpec ArrayReaderProofs
  KernelModel KernelSpec.
Local Open Scope Z_scope.

(** ** The coordinates in a delivery *)
Definition event_coords (e : event) : list coord := match e with ECoords _ cs => cs | _ => [] end.
Definition inner_event (e : event) : Prop := match e with EFeatStart | ENullFeat | EFeatEnd => False | _ => True end.
Definition delivers (cs : list coord) (evs : list event) : Prop := flat_map event_coords evs = cs /\ Forall inner_event evs.

Lemma delivers_app a b e1 e2 : delivers a e1 -> delivers b e2 -> delivers (a ++ b) (e1 ++ e2).
Proof. intros (<- & H1) (<- & H2). split; [apply flat_map_app|apply Forall_app; auto]. Qed.
Lemma delivers_skip e : event_coords e = [] -> inner_event e -> delivers [] [e].
Proof. intros H1 H2. split; [cbn; rewrite H1; reflexivity|constructor; auto]. Qed.
Lemma delivers_wrap e1 e2 cs evs : event_coords e1 = [] -> inner_event e1 -> event_coords e2 = [] -> inner_event e2 -> delivers cs evs ->
  delivers cs ([e1] ++ evs ++ [e2]).
Proof.
  intros. rewrite <- (app_nil_l cs). apply delivers_app; [apply delivers_skip; assumption|].
  rewrite <- (app_nil_r cs). apply delivers_app; [assumption|apply delivers_skip; assumption].
Qed.
Lemma seq_delivers d cs evs : seq_events d cs evs -> delivers cs evs.
Proof.
  induction 1 as [|b cs evs H (<- & IH)]; [split; constructor|]. split; [reflexivity|]. constructor; [exact I|exact IH].
Qed.
Lemma rings_deliver d rings evs : ring_events d rings evs -> delivers (concat rings) evs.
Proof.
  induction 1 as [|cs rings e1 e2 H1 H2 IH]; [split; constructor|]. cbn [concat].
  change (ERingStart :: e1 ++ [ERingEnd] ++ e2) with ([ERingStart] ++ e1 ++ ([ERingEnd] ++ e2)).
  rewrite 2 app_assoc, <- (app_assoc _ e1). apply delivers_app; [|exact IH].
  apply delivers_wrap; try reflexivity; try exact I. apply seq_delivers with d. exact H1.
Qed.
Lemma geom_delivers g : forall evs, geom_events g evs -> delivers (map snd (geom_coords g)) evs.
Proof.
  induction g as [d cs|d cs|d rings|k d parts IH] using geom_ind'; intros evs H; inversion H as [? ? e He|? ? e He|? ? e He|? ? ? e He]; subst; 
    apply delivers_wrap; try reflexivity; try exact I.
  - cbn [geom_coords]. rewrite map_map, map_id. apply seq_delivers with d. exact He.
  - cbn [geom_coords]. rewrite map_map, map_id. apply seq_delivers with d. exact He.
  - cbn [geom_coords]. rewrite map_map, map_id. apply rings_deliver with d. exact He.
  - rewrite geom_coords_coll. clear H. revert e He. induction IH as [|g parts Hg IH2 IHp]; intros e He; inversion He; subst; [split; constructor|].
    cbn [flat_map]. rewrite map_app. apply delivers_app; auto.
Qed.

(** ** Ranges *)
Lemma widen_app j a : forall r r1 b, widen j r a = Some r1 -> widen j r (a ++ b) = widen j r1 b.
Proof.
  induction a as [|c a IH]; intros r r1 b; cbn [widen app]; [intros [= ->]; reflexivity|].
  destruct (nth_error c j); [|discriminate]. apply IH.
Qed.
Lemma widen_total j cs : Forall (fun c : coord => (j < length c)%nat) cs -> forall r, exists r', widen j r cs = Some r'.
Proof.
  induction 1 as [|c cs Hc _ IH]; intros r; cbn [widen]; [eauto|].
  destruct (nth_error c j) eqn:E; [apply IH|]. apply nth_error_None in E. lia.
Qed.
Lemma widen_None j cs : forall r r', (widen j r cs = None <-> widen j r' cs = None).
Proof. induction cs as [|c cs IH]; intros r r'; cbn [widen]; [split; discriminate|]. destruct (nth_error c j); [apply IH|tauto]. Qed.

(** Order of doubles. *)
Lemma dlt_irr a : double_lt a a = false.
Proof. unfold double_lt. destruct (value64 a) as [| [|] |k]; cbn; try reflexivity. apply Z.ltb_irrefl. Qed.
Lemma value_lt_trans_neg a b c : b <> DNaN -> value_lt a b = false -> value_lt c b = true -> value_lt a c = false.
Proof.
  destruct a as [| [|] |i], b as [| [|] |j], c as [| [|] |k]; cbn; try congruence.
  rewrite Z.ltb_ge, Z.ltb_lt, Z.ltb_ge. lia.
Qed.
Lemma value_lt_nonnan a b : value_lt a b = true -> a <> DNaN /\ b <> DNaN.
Proof. destruct a as [| [|] |], b as [| [|] |]; cbn; try discriminate; split; discriminate. Qed.
Lemma value_lt_trans_neg' a b c : b <> DNaN -> value_lt b a = false -> value_lt b c = true -> value_lt c a = false.
Proof.
  destruct a as [| [|] |i], b as [| [|] |j], c as [| [|] |k]; cbn; try congruence.
  rewrite Z.ltb_ge, Z.ltb_lt, Z.ltb_ge. lia.
Qed.
Lemma is_nan_iff w : is_nan w = false <-> value64 w <> DNaN.
Proof. unfold is_nan. destruct (value64 w); split; congruence. Qed.

Definition range_of (ws : list N) (r : N * N) : Prop := least ws (fst r) /\ greatest ws (snd r).

Lemma least_step ws m v : least ws m -> least (ws ++ [v]) (if double_lt v m then v else m).
Proof.
  intros (H1 & H2 & H3). apply is_nan_iff in H2. unfold least. destruct (double_lt v m) eqn:E.
  - split; [right; apply in_or_app; right; left; reflexivity|].
    destruct (value_lt_nonnan _ _ E) as (Hv & _). split; [apply is_nan_iff; exact Hv|].
    apply Forall_app. split; [|constructor; [apply dlt_irr|constructor]].
    eapply Forall_impl; [|exact H3]. intros w Hw. cbn beta in Hw. unfold double_lt in *.
    eapply value_lt_trans_neg; [exact H2|exact Hw|exact E].
  - split; [destruct H1; [left; assumption|right; apply in_or_app; left; assumption]|]. split; [apply is_nan_iff; exact H2|].
    apply Forall_app. split; [exact H3|]. constructor; [exact E|constructor].
Qed.
Lemma greatest_step ws m v : greatest ws m -> greatest (ws ++ [v]) (if double_lt m v then v else m).
Proof.
  intros (H1 & H2 & H3). apply is_nan_iff in H2. unfold greatest. destruct (double_lt m v) eqn:E.
  - split; [right; apply in_or_app; right; left; reflexivity|].
    destruct (value_lt_nonnan _ _ E) as (_ & Hv). split; [apply is_nan_iff; exact Hv|].
    apply Forall_app. split; [|constructor; [apply dlt_irr|constructor]].
    eapply Forall_impl; [|exact H3]. intros w Hw. cbn beta in Hw. unfold double_lt in *.
    eapply value_lt_trans_neg'; [exact H2|exact Hw|exact E].
  - split; [destruct H1; [left; assumption|right; apply in_or_app; left; assumption]|]. split; [apply is_nan_iff; exact H2|].
    apply Forall_app. split; [exact H3|]. constructor; [exact E|constructor].
Qed.
Lemma widen_range j cs : forall ws r r', range_of ws r -> widen j r cs = Some r' -> range_of (ws ++ map (fun c => nth j c 0%N) cs) r'.
Proof.
  induction cs as [|c cs IH]; intros ws r r' Hr H; cbn [widen] in H.
  - injection H as <-. rewrite app_nil_r. exact Hr.
  - destruct (nth_error c j) as [v|] eqn:E; [|discriminate]. cbn [map].
    rewrite (nth_error_nth c j 0%N E).
    change (v :: map (fun c => nth j c 0%N) cs) with ([v] ++ map (fun c => nth j c 0%N) cs). rewrite app_assoc.
    eapply IH; [|exact H]. destruct Hr as (Hl & Hg). split; cbn [fst snd].
    + rewrite dlt_spec. apply least_step. exact Hl.
    + rewrite dgt_spec. apply greatest_step. exact Hg.
Qed.
Lemma range_empty : range_of [] (inf_word, neg_inf_word).
Proof. split; (split; [left; reflexivity|split; [reflexivity|constructor]]). Qed.
Lemma widen_bound j cs : Forall (Forall (fun w => (w < 2 ^ 64)%N)) cs -> forall r r', (fst r < 2 ^ 64)%N -> (snd r < 2 ^ 64)%N -> widen j r cs = Some r' ->
  (fst r' < 2 ^ 64)%N /\ (snd r' < 2 ^ 64)%N.
Proof.
  induction 1 as [|c cs Hc _ IH]; intros r r' H1 H2; cbn [widen]; [intros [= <-]; auto|].
  destruct (nth_error c j) as [v|] eqn:E; [|discriminate]. apply IH; cbn [fst snd].
  - destruct (dlt _ _); [|exact H1]. apply nth_error_In in E. rewrite Forall_forall in Hc. auto.
  - destruct (dgt _ _); [|exact H2]. apply nth_error_In in E. rewrite Forall_forall in Hc. auto.
Qed.

(** ** Pushing a batch *)
Lemma window_all {A} (l : list A) : window l 0 (length l) = l.
Proof. unfold window. cbn [skipn]. apply firstn_all. Qed.
Lemma window_one {A} (l : list A) i x : nth_error l i = Some x -> window l i 1 = [x].
Proof. intros H. unfold window. rewrite (skipn_at _ _ _ H). reflexivity. Qed.

Section Push.
  Context {St Out : Type}.
  Variable k : kernel St Out.
  Variable parse : bytes -> option N.
  Hypothesis Hp : number_parser parse.

  Lemma push_whole t r a fs : kn_by_feature k = false -> features_array parse t a fs -> reader_history t r ->
    exists r', reader_history t r' /\ forall st sw, exists evs, features_events fs evs /\
      forall s, push_batch k parse st sw r s a =
        match feed (kn_visitor k) s evs with
        | None => KUB
        | Some (s', c) => if c =? 0 then kfinish_push k r' s' else KRet r' s' c None
        end.
  Proof.
    intros Hk Ha Hr. destruct (reader_ok parse t a fs r Hp Ha Hr) as (r' & Hset & Hlen & Hvis).
    exists r'. split; [eapply rh_set; eassumption|]. intros st sw.
    destruct (Hvis st sw 0%nat (length fs) ltac:(lia)) as (evs & Ht & He). rewrite window_all in He.
    exists evs. split; [exact He|]. intros s. unfold push_batch. rewrite Hset, Hk, Hlen.
    change (Z.of_nat 0) with 0 in Ht. rewrite (run_lawful _ _ (lawful_reader parse st sw r' 0 (Z.of_nat (length fs)))), Ht. cbn [fst snd].
    destruct (feed _ _ _) as [(s', c)|]; [|reflexivity]. destruct (c =? 0); reflexivity.
  Qed.

  (** Feature by feature. *)
  Fixpoint feed_features (v : visitor St) (s : St) (evss : list (list event)) : option (St * Z) :=
    match evss with
    | [] => Some (s, 0)
    | evs :: r =>
        match
          match feed v s evs with
          | Some (s, c) => if c =? EAGAIN then match v s EFeatEnd with VRet s c => Some (s, c) | VUB => None end else Some (s, c)
          | None => None
          end
        with
        | Some (s', c) => if c =? 0 then feed_features v s' r else Some (s', c)
        | None => None
        end
    end.

  Lemma push_each t r a fs : kn_by_feature k = true -> features_array parse t a fs -> reader_history t r ->
    exists r', reader_history t r' /\ forall st sw, exists evss, Forall2 feature_events fs evss /\
      forall s, push_batch k parse st sw r s a =
        match feed_features (kn_visitor k) s evss with
        | None => KUB
        | Some (s', c) => if c =? 0 then kfinish_push k r' s' else KRet r' s' c None
        end.
  Proof.
    intros Hk Ha Hr. destruct (reader_ok parse t a fs r Hp Ha Hr) as (r' & Hset & Hlen & Hvis).
    exists r'. split; [eapply rh_set; eassumption|]. intros st sw. unfold push_batch. rewrite Hset, Hk, Hlen, Nat2Z.id.
    assert (forall n i, (i + n = length fs)%nat -> exists evss, Forall2 feature_events (skipn i fs) evss /\
      forall s, push_features k parse st sw n (Z.of_nat i) r' s =
        match feed_features (kn_visitor k) s evss with
        | None => KUB
        | Some (s', c) => if c =? 0 then kfinish_push k r' s' else KRet r' s' c None
        end) as H.
    { induction n as [|n IH]; intros i Hi.
      - exists []. rewrite skipn_all2 by lia. split; [constructor|]. intros s. reflexivity.
      - destruct (IH (S i) ltac:(lia)) as (evss & Hf & Hpush).
        destruct (nth_error fs i) as [f|] eqn:Ef; [|apply nth_error_None in Ef; lia].
        destruct (Hvis st sw i 1%nat ltac:(lia)) as (evs & Ht & He). rewrite (window_one _ _ _ Ef) in He.
        inversion He as [|? ? e1 e2 He1 He2]; subst. inversion He2; subst. rewrite app_nil_r in Ht.
        exists (e1 :: evss). rewrite (skipn_at _ _ _ Ef). split; [constructor; assumption|]. intros s. cbn [push_features feed_features].
        change (Z.of_nat 1) with 1 in Ht. rewrite (run_lawful _ _ (lawful_reader parse st sw r' (Z.of_nat i) 1)), Ht. cbn [fst snd].
        rewrite Z.add_1_r, <- Nat2Z.inj_succ.
        destruct (feed _ _ _) as [(s', c)|]; [|reflexivity]. destruct (Z.eqb_spec c 0) as [->|Hc].
        + change (0 =? EAGAIN) with false. cbn [Z.eqb]. apply Hpush.
        + destruct (Z.eqb_spec c EAGAIN) as [->|Hc2].
          * destruct (kn_visitor k s' EFeatEnd) as [s'' c''|]; [|reflexivity]. destruct (c'' =? 0) eqn:Ec; [apply Hpush|]. rewrite Ec. reflexivity.
          * rewrite (proj2 (Z.eqb_neq c 0) Hc), (proj2 (Z.eqb_neq c 0) Hc). reflexivity. }
    destruct (H (length fs) 0%nat eq_refl) as (evss & Hf & Hpush). exists evss. split; [exact Hf|exact Hpush].
  Qed.
End Push.

(** ** unique_geometry_types_agg *)
Definition gmark (s : gtypes) : gtypes :=
  {| gs_type := gs_type s; gs_dims := gs_dims s; gs_mask := N.lor (gs_mask s) (N.shiftl 1 (gs_dims s * 8 + gs_type s)) |}.

Lemma gtypes_inner evs : forall cs s, delivers cs evs -> (gs_type s <> 0)%N -> (gs_dims s * 8 + gs_type s < 64)%N ->
  feed gtypes_visitor s evs = Some (match cs with [] => (s, 0) | _ => (gmark s, EAGAIN) end).
Proof.
  induction evs as [|e evs IH]; intros cs s (Hc & Hi) Ht Hs.
  - cbn in Hc. subst cs. reflexivity.
  - inversion Hi as [|? ? He Hi']; subst. cbn [feed flat_map].
    assert (feed gtypes_visitor s evs = Some (match flat_map event_coords evs with [] => (s, 0) | _ => (gmark s, EAGAIN) end)) as Hrec
      by (apply IH; [split; [reflexivity|exact Hi']|exact Ht|exact Hs]).
    destruct e as [| |ty dm| |n [|c cs]| | |]; try contradiction; cbn [gtypes_visitor event_coords app]; try exact Hrec.
    + destruct (N.eqb_spec (gs_type s) 0); [contradiction|]. cbn [Z.eqb]. exact Hrec.
    + destruct (N.leb_spec 64 (gs_dims s * 8 + gs_type s)); [lia|]. change (EAGAIN =? 0) with false. reflexivity.
Qed.

Definition nonempty_feature (f : option geom) : bool :=
  match f with Some g => match geom_coords g with [] => false | _ => true end | None => false end.
Definition type_bit (g : geom) : N := (dimN (geom_dim g) * 8 + geom_code g)%N.
Definition masked (m : N) (f : option geom) : N :=
  match f with Some g => if nonempty_feature f then N.lor m (N.shiftl 1 (type_bit g)) else m | None => m end.

Lemma type_bit_bound g : (9 <= type_bit g < 40)%N.
Proof. unfold type_bit. destruct g as [d cs|d cs|d rings|c d parts]; destruct d; try destruct c; cbn; lia. Qed.

Lemma gtypes_feature s f evs : feature_events f evs ->
  exists s', feed_features gtypes_visitor s [evs] = Some (s', 0) /\ gs_mask s' = masked (gs_mask s) f.
Proof.
  intros H. cbn [feed_features]. inversion H as [|g e He]; subst.
  - cbn [feed gtypes_visitor Z.eqb]. change (0 =? EAGAIN) with false. cbn [Z.eqb]. eexists; split; reflexivity.
  - pose proof (geom_delivers g e He) as Hd. pose proof (type_bit_bound g) as Hb.
    assert (exists e', e = EGeomStart (geom_code g) (dimN (geom_dim g)) :: e' /\ delivers (map snd (geom_coords g)) e') as (e' & -> & Hd').
    { assert (exists e', e = EGeomStart (geom_code g) (dimN (geom_dim g)) :: e') as (e' & ->) by (inversion He; subst; eexists; reflexivity).
      exists e'. split; [reflexivity|]. destruct Hd as (H1 & H2). split; [exact H1|]. inversion H2; assumption. }
    cbn [app feed gtypes_visitor Z.eqb gs_type N.eqb gs_mask gs_dims].
    assert (delivers (map snd (geom_coords g)) e') as Hd2 by exact Hd'.
    set (s1 := {| gs_type := geom_code g; gs_dims := dimN (geom_dim g); gs_mask := gs_mask s |}).
    assert (gs_type s1 <> 0)%N as Ht by (cbn; destruct g as [| | |c]; try destruct c; cbn; lia).
    assert (gs_dims s1 * 8 + gs_type s1 < 64)%N as Hs by (cbn; unfold type_bit in Hb; lia).
    pose proof (gtypes_inner e' _ s1 Hd2 Ht Hs) as Hf. unfold masked, nonempty_feature.
    destruct (geom_coords g) as [|c cs] eqn:Eg; cbn [map] in Hf.
    + change (0 =? 0) with true; change (0 =? 0)%N with true; cbn iota. rewrite (feed_app_ok _ _ _ _ _ Hf). cbn [feed gtypes_visitor Z.eqb]. change (0 =? EAGAIN) with false. cbn [Z.eqb]. eexists; split; reflexivity.
    + change (0 =? 0) with true; change (0 =? 0)%N with true; cbn iota. rewrite feed_app, Hf. change (EAGAIN =? 0) with false. cbn iota. change (EAGAIN =? EAGAIN) with true. cbn [gtypes_visitor]. cbn [Z.eqb].
      eexists; split; reflexivity.
Qed.

Lemma gtypes_features fs : forall evss s, Forall2 feature_events fs evss ->
  exists s', feed_features gtypes_visitor s evss = Some (s', 0) /\ gs_mask s' = fold_left masked fs (gs_mask s).
Proof.
  induction fs as [|f fs IH]; intros evss s H; inversion H as [|? evs ? r Hf Hr]; subst.
  - exists s. split; reflexivity.
  - destruct (gtypes_feature s f evs Hf) as (s1 & H1 & Hm). destruct (IH r s1 Hr) as (s2 & H2 & Hm2).
    exists s2. cbn [feed_features fold_left] in *. rewrite <- Hm. split; [|exact Hm2].
    destruct (feed gtypes_visitor s evs) as [(s0, c)|]; [|discriminate].
    destruct (c =? EAGAIN).
    + destruct (gtypes_visitor s0 EFeatEnd) as [s3 c3|]; [|discriminate]. destruct (c3 =? 0) eqn:Ec; [|injection H1 as _ ->; discriminate Ec].
      injection H1 as ->. exact H2.
    + destruct (c =? 0) eqn:Ec; [|injection H1 as _ ->; discriminate Ec]. injection H1 as ->. exact H2.
Qed.

Lemma masked_bits fs : forall m i, N.testbit (fold_left masked fs m) i = true <->
  N.testbit m i = true \/ exists g, In (Some g) fs /\ geom_coords g <> [] /\ type_bit g = i.
Proof.
  induction fs as [|f fs IH]; intros m i; cbn [fold_left].
  - split; [auto|]. intros [H|(g & [] & _)]. exact H.
  - rewrite IH. unfold masked, nonempty_feature. destruct f as [g|].
    + destruct (geom_coords g) as [|c cs] eqn:Eg.
      * split; intros [H|(g' & H1 & H2)]; auto; right; exists g'; (split; [|exact H2]).
        { right; exact H1. }
        { destruct H1 as [[= ->]|H1]; [destruct H2; contradiction|exact H1]. }
      * rewrite N.lor_spec, N.shiftl_1_l, N.pow2_bits_eqb, Bool.orb_true_iff, N.eqb_eq. split.
        { intros [[H|H]|(g' & H1 & H2)]; [left; exact H|right|right].
          - exists g. split; [left; reflexivity|]. split; [congruence|exact H].
          - exists g'. split; [right; exact H1|exact H2]. }
        { intros [H|(g' & H1 & H2 & H3)]; [left; left; exact H|]. destruct H1 as [[= ->]|H1]; [left; right; exact H3|].
          right. exists g'. auto. }
    + split; intros [H|(g' & H1 & H2)]; auto; right; exists g'; (split; [|exact H2]); [right; exact H1|]. destruct H1; [discriminate|assumption].
Qed.

Lemma push_types parse t st sw : number_parser parse -> forall batches fss j r s, reader_history t r ->
  Forall2 (features_array parse t) batches fss ->
  exists r' s' outs, push_batches unique_geometry_types_agg parse st sw j r s batches = Ok (r', s', outs) /\
    gs_mask s' = fold_left masked (concat fss) (gs_mask s) /\ Forall (fun o => o = None) outs.
Proof.
  intros Hp. induction batches as [|a batches IH]; intros fss j r s Hr H; inversion H as [|? fs ? fss' Ha Hrest]; subst.
  - exists r, s, []. repeat split; constructor.
  - destruct (push_each unique_geometry_types_agg parse Hp t r a fs eq_refl Ha Hr) as (r1 & Hr1 & Hpush).
    destruct (Hpush (st j) (sw j)) as (evss & He & Hs). cbn [push_batches]. rewrite (Hs s). cbn [kn_visitor unique_geometry_types_agg].
    destruct (gtypes_features fs evss s He) as (s1 & E1 & Hm). rewrite E1. change (0 =? 0) with true. cbn iota.
    change (kfinish_push unique_geometry_types_agg r1 s1) with (@KRet gtypes arrow_array r1 s1 0 None). cbn iota. destruct (IH fss' (S j) r1 s1 Hr1 Hrest) as (r2 & s2 & outs & E2 & Hm2 & Ho). rewrite E2. cbn [obind].
    exists r2, s2, (None :: outs). split; [reflexivity|]. split; [|constructor; [reflexivity|exact Ho]].
    cbn [concat]. rewrite fold_left_app, <- Hm. exact Hm2.
Qed.
