From Verif Require Import Base BaseFacts TypesModel GeomSpec GeomFacts WkbSpec NodesModel NodesSpec VisitorModel VisitorSpec
  VisitorFacts GeomVisitModel GeomVisitProofs BufferModel BufferFacts ArraySpec WkbWriterModel WkbWriterProofs WkbWriterSpec
  WkbWriterHistory.
Local Open Scope Z_scope.

(** ** Memory safety of properly nested calls *)

(** What the writer's arrays hold at level [i] while frame [f] is open there. *)
Definition has_slot (base i : Z) (s : wst) : Prop :=
  exists p, aget (w_pos s) i = Some p /\ base <= p /\ p + 4 <= b_size (w_values s).
Definition ready (base i : Z) (f : frame) (s : wst) : Prop :=
  (exists n, aget (w_size s) i = Some n) /\
  match f with
  | FFeat => True
  | FGeom => exists t, aget (w_gt s) i = Some t /\ (exists d, aget (w_dims s) i = Some d) /\ (t <> 1%N -> has_slot base i s)
  | FRing => has_slot base i s
  end.
Fixpoint all_ready (base : Z) (st : list frame) (s : wst) : Prop :=
  match st with
  | [] => True
  | f :: r => ready base (Z.of_nat (length r)) f s /\ all_ready base r s
  end.
Record inv (base : Z) (st : list frame) (s : wst) : Prop := {
  iv_base : 0 <= base <= b_size (w_values s);
  iv_level : w_level s = Z.of_nat (length st) - 1;
  iv_null : exists b, w_is_null s = Some b;
  iv_ready : all_ready base st s
}.

(** How a call inside a feature may change the writer. *)
Record moved (base : Z) (s s' : wst) : Prop := {
  mv_data : firstn (Z.to_nat base) (data s') = firstn (Z.to_nat base) (data s);
  mv_size : b_size (w_values s) <= b_size (w_values s');
  mv_offsets : w_offsets s' = w_offsets s;
  mv_length : w_length s' = w_length s;
  mv_validity : w_validity s' = w_validity s \/ w_validity s' = w_validity (push_null s) \/
                w_validity s' = w_validity (push_valid s)
}.

Lemma moved_refl base s : moved base s s.
Proof. split; auto; lia. Qed.

Lemma ready_mono base i f s s' :
  aget (w_gt s') i = aget (w_gt s) i -> aget (w_dims s') i = aget (w_dims s) i -> aget (w_pos s') i = aget (w_pos s) i ->
  (exists n, aget (w_size s') i = Some n) -> b_size (w_values s) <= b_size (w_values s') ->
  ready base i f s -> ready base i f s'.
Proof.
  intros G D P N S [_ H]. split; [exact N|].
  assert (has_slot base i s -> has_slot base i s') as Hs.
  { intros (p & Hp & H1 & H2). exists p. rewrite P. repeat split; try assumption. lia. }
  destruct f; [exact I| |auto]. destruct H as (t & Ht & (d & Hd) & Hp). exists t. rewrite G, D.
  split; [exact Ht|]. split; [eauto|]. auto.
Qed.

Lemma all_ready_mono base st s s' :
  (forall i, 0 <= i < Z.of_nat (length st) -> aget (w_gt s') i = aget (w_gt s) i /\ aget (w_dims s') i = aget (w_dims s) i /\
     aget (w_pos s') i = aget (w_pos s) i /\
     ((exists n, aget (w_size s) i = Some n) -> exists n, aget (w_size s') i = Some n)) ->
  b_size (w_values s) <= b_size (w_values s') -> all_ready base st s -> all_ready base st s'.
Proof.
  induction st as [|f st IH]; intros H S R; [exact I|]. destruct R as [R1 R2]. cbn [length] in H. split.
  - destruct (H (Z.of_nat (length st))) as (G & D & P & N); [lia|]. eapply ready_mono; eauto. apply N. apply R1.
  - apply IH; [|exact S|exact R2]. intros i Hi. apply H. lia.
Qed.

Lemma all_ready_eq base st s s' : w_gt s' = w_gt s -> w_dims s' = w_dims s -> w_pos s' = w_pos s -> w_size s' = w_size s ->
  b_size (w_values s) <= b_size (w_values s') -> all_ready base st s -> all_ready base st s'.
Proof. intros G D P N S. apply all_ready_mono; [|exact S]. intros i _. rewrite G, D, P, N. auto. Qed.

Lemma firstn_append base s bs : 0 <= base <= b_size (w_values s) ->
  firstn (Z.to_nat base) (data s ++ bs) = firstn (Z.to_nat base) (data s).
Proof. intros H. unfold b_size in H. fold (data s) in H. rewrite firstn_app. replace (Z.to_nat base - length (data s))%nat with 0%nat by lia.
  apply app_nil_r. Qed.

Lemma app_moved base s s' bs : 0 <= base <= b_size (w_values s) -> same_book s s' -> data s' = data s ++ bs -> moved base s s'.
Proof.
  intros Hb [Bv Bo Bl Bn Bi] D. split; auto.
  - rewrite D. apply firstn_append. exact Hb.
  - unfold b_size. fold (data s) (data s'). rewrite D, app_length. lia.
Qed.

Lemma opened_inv base st s s' L x h f : inv base st s -> w_level s = L -> opened s s' L x h ->
  ready base (L + 1) f s' -> inv base (f :: st) s' /\ moved base s s'.
Proof.
  intros [Hb Hlev (b & Hn) R] Hl O Rf. pose proof (app_moved base s s' h Hb (op_book _ _ _ _ _ O) (op_data _ _ _ _ _ O)) as M.
  pose proof (mv_size _ _ _ M) as Hsz.
  split; [|exact M]. split.
  - lia.
  - rewrite (op_level _ _ _ _ _ O). cbn [length]. lia.
  - exists b. rewrite (sb_is_null _ _ (op_book _ _ _ _ _ O)). exact Hn.
  - split; [replace (Z.of_nat (length st)) with (L + 1) by lia; exact Rf|].
    eapply all_ready_mono; [|exact Hsz|exact R]. intros i Hi.
    rewrite (op_gt _ _ _ _ _ O), (op_dims _ _ _ _ _ O), (op_pos _ _ _ _ _ O) by lia. repeat split.
    intros Hx. destruct (Z.eq_dec i L) as [->|]; [rewrite (op_count _ _ _ _ _ O); eauto|].
    rewrite (op_size _ _ _ _ _ O) by lia. exact Hx.
Qed.

Lemma patch_keep l p new l' base : patch l p new = Some l' -> 0 <= base <= p ->
  firstn (Z.to_nat base) l' = firstn (Z.to_nat base) l /\ length l' = length l.
Proof.
  intros H Hb. split; [|apply (patch_some _ _ _ _ H)]. unfold patch in H.
  destruct ((0 <=? p) && (p + Z.of_nat (length new) <=? Z.of_nat (length l)))%bool eqn:E; [|discriminate].
  injection H as <-. apply andb_true_iff in E as [E1 E2]. apply Z.leb_le in E1, E2.
  rewrite firstn_app, firstn_firstn, firstn_length. replace (Nat.min (Z.to_nat base) (Z.to_nat p)) with (Z.to_nat base) by lia.
  replace (Z.to_nat base - Nat.min (Z.to_nat p) (length l))%nat with 0%nat by lia. apply app_nil_r.
Qed.

Lemma patch_size_safe base s i n : w_level s = i -> 0 <= base -> has_slot base i s -> aget (w_size s) i = Some n ->
  exists b, patch_size s = Some (set_values s {| b_data := b; b_cap := b_cap (w_values s) |}) /\
    firstn (Z.to_nat base) b = firstn (Z.to_nat base) (data s) /\ length b = length (data s).
Proof.
  intros Hl Hb (p & Hp & H1 & H2) Hn. unfold patch_size. rewrite Hl, Hp, Hn.
  destruct (patch_in (b_data (w_values s)) p (le_bytes 4 n)) as [b Eb]; [lia|rewrite le_bytes_length; unfold b_size in H2; lia|].
  rewrite Eb. exists b. split; [reflexivity|]. apply (patch_keep _ _ _ _ _ Eb). lia.
Qed.

Lemma close_inv base f st s b : inv base (f :: st) s -> firstn (Z.to_nat base) b = firstn (Z.to_nat base) (data s) ->
  length b = length (data s) ->
  let s' := set_level (set_values s {| b_data := b; b_cap := b_cap (w_values s) |}) (w_level s - 1) in
  inv base st s' /\ moved base s s'.
Proof.
  intros [Hb Hlev Hn [_ R]] Hf Hlen. cbn zeta.
  assert (b_size (w_values s) = Z.of_nat (length b)) as Hsz by (rewrite Hlen; reflexivity).
  split.
  - split; cbn.
    + unfold b_size at 1; cbn. lia.
    + cbn [length] in Hlev. lia.
    + exact Hn.
    + eapply all_ready_eq; [..|exact R]; try reflexivity. cbn. unfold b_size at 2; cbn. lia.
  - split; cbn; auto. unfold b_size at 2; cbn. lia.
Qed.

Lemma step_safe base st e st' s : ok_stack st -> st <> [] -> inv base st s -> nest st e = Some st' ->
  exists s' c, wkb_step s e = VRet s' c /\ moved base s s' /\ (c = 0 -> st' <> [] -> inv base st' s').
Proof.
  intros Hst Hne Hi E. pose proof Hi as [Hb Hlev (nb & Hnull) R].
  assert (forall st0, st = st0 -> w_level s = Z.of_nat (length st0) - 1) as HL by (intros ? <-; exact Hlev).
  destruct e as [| |t d| |nv cs| | |]; cbn [wkb_step].
  - destruct st; [contradiction|]. cbn in E. discriminate.
  - (* null_feat *)
    destruct st as [|[] []]; cbn in E; try discriminate. injection E as <-.
    eexists; exists 0. split; [reflexivity|]. split.
    + split; cbn; auto; lia.
    + intros _ _. split; cbn; try assumption; eauto.
  - (* geom_start *)
    unfold geom_start_wkb. destruct (wkb_check_level s) eqn:C; cbn [negb];
      [|exists s, EINVAL; split; [reflexivity|]; split; [apply moved_refl|discriminate]].
    assert (0 <= w_level s <= 30) as HL30 by (unfold wkb_check_level in C; apply andb_true_iff in C as [C1 C2]; lia).
    destruct st as [|f st]; [contradiction|]. destruct R as [[[x Hx] _] R].
    replace (Z.of_nat (length st)) with (w_level s) in Hx by (rewrite Hlev; cbn [length]; lia).
    destruct (geom_start_ok s (w_level s) x t d eq_refl HL30 Hx) as (s' & E' & O & Gt & Gd & Gp).
    cbn [wkb_step] in E'. unfold geom_start_wkb in E'. rewrite C in E'. cbn [negb] in E'.
    exists s', 0. split; [exact E'|].
    assert (st' = FGeom :: f :: st) as -> by (destruct f; cbn in E; congruence).
    destruct (opened_inv base (f :: st) s s' (w_level s) x _ FGeom Hi eq_refl O) as [I' M].
    { split; [exists 0%N; apply O|]. exists t. split; [exact Gt|]. split; [eauto|]. intros Ht. eexists. split; [apply Gp; exact Ht|].
      unfold b_size in *. fold (data s) in Hb. fold (data s'). rewrite (op_data _ _ _ _ _ O), !app_length.
      destruct (N.eqb_spec t 1); [contradiction|]. rewrite !le_bytes_length. cbn [length]. lia. }
    split; [exact M|]. intros _ _. exact I'.
  - (* ring_start *)
    unfold ring_start_wkb. destruct (wkb_check_level s) eqn:C; cbn [negb];
      [|exists s, EINVAL; split; [reflexivity|]; split; [apply moved_refl|discriminate]].
    assert (0 <= w_level s <= 30) as HL30 by (unfold wkb_check_level in C; apply andb_true_iff in C as [C1 C2]; lia).
    destruct st as [|f st]; [contradiction|]. destruct R as [[[x Hx] _] R].
    replace (Z.of_nat (length st)) with (w_level s) in Hx by (rewrite Hlev; cbn [length]; lia).
    destruct (ring_start_ok s (w_level s) x eq_refl HL30 Hx) as (s' & E' & O & Gt & Gp).
    cbn [wkb_step] in E'. unfold ring_start_wkb in E'. rewrite C in E'. cbn [negb] in E'.
    exists s', 0. split; [exact E'|].
    assert (st' = FRing :: f :: st) as -> by (destruct f; cbn in E; congruence).
    destruct (opened_inv base (f :: st) s s' (w_level s) x _ FRing Hi eq_refl O) as [I' M].
    { split; [exists 0%N; apply O|]. eexists. split; [apply Gp|].
      unfold b_size in *. fold (data s) in Hb. fold (data s'). rewrite (op_data _ _ _ _ _ O), !app_length.
      rewrite !le_bytes_length. lia. }
    split; [exact M|]. intros _ _. exact I'.
  - (* coords *)
    unfold coords_wkb. destruct (wkb_check_level s) eqn:C; cbn [negb];
      [|exists s, EINVAL; split; [reflexivity|]; split; [apply moved_refl|discriminate]].
    assert (0 <= w_level s <= 30) as HL30 by (unfold wkb_check_level in C; apply andb_true_iff in C as [C1 C2]; lia).
    destruct st as [|f st]; [contradiction|]. assert (st' = f :: st) as -> by (destruct f; cbn in E; congruence).
    pose proof R as [[[x Hx] _] _].
    replace (Z.of_nat (length st)) with (w_level s) in Hx by (rewrite Hlev; cbn [length]; lia).
    destruct (bump_size_ok s (w_level s) x (wrap32 (N.of_nat (length cs))) eq_refl HL30 Hx) as (a & -> & Ha).
    eexists; exists 0. split; [reflexivity|].
    match goal with |- moved base s ?s' /\ _ => assert (moved base s s') as M; [apply (app_moved base s s' (flat_map (flat_map (le_bytes 8)) cs) Hb); [split; reflexivity|apply buf_append_data]|] end.
    split; [exact M|]. intros _ _. pose proof (mv_size _ _ _ M) as Hsz.
    split; [lia|exact Hlev|eauto|].
    eapply all_ready_mono; [|exact Hsz|exact R]. intros i Hi0. cbn [append_bytes set_values set_size w_gt w_dims w_pos w_size].
    repeat split. intros Hx0. rewrite Ha. destruct (i =? w_level s); eauto.
  - (* ring_end *)
    unfold ring_end_wkb. destruct (wkb_check_level s) eqn:C; cbn [negb];
      [|exists s, EINVAL; split; [reflexivity|]; split; [apply moved_refl|discriminate]].
    destruct (b_cap (w_values s) =? 0); [exists s, EINVAL; split; [reflexivity|]; split; [apply moved_refl|discriminate]|].
    destruct st as [|[] st]; cbn in E; try discriminate. injection E as <-.
    pose proof R as [[[x Hx] Hslot] _].
    assert (w_level s = Z.of_nat (length st)) as Hl by (rewrite Hlev; cbn [length]; lia). rewrite <- Hl in Hx, Hslot.
    destruct (patch_size_safe base s (w_level s) x eq_refl ltac:(lia) Hslot Hx) as (b & -> & Hf & Hlen). cbn [vor_ub].
    eexists; exists 0. split; [reflexivity|]. destruct (close_inv base FRing st s b Hi Hf Hlen) as [I' M]. auto.
  - (* geom_end *)
    unfold geom_end_wkb. destruct (wkb_check_level s) eqn:C; cbn [negb];
      [|exists s, EINVAL; split; [reflexivity|]; split; [apply moved_refl|discriminate]].
    destruct (b_cap (w_values s) =? 0); [exists s, EINVAL; split; [reflexivity|]; split; [apply moved_refl|discriminate]|].
    destruct st as [|[] st]; cbn in E; try discriminate. injection E as <-.
    pose proof R as [[[x Hx] (t & Ht & (d & Hd) & Hslot)] R'].
    assert (w_level s = Z.of_nat (length st)) as Hl by (rewrite Hlev; cbn [length]; lia). rewrite <- Hl in Hx, Hslot, Ht, Hd.
    rewrite Ht. cbn [vor_ub]. destruct (N.eqb_spec t 1) as [->|Ht1]; cbn [negb].
    + rewrite Hx. cbn [vor_ub].
      assert (forall bs, moved base s (set_level (append_bytes s bs) (w_level s - 1)) /\
                inv base st (set_level (append_bytes s bs) (w_level s - 1))) as Happ.
      { intros bs. assert (moved base s (set_level (append_bytes s bs) (w_level s - 1))) as M
          by (apply (app_moved base s _ bs Hb); [split; reflexivity|apply buf_append_data]).
        split; [exact M|]. pose proof (mv_size _ _ _ M) as Hsz. split; [lia|cbn; lia|eauto|].
        eapply all_ready_eq; [..|exact R']; try reflexivity. exact Hsz. }
      destruct (N.eqb x 0).
      * rewrite Hd. cbn [vor_ub].
        destruct (N.eqb d 1); [eexists; exists 0; split; [reflexivity|]; split; [apply Happ|intros _ _; apply Happ]|].
        destruct (N.eqb d 2 || N.eqb d 3)%bool; [eexists; exists 0; split; [reflexivity|]; split; [apply Happ|intros _ _; apply Happ]|].
        destruct (N.eqb d 4); [eexists; exists 0; split; [reflexivity|]; split; [apply Happ|intros _ _; apply Happ]|].
        exists s, EINVAL; split; [reflexivity|]; split; [apply moved_refl|discriminate].
      * eexists; exists 0. split; [reflexivity|]. split; [split; cbn; auto; lia|]. intros _ _.
        split; cbn; [exact Hb|lia|eauto|]. eapply all_ready_eq; [..|exact R']; try reflexivity.
    + destruct (patch_size_safe base s (w_level s) x eq_refl ltac:(lia) (Hslot Ht1) Hx) as (b & -> & Hf & Hlen). cbn [vor_ub].
      eexists; exists 0. split; [reflexivity|]. destruct (close_inv base FGeom st s b Hi Hf Hlen) as [I' M]. auto.
  - (* feat_end *)
    unfold feat_end_wkb. rewrite Hnull. cbn [vor_ub].
    destruct Hst as [| |f st Hf Hs|st Hs]; cbn in E; try discriminate. injection E as <-.
    destruct nb; (eexists; exists 0; split; [reflexivity|]; split; [|congruence]).
    + split; cbn; auto; lia.
    + unfold push_valid. destruct (w_validity s) as [bits|] eqn:Ev; split; cbn; auto; try lia.
      right. right. unfold push_valid. rewrite Ev. reflexivity.
Qed.

(** The first call of a feature. *)
Lemma start_safe s : exists s' c, wkb_step s EFeatStart = VRet s' c /\
  w_values s' = w_values s /\ w_validity s' = w_validity s /\ w_length s' = w_length s + 1 /\
  ((c = 0 /\ w_offsets s' = w_offsets s ++ [to_int32 (b_size (w_values s))] /\ inv (b_size (w_values s)) [FFeat] s') \/
   (c = EOVERFLOW /\ w_offsets s' = w_offsets s)).
Proof.
  cbn [wkb_step]. unfold feat_start_wkb.
  destruct (aset_spec (w_size s) 0 0%N) as (a & -> & Ha); [lia|]. cbn [vor_ub].
  cbn [set_is_null set_book set_size set_level w_values w_offsets].
  destruct (Z.ltb_spec 2147483647 (b_size (w_values s))).
  - eexists; exists EOVERFLOW. split; [reflexivity|]. cbn. repeat split. right. split; reflexivity.
  - eexists; exists 0. split; [reflexivity|]. cbn. repeat split. left. repeat split; cbn; eauto.
    + unfold b_size. lia.
    + lia.
    + exists 0%N. rewrite Ha. reflexivity.
Qed.

(** Both situations at once: between features, and inside one. *)
Definition sinv (st : list frame) (s : wst) : Prop := st <> [] -> exists base, inv base st s.

Lemma feed_safe evs : forall st s, ok_stack st -> sinv st s -> (exists st', nest_all st evs = Some st') ->
  feed wkb_step s evs <> None.
Proof.
  induction evs as [|e evs IH]; intros st s Hst Hi [st' E]; cbn [feed]; [discriminate|].
  cbn [nest_all] in E. destruct (nest st e) as [st1|] eqn:E1; [|discriminate].
  pose proof (nest_ok_stack st e st1 Hst E1) as Hst1.
  destruct st as [|f st].
  - destruct e; cbn in E1; try discriminate. injection E1 as <-.
    destruct (start_safe s) as (s1 & c & -> & _ & _ & _ & [(-> & _ & I1)|(-> & _)]); [|discriminate].
    change (0 =? 0) with true. cbv iota. apply (IH [FFeat]); [exact Hst1|intros _; eauto|eauto].
  - destruct Hi as [base Hi]; [discriminate|].
    destruct (step_safe base (f :: st) e st1 s Hst ltac:(discriminate) Hi E1) as (s1 & c & -> & M & I1).
    destruct (Z.eqb_spec c 0) as [->|]; [|discriminate].
    apply (IH st1); [exact Hst1|intros Hne; exists base; apply I1; [reflexivity|exact Hne]|eauto].
Qed.

Lemma wkb_nested_safe s evs : nested_prefix evs -> feed wkb_step s evs <> None.
Proof.
  intros [rest H]. unfold well_nested in H. rewrite nest_all_app in H.
  destruct (nest_all [] evs) as [st|] eqn:E; [|discriminate].
  apply (feed_safe evs []); [constructor|congruence|eauto].
Qed.

(** ** Earlier elements survive whatever happens later *)

Record kept (els : list (option bytes)) (s : wst) : Prop := {
  kp_data : exists more, data s = concat (map bytes_of els) ++ more;
  kp_offsets : (w_offsets s = map to_int32 (starts 0 els) /\ data s = concat (map bytes_of els)) \/
               (exists r, w_offsets s = map to_int32 (starts 0 els) ++ to_int32 (total els) :: r);
  kp_length : Z.of_nat (length els) <= w_length s;
  kp_validity : match w_validity s with
                | None => forallb valid_of els = true
                | Some bits => firstn (length els) bits = map valid_of els
                end
}.

Lemma kept_whistory els s : whistory s els -> kept els s.
Proof.
  intros [D O L N V K]. split.
  - exists []. rewrite app_nil_r. exact D.
  - left. auto.
  - lia.
  - rewrite V. destruct (forallb valid_of els); [reflexivity|]. rewrite <- (map_length valid_of els) at 1. apply firstn_all.
Qed.

Lemma push_offset els s s' : kept els s -> w_offsets s' = w_offsets s ++ [to_int32 (b_size (w_values s))] ->
  exists r, w_offsets s' = map to_int32 (starts 0 els) ++ to_int32 (total els) :: r.
Proof.
  intros [D O L V] E. destruct O as [[O Dq]|[r O]]; rewrite E, O.
  - exists []. do 3 f_equal. unfold b_size. fold (data s). rewrite Dq. reflexivity.
  - exists (r ++ [to_int32 (b_size (w_values s))]). rewrite <- app_assoc. reflexivity.
Qed.

Lemma firstn_prefix {A} k (a b : list A) x : (k <= length a)%nat -> firstn k a = x -> firstn k (a ++ b) = x.
Proof. intros H <-. rewrite firstn_app. replace (k - length a)%nat with 0%nat by lia. apply app_nil_r. Qed.

Lemma bits_length els bits : firstn (length els) bits = map valid_of els -> (length els <= length bits)%nat.
Proof. intros H. apply (f_equal (@length bool)) in H. rewrite firstn_length, map_length in H. lia. Qed.

Definition vkept (els : list (option bytes)) (v : option (list bool)) : Prop :=
  match v with None => forallb valid_of els = true | Some bits => firstn (length els) bits = map valid_of els end.

Lemma vkept_null els s : Z.of_nat (length els) < w_length s -> vkept els (w_validity s) -> vkept els (w_validity (push_null s)).
Proof.
  intros L V. unfold push_null. cbn. destruct (w_validity s) as [bits|] eqn:E; cbn in V |- *.
  - apply firstn_prefix; [apply bits_length; exact V|exact V].
  - rewrite (all_valid_map els V). apply firstn_prefix; [rewrite repeat_length; lia|].
    rewrite <- (repeat_length true (length els)) at 1.
    replace (Z.to_nat (w_length s - 1)) with (length els + (Z.to_nat (w_length s - 1) - length els))%nat by lia.
    rewrite repeat_app. apply firstn_prefix; [rewrite !repeat_length; lia|]. apply firstn_all.
Qed.

Lemma vkept_valid els s : vkept els (w_validity s) -> vkept els (w_validity (push_valid s)).
Proof.
  intros V. unfold push_valid. destruct (w_validity s) as [bits|] eqn:E; cbn in V |- *.
  - apply firstn_prefix; [apply bits_length; exact V|exact V].
  - rewrite E. exact V.
Qed.

(** Inside a visited feature. *)
Record visiting (els : list (option bytes)) (base : Z) (s : wst) : Prop := {
  vi_kept : kept els s;
  vi_base : total els <= base <= b_size (w_values s);
  vi_started : exists r, w_offsets s = map to_int32 (starts 0 els) ++ to_int32 (total els) :: r;
  vi_length : Z.of_nat (length els) < w_length s
}.

Lemma visiting_moved els base s s' : visiting els base s -> moved base s s' -> visiting els base s'.
Proof.
  intros [[[more D] O L V] B St Ln] [Md Ms Mo Ml Mv].
  assert (exists more', data s' = concat (map bytes_of els) ++ more') as D'.
  { exists (skipn (Z.to_nat (total els)) (data s')).
    rewrite <- (firstn_skipn (Z.to_nat (total els)) (data s')) at 1. f_equal.
    transitivity (firstn (Z.to_nat (total els)) (firstn (Z.to_nat base) (data s'))).
    - rewrite firstn_firstn. f_equal. unfold total in *. lia.
    - rewrite Md, firstn_firstn. replace (Nat.min (Z.to_nat (total els)) (Z.to_nat base)) with (Z.to_nat (total els)) by lia.
      rewrite D. unfold total. rewrite Nat2Z.id. apply firstn_prefix; [lia|]. apply firstn_all. }
  split; [split|..].
  - exact D'.
  - right. rewrite Mo. exact St.
  - lia.
  - change (vkept els (w_validity s)) in V. change (vkept els (w_validity s')).
    destruct Mv as [->|[->| ->]]; [exact V|apply vkept_null; assumption|apply vkept_valid; exact V].
  - lia.
  - rewrite Mo. exact St.
  - lia.
Qed.

Lemma kept_feed els evs : forall st s s' c, ok_stack st ->
  (st = [] -> kept els s) -> (st <> [] -> exists base, inv base st s /\ visiting els base s) ->
  (exists st', nest_all st evs = Some st') -> feed wkb_step s evs = Some (s', c) -> kept els s'.
Proof.
  induction evs as [|e evs IH]; intros st s s' c Hst Hk Hv [st' E] F; cbn [feed] in F.
  - injection F as <- <-. destruct st; [apply Hk; reflexivity|]. destruct Hv as (base & _ & V); [discriminate|]. apply V.
  - cbn [nest_all] in E. destruct (nest st e) as [st1|] eqn:E1; [|discriminate].
    pose proof (nest_ok_stack st e st1 Hst E1) as Hst1.
    destruct st as [|f st].
    + destruct e; cbn in E1; try discriminate. injection E1 as <-. specialize (Hk eq_refl).
      destruct (start_safe s) as (s1 & c1 & Es & Hval & Hvd & Hlen & Hc). rewrite Es in F.
      pose proof (kp_length _ _ Hk) as HL.
      destruct Hc as [(-> & Ho & I1)|(-> & Ho)].
      * change (0 =? 0) with true in F. cbv iota in F.
        assert (visiting els (b_size (w_values s)) s1) as V1.
        { pose proof (push_offset els s s1 Hk Ho) as Hst2. destruct Hk as [[more D] O L V].
          assert (total els <= b_size (w_values s)) by (unfold b_size; fold (data s); rewrite D, app_length; unfold total; lia).
          split; [split|..]; try lia; try exact Hst2.
          - exists more. unfold data. rewrite Hval. exact D.
          - right. exact Hst2.
          - rewrite Hvd. exact V.
          - rewrite Hval. lia. }
        eapply (IH [FFeat] s1 s' c Hst1); [discriminate|intros _; eauto|eauto|exact F].
      * change (EOVERFLOW =? 0) with false in F. cbv iota in F. injection F as <- <-.
        destruct Hk as [[more D] O L V]. split.
        -- exists more. unfold data. rewrite Hval. exact D.
        -- unfold data. rewrite Ho, Hval. exact O.
        -- lia.
        -- rewrite Hvd. exact V.
    + destruct Hv as (base & Hi & Hv); [discriminate|].
      destruct (step_safe base (f :: st) e st1 s Hst ltac:(discriminate) Hi E1) as (s1 & c1 & Es & M & I1). rewrite Es in F.
      pose proof (visiting_moved els base s s1 Hv M) as V1.
      destruct (Z.eqb_spec c1 0) as [Hc|Hc]; [|injection F as <- _; apply V1].
      eapply (IH st1 s1 s' c Hst1); [intros _; apply V1| |eauto|exact F].
      intros Hne. exists base. split; [apply I1; [exact Hc|exact Hne]|exact V1].
Qed.

Lemma append_sequence_grows fuel m : forall values nd v, append_sequence fuel m values nd = Ok v ->
  exists bs, b_data v = b_data values ++ bs.
Proof.
  induction fuel as [|fuel IH]; intros values nd v H; cbn [append_sequence] in H; [discriminate|].
  destruct (write_sequence m nd (b_cap values - b_size values)) as [[req w]|c| |]; cbn [obind] in H; try discriminate.
  destruct (req <=? b_cap values - b_size values).
  - destruct w as [ws|]; cbn [or_ub obind] in H; [|discriminate]. injection H as <-. eexists. reflexivity.
  - apply IH in H. rewrite buf_reserve_data in H. exact H.
Qed.

Lemma append_buffer_grows m nodes : forall rings values, exists bs, b_data (fst (append_buffer m nodes rings values)) = b_data values ++ bs.
Proof.
  assert (forall (v v1 v2 : buf) b, (exists bs, b_data v2 = b_data v1 ++ bs) -> b_data v1 = b_data v ++ b ->
            exists bs, b_data v2 = b_data v ++ bs) as T.
  { intros v v1 v2 b [bs H] E. exists (b ++ bs). rewrite H, E, app_assoc. reflexivity. }
  induction nodes as [|nd nodes IH]; intros rings values; cbn [append_buffer].
  - exists []. rewrite app_nil_r. reflexivity.
  - assert (forall base b r, b_data base = b_data values ++ b ->
       exists bs, b_data (fst match append_sequence 2 m base nd with
         | Ok v => append_buffer m nodes r v | Err c => (base, Err c) | UB => (base, UB) | NoFuel => (base, NoFuel) end)
         = b_data values ++ bs) as A.
    { intros base b r Hb. destruct (append_sequence 2 m base nd) as [v|c| |] eqn:E; cbn [fst]; eauto.
      destruct (append_sequence_grows _ _ _ _ _ E) as [b2 H2]. eapply T; [apply IH|]. rewrite H2, Hb, <- app_assoc. reflexivity. }
    destruct (0 <? rings)%N; [eapply A; apply buf_append_data|].
    set (header := buf_append (buf_append values [1%N]) (le_bytes 4 (type_code (nd_type nd) (nd_dims nd)))).
    assert (b_data header = b_data values ++ ([1%N] ++ le_bytes 4 (type_code (nd_type nd) (nd_dims nd)))) as Hh
      by (unfold header; rewrite !buf_append_data, <- app_assoc; reflexivity).
    assert (b_data (buf_append header (le_bytes 4 (nd_size nd))) = b_data values ++ (([1%N] ++ le_bytes 4 (type_code (nd_type nd) (nd_dims nd))) ++ le_bytes 4 (nd_size nd))) as Hc
      by (rewrite buf_append_data, Hh, <- !app_assoc; reflexivity).
    destruct (N.eqb (nd_type nd) 1).
    { destruct (N.eqb (nd_size nd) 0); [|eapply A; exact Hh].
      destruct (num_dimensions (Z.of_N (nd_dims nd))) as [n|]; [|cbn [fst]; eauto].
      destruct ((0 <=? n) && (n <=? 4))%bool; [|cbn [fst]; eauto].
      eapply T; [apply IH|]. rewrite buf_append_data, Hh, <- app_assoc. reflexivity. }
    destruct (N.eqb (nd_type nd) 2); [eapply A; exact Hc|].
    destruct (N.eqb (nd_type nd) 3); [eapply T; [apply IH|exact Hc]|].
    destruct (N.eqb (nd_type nd) 4 || N.eqb (nd_type nd) 5 || N.eqb (nd_type nd) 6 || N.eqb (nd_type nd) 7)%bool;
      [eapply T; [apply IH|exact Hc]|]. cbn [fst]. exists []. rewrite app_nil_r. reflexivity.
Qed.

Lemma run_op_kept els s op s' c : obeys op -> kept els s -> run_op s op = Some (s', c) -> kept els s'.
Proof.
  intros Ho Hk Hrun. destruct op as [evs|m nodes|]; cbn [run_op obeys] in *.
  - destruct Ho as [rest Hn]. unfold well_nested in Hn. rewrite nest_all_app in Hn.
    destruct (nest_all [] evs) as [st|] eqn:E; [|discriminate].
    eapply (kept_feed els evs [] s s' c); [constructor|intros _; exact Hk|congruence|eauto|exact Hrun].
  - unfold wkb_append in Hrun. cbn [set_offsets w_values] in Hrun.
    destruct (append_buffer_grows m nodes 0 (w_values s)) as [bs Hb].
    destruct (append_buffer m nodes 0 (w_values s)) as [v o]. cbn [fst] in Hb.
    pose proof (push_offset els s (set_offsets s (w_offsets s ++ [to_int32 (b_size (w_values s))])) Hk eq_refl) as [r Hr].
    cbn in Hr. destruct Hk as [[more D] O L V].
    assert (b_data v = concat (map bytes_of els) ++ (more ++ bs)) as Dv by (rewrite Hb; fold (data s); rewrite D, <- app_assoc; reflexivity).
    destruct o as [u|ec| |]; try discriminate; injection Hrun as <- <-.
    + unfold append_validity. change (vkept els (w_validity s)) in V.
      split; unfold push_valid; cbn; destruct (w_validity s) as [bits|] eqn:Ev; cbn; try rewrite Ev; eauto; try lia; try exact V.
      apply firstn_prefix; [apply bits_length; exact V|exact V].
    + split; cbn; eauto.
  - injection Hrun as <- <-.
    pose proof (push_offset els s (set_offsets s (w_offsets s ++ [to_int32 (b_size (w_values s))])) Hk eq_refl) as [r Hr].
    cbn in Hr. destruct Hk as [[more D] O L V].
    split; unfold append_validity; cbn; eauto; [lia|].
    refine (vkept_null els (set_book s (w_validity s) (w_length s + 1) (w_nulls s)) _ V). cbn. lia.
Qed.

Lemma run_all_kept els ops : forall s s', Forall obeys ops -> kept els s -> run_all s ops = Some s' -> kept els s'.
Proof.
  induction ops as [|op ops IH]; intros s s' Ho Hk Hrun; cbn [run_all] in Hrun; [injection Hrun as <-; exact Hk|].
  inversion Ho; subst. destruct (run_op s op) as [[s1 c]|] eqn:E; [|discriminate].
  eapply (IH s1); eauto. eapply run_op_kept; eauto.
Qed.

Lemma finish_kept els s s' a : kept els s -> wkb_finish s = (s', 0, Some a) ->
  forall i e, nth_error els i = Some e -> element a i = Some (bytes_of e) /\ is_valid a i = Some (valid_of e).
Proof.
  intros [[more D] O L V] F i e Hi. unfold wkb_finish in F.
  destruct (Z.ltb_spec 2147483647 (b_size (w_values s))) as [|Hsz]; [discriminate|].
  match type of F with (_, if validate_binary ?x then _ else _, _) = _ => destruct (validate_binary x); [|discriminate] end.
  injection F as _ <-.
  assert (i < length els)%nat as Hlt by (apply nth_error_Some; congruence).
  assert (total els <= b_size (w_values s)) as Htot by (unfold b_size; fold (data s); rewrite D, app_length; unfold total; lia).
  assert (0 <= total els) by (unfold total; lia).
  assert (map to_int32 (starts 0 els) = starts 0 els) as Hid.
  { pose proof (starts_bound els) as Hb. clear O Hi. revert Hb. generalize (starts 0 els). intros l Hb.
    induction Hb as [|o l Ho Hl IH]; cbn; [reflexivity|]. rewrite to_int32_small by lia. f_equal. exact IH. }
  split.
  - assert (exists r, w_offsets s ++ [to_int32 (b_size (w_values s))] = (starts 0 els ++ [total els]) ++ r) as [r Er].
    { destruct O as [[O Dq]|[r O]]; rewrite O, Hid.
      - exists []. rewrite app_nil_r. do 2 f_equal. unfold b_size. fold (data s). rewrite Dq. apply to_int32_small. unfold total in *. lia.
      - exists (r ++ [to_int32 (b_size (w_values s))]). rewrite to_int32_small by lia. rewrite <- !app_assoc. reflexivity. }
    pose proof (array_element els i e 0 0 None Hi) as He. unfold element in *. cbn [ba_offsets ba_data] in *.
    assert (forall j, (j <= length els)%nat -> nth_error ((starts 0 els ++ [total els]) ++ r) j = Some (total (firstn j els))) as Hn.
    { intros j Hj. rewrite nth_error_app1 by (rewrite app_length, starts_length; cbn; lia). apply offsets_nth. exact Hj. }
    rewrite Er, !Hn by lia. rewrite !offsets_nth in He by lia.
    destruct (total (firstn i els) <=? total (firstn (S i) els)); [|discriminate].
    assert (Hs := proj1 (slice_some_iff _ _ _) (ex_intro _ _ He)).
    etransitivity; [|exact He]. change (b_data (w_values s)) with (data s). rewrite D. apply slice_app_l. lia.
  - unfold is_valid. cbn [ba_validity]. destruct (w_validity s) as [bits|].
    + rewrite <- (firstn_skipn (length els) bits), V, nth_error_app1 by (rewrite map_length; exact Hlt).
      rewrite nth_error_map, Hi. reflexivity.
    + rewrite forallb_forall in V. rewrite (V e (nth_error_In _ _ Hi)). reflexivity.
Qed.

Lemma earlier_features ops1 fs s s1 ops2 s2 s3 a :
  clean s -> Forall2 writes ops1 fs -> run_ops s ops1 = Some (s1, 0) ->
  Forall obeys ops2 -> run_all s1 ops2 = Some s2 -> wkb_finish s2 = (s3, 0, Some a) ->
  forall i f, nth_error fs i = Some f ->
    element a i = Some (match feature_wkb f with Some b => b | None => [] end) /\
    is_valid a i = Some (match f with Some _ => true | None => false end).
Proof.
  intros Hc Hw Hr Ho Ha Hf i f Hi. pose proof (run_ops_ok ops1 fs s s1 [] Hw (whistory_clean s Hc) Hr) as Hs.
  pose proof (run_all_kept _ ops2 s1 s2 Ho (kept_whistory _ _ Hs) Ha) as Hk.
  destruct (finish_kept _ s2 s3 a Hk Hf i (feature_wkb f)) as [H1 H2].
  - cbn [app]. rewrite nth_error_map, Hi. reflexivity.
  - split; [exact H1|]. rewrite H2. destruct f; reflexivity.
Qed.
