From Verif Require Import Base BaseFacts TypesModel TypesSpec TypesProofs CoordsModel CoordsSpec.
Local Open Scope Z_scope.

Lemma daddr_eqb_spec a b : reflect (a = b) (daddr_eqb a b).
Proof.
  unfold daddr_eqb. destruct a as [x y], b as [x' y']; cbn.
  destruct (Nat.eqb_spec x x'); cbn; [|constructor; congruence].
  destruct (Z.eqb_spec y y'); constructor; congruence.
Qed.

Lemma cv_cell_ok v row col : (col < 4)%nat -> cv_cell v row col = Ok (cell v row col).
Proof.
  intros H. unfold cv_cell, cell.
  destruct col as [|[|[|[|?]]]]; [reflexivity..|lia].
Qed.

Lemma dstore_ok m a v : m a <> None ->
  exists m', dstore m a v = Ok m' /\ m' a = Some v /\ forall b, b <> a -> m' b = m b.
Proof.
  intros H. unfold dstore. destruct (m a); [|congruence].
  eexists. split; [reflexivity|]. split.
  - cbn beta. destruct (daddr_eqb_spec a a); congruence.
  - intros b Hb. cbn beta. destruct (daddr_eqb_spec b a); congruence.
Qed.

(** A loop whose [i]-th iteration performs the writes [W i] when started from a memory that agrees with the initial
    one outside earlier writes. *)
Section Loop.
  Variable W : Z -> list (daddr * N).
  Variable body : Z -> dmem -> outcome dmem.
  Variable m0 : dmem.

  Definition writes (lo hi : Z) (a : daddr) : Prop := exists i, lo <= i < hi /\ In a (map fst (W i)).

  Lemma loop_writes k lo m :
    0 <= lo ->
    (forall a, ~ writes 0 lo a -> m a = m0 a) ->
    (forall i a v, 0 <= i < lo -> In (a, v) (W i) -> m a = Some v) ->
    (forall i j a, lo <= j < lo + Z.of_nat k -> 0 <= i < j -> In a (map fst (W i)) -> ~ In a (map fst (W j))) ->
    (forall i m1, lo <= i < lo + Z.of_nat k -> (forall a, ~ writes 0 i a -> m1 a = m0 a) ->
       exists m2, body i m1 = Ok m2 /\ (forall a v, In (a, v) (W i) -> m2 a = Some v) /\
                  (forall a, ~ In a (map fst (W i)) -> m2 a = m1 a)) ->
    exists m', for_loop k lo body m = Ok m' /\
      (forall a, ~ writes 0 (lo + Z.of_nat k) a -> m' a = m0 a) /\
      (forall i a v, 0 <= i < lo + Z.of_nat k -> In (a, v) (W i) -> m' a = Some v).
  Proof.
    revert lo m; induction k as [|k IH]; intros lo m Hlo Hframe Hval Hdisj Hbody; cbn [for_loop].
    - exists m. split; [reflexivity|]. split.
      + intros a Ha. apply Hframe. intros (i & Hi & Hin). apply Ha. exists i. split; [lia|exact Hin].
      + intros i a v Hi. apply Hval. lia.
    - destruct (Hbody lo m ltac:(lia) Hframe) as (m2 & E & Hv & Hf).
      rewrite E. cbn [obind].
      destruct (IH (lo + 1) m2) as (m' & E' & Hf' & Hv').
      + lia.
      + intros a Ha. rewrite Hf.
        * apply Hframe. intros (i & Hi & Hin). apply Ha. exists i. split; [lia|exact Hin].
        * intros Hin. apply Ha. exists lo. split; [lia|exact Hin].
      + intros i a v Hi Hin. destruct (Z.eq_dec i lo) as [->|Hne].
        * apply Hv. exact Hin.
        * rewrite Hf; [apply (Hval i); [lia|exact Hin]|].
          apply (Hdisj i lo); [lia|lia|]. apply (in_map fst) in Hin. exact Hin.
      + intros i j a Hj Hi. apply Hdisj; lia.
      + intros i m1 Hi. apply Hbody. lia.
      + exists m'. split; [exact E'|].
        replace (lo + Z.of_nat (S k)) with (lo + 1 + Z.of_nat k) by lia. split; assumption.
  Qed.
End Loop.

Section Copy.
  Variables (src dst : cview) (sd dd : dim) (so dof n : Z).

  Variable m0 : dmem.
  Variable coords : Z -> list N.
  Hypothesis Hsrc : forall i, in_range n i -> read_coord m0 src sd (so + i) (coords i).
  Hypothesis Hdst : forall i j, in_range n i -> (j < ndim dd)%nat -> m0 (cell dst (dof + i) j) <> None.
  Hypothesis Hinj : forall i j i' j', in_range n i -> in_range n i' -> (j < ndim dd)%nat -> (j' < ndim dd)%nat ->
    cell dst (dof + i) j = cell dst (dof + i') j' -> i = i' /\ j = j'.
  Hypothesis Hsep : forall i j i' j', in_range n i -> in_range n i' -> (j < ndim sd)%nat -> (j' < ndim dd)%nat ->
    cell src (so + i) j <> cell dst (dof + i') j'.

  Lemma ndim_ge d : (2 <= ndim d <= 4)%nat.
  Proof. destruct d; cbn; lia. Qed.

  Definition target (i : Z) (j : nat) : N := nth j (convert_coord sd dd (coords i)) qnan.

  (** Every column in [J] holds its target, the rest of memory is unchanged. *)
  Definition done (J : nat -> Prop) (m : dmem) : Prop :=
    (forall i j, in_range n i -> (j < ndim dd)%nat -> J j -> m (cell dst (dof + i) j) = Some (target i j)) /\
    (forall a, (forall i j, in_range n i -> (j < ndim dd)%nat -> J j -> a <> cell dst (dof + i) j) -> m a = m0 a).

  Lemma done_src J m : done J m -> forall i j, in_range n i -> (j < ndim sd)%nat ->
    m (cell src (so + i) j) = nth_error (coords i) j.
  Proof.
    intros [_ Hf] i j Hi Hj. rewrite Hf.
    - apply (Hsrc i Hi). exact Hj.
    - intros i' j' Hi' Hj' _. apply Hsep; assumption.
  Qed.

  Lemma done_dst_valid J m : (forall j, J j \/ ~ J j) -> done J m ->
    forall i j, in_range n i -> (j < ndim dd)%nat -> m (cell dst (dof + i) j) <> None.
  Proof.
    intros Hdec [Hv Hf] i j Hi Hj. destruct (Hdec j) as [HJ|HJ].
    - rewrite (Hv i j Hi Hj HJ). discriminate.
    - rewrite Hf; [apply Hdst; assumption|]. intros i' j' Hi' Hj' HJ' E.
      destruct (Hinj _ _ _ _ Hi Hi' Hj Hj' E) as [_ ->]. contradiction.
  Qed.

  Lemma copy_cell_spec m i j k : in_range n i -> (j < ndim dd)%nat -> (k < ndim sd)%nat ->
    m (cell src (so + i) k) = nth_error (coords i) k ->
    m (cell dst (dof + i) j) <> None ->
    exists v m', nth_error (coords i) k = Some v /\ copy_cell m src (so + i) k dst (dof + i) j = Ok m' /\
      m' (cell dst (dof + i) j) = Some v /\ forall b, b <> cell dst (dof + i) j -> m' b = m b.
  Proof.
    intros Hi Hj Hk Hm Hd. pose proof (ndim_ge sd). pose proof (ndim_ge dd).
    destruct (nth_error (coords i) k) as [v|] eqn:Ev.
    2:{ apply nth_error_None in Ev. destruct (Hsrc i Hi) as [Hl _]. lia. }
    exists v. unfold copy_cell. rewrite !cv_cell_ok by lia. cbn [obind].
    unfold dload. rewrite Hm. cbn [or_ub obind].
    destruct (dstore_ok m _ v Hd) as (m' & E & Hw & Hf). exists m'. auto.
  Qed.

  Lemma target_pos i j o k : nth_error (ordinates dd) j = Some o -> position o (ordinates sd) = Some k ->
    forall v, nth_error (coords i) k = Some v -> target i j = v.
  Proof.
    intros Ho Hk v Hv. unfold target, convert_coord.
    assert (nth_error (map (fun o => match position o (ordinates sd) with Some i0 => nth i0 (coords i) qnan | None => qnan end)
      (ordinates dd)) j = Some v) as E.
    { rewrite nth_error_map, Ho. cbn [option_map]. rewrite Hk. f_equal. apply nth_error_nth. exact Hv. }
    apply nth_error_nth. exact E.
  Qed.

  Lemma target_none i j o : nth_error (ordinates dd) j = Some o -> position o (ordinates sd) = None -> target i j = qnan.
  Proof.
    intros Ho Hk. unfold target, convert_coord.
    apply nth_error_nth. rewrite nth_error_map, Ho. cbn [option_map]. rewrite Hk. reflexivity.
  Qed.

  Lemma target_xy i j v : (j < 2)%nat -> nth_error (coords i) j = Some v -> target i j = v.
  Proof.
    intros Hj Hv.
    destruct j as [|[|?]]; [| |lia].
    - apply (target_pos i 0 OX 0); [destruct dd; reflexivity|destruct sd; reflexivity|exact Hv].
    - apply (target_pos i 1 OY 1); [destruct dd; reflexivity|destruct sd; reflexivity|exact Hv].
  Qed.

  Lemma range_loop (P : Z -> Prop) k : k = Z.to_nat n -> (forall i, in_range n i -> P i) ->
    forall i, 0 <= i < 0 + Z.of_nat k -> P i.
  Proof. intros -> H i Hi. apply H. unfold in_range. lia. Qed.

  (** The first loop fills columns 0 and 1. *)
  Lemma xy_loop : exists m',
    for_loop (Z.to_nat n) 0 (fun i m =>
            do m <- copy_cell m src (so + i) 0 dst (dof + i) 0;
            copy_cell m src (so + i) 1 dst (dof + i) 1) m0 = Ok m' /\ done (fun j => (j < 2)%nat) m'.
  Proof.
    pose proof (ndim_ge sd) as Hs. pose proof (ndim_ge dd) as Hd.
    set (W := fun i => [(cell dst (dof + i) 0, target i 0); (cell dst (dof + i) 1, target i 1)]).
    destruct (loop_writes W (fun i m =>
            do m <- copy_cell m src (so + i) 0 dst (dof + i) 0;
            copy_cell m src (so + i) 1 dst (dof + i) 1) m0 (Z.to_nat n) 0 m0) as (m' & E & Hf & Hv).
    - lia.
    - reflexivity.
    - intros; lia.
    - intros i j a Hj Hi Hin Hin'. subst W. cbn in Hin, Hin'.
      assert (in_range n i) by (unfold in_range; lia). assert (in_range n j) by (unfold in_range; lia).
      destruct Hin as [<-|[<-|[]]], Hin' as [Eq|[Eq|[]]];
        apply Hinj in Eq as [Eq _]; try assumption; lia.
    - intros i m1 Hi Hfr. assert (in_range n i) as Hr by (unfold in_range; lia).
      assert (forall i' j', in_range n i' -> (j' < ndim sd)%nat -> m1 (cell src (so + i') j') = nth_error (coords i') j') as Hs1.
      { intros i' j' Hi' Hj'. rewrite Hfr; [apply (Hsrc i' Hi'); exact Hj'|].
        intros (q & Hq & Hin). subst W. cbn in Hin.
        destruct Hin as [Eq|[Eq|[]]]; symmetry in Eq; apply Hsep in Eq; auto; try lia; unfold in_range; lia. }
      assert (forall j, (j < 2)%nat -> m1 (cell dst (dof + i) j) <> None) as Hd1.
      { intros j Hj. rewrite Hfr; [apply Hdst; [exact Hr|lia]|].
        intros (q & Hq & Hin). subst W. cbn in Hin.
        destruct Hin as [Eq|[Eq|[]]]; apply Hinj in Eq as [Eq _]; auto; try lia; unfold in_range; lia. }
      destruct (copy_cell_spec m1 i 0 0 Hr ltac:(lia) ltac:(lia) (Hs1 i 0%nat Hr ltac:(lia)) (Hd1 0%nat ltac:(lia)))
        as (v0 & m2 & Ev0 & E2 & Hw2 & Hf2).
      rewrite E2. cbn [obind].
      assert (cell dst (dof + i) 1 <> cell dst (dof + i) 0) as Hne.
      { intros Eq. apply Hinj in Eq as [_ Eq]; auto; try lia; discriminate. }
      assert (m2 (cell src (so + i) 1) = nth_error (coords i) 1) as Hs2.
      { rewrite Hf2; [apply Hs1; [exact Hr|lia]|]. apply Hsep; auto; lia. }
      assert (m2 (cell dst (dof + i) 1) <> None) as Hd2.
      { rewrite Hf2 by exact Hne. apply Hd1. lia. }
      destruct (copy_cell_spec m2 i 1 1 Hr ltac:(lia) ltac:(lia) Hs2 Hd2) as (v1 & m3 & Ev1 & E3 & Hw3 & Hf3).
      exists m3. split; [exact E3|]. split.
      + intros a v Hin. subst W. cbn in Hin. destruct Hin as [Eq|[Eq|[]]]; inversion Eq; subst a v.
        * rewrite Hf3 by (intros Eq2; symmetry in Eq2; contradiction). rewrite Hw2.
          f_equal. symmetry. apply target_xy; [lia|exact Ev0].
        * rewrite Hw3. f_equal. symmetry. apply target_xy; [lia|exact Ev1].
      + intros a Ha. subst W. cbn in Ha. rewrite Hf3 by (intros ->; tauto). apply Hf2. intros ->; tauto.
    - exists m'. split; [exact E|]. split.
      + intros i j Hi Hj HJ. apply (Hv i); [unfold in_range in Hi; lia|]. subst W. cbn.
        destruct j as [|[|?]]; [left; reflexivity|right; left; reflexivity|lia].
      + intros a Ha. apply Hf. intros (i & Hi & Hin). subst W. cbn in Hin.
        assert (in_range n i) by (unfold in_range; lia).
        destruct Hin as [Eq|[Eq|[]]]; symmetry in Eq; apply Ha in Eq; auto; lia.
  Qed.

  (** One further column. *)
  Lemma column_loop m col o (J : nat -> Prop) :
    (forall j, J j \/ ~ J j) -> done J m -> ~ J col -> (col < ndim dd)%nat ->
    nth_error (ordinates dd) col = Some o ->
    exists m',
      copy_column src so dst dof n col
        (match position o (ordinates sd) with Some k => Z.of_nat k | None => -1 end) m = Ok m' /\
      done (fun j => J j \/ j = col) m'.
  Proof.
    intros Hdec Hdone HnJ Hcol Ho. pose proof (ndim_ge dd) as Hd.
    set (W := fun i => [(cell dst (dof + i) col, target i col)]).
    assert (forall body,
      (forall i m1, in_range n i ->
        (forall i' j, in_range n i' -> (j < ndim sd)%nat -> m1 (cell src (so + i') j) = nth_error (coords i') j) ->
        m1 (cell dst (dof + i) col) <> None ->
        exists m2, body i m1 = Ok m2 /\ m2 (cell dst (dof + i) col) = Some (target i col) /\
          forall b, b <> cell dst (dof + i) col -> m2 b = m1 b) ->
      exists m', for_loop (Z.to_nat n) 0 body m = Ok m' /\ done (fun j => J j \/ j = col) m') as Hgen.
    { intros body Hbody.
      destruct (loop_writes W body m (Z.to_nat n) 0 m) as (m' & E & Hf & Hv).
      - lia.
      - reflexivity.
      - intros; lia.
      - intros i j a Hj Hi Hin Hin'. subst W. cbn in Hin, Hin'.
        assert (in_range n i) by (unfold in_range; lia). assert (in_range n j) by (unfold in_range; lia).
        destruct Hin as [<-|[]], Hin' as [Eq|[]]. apply Hinj in Eq as [Eq _]; auto; lia.
      - intros i m1 Hi Hfr. assert (in_range n i) as Hr by (unfold in_range; lia).
        destruct (Hbody i m1 Hr) as (m2 & E2 & Hw2 & Hf2).
        + intros i' j Hi' Hj. rewrite Hfr; [apply (done_src J m Hdone); assumption|].
          intros (q & Hq & Hin). subst W. cbn in Hin. destruct Hin as [Eq|[]]. symmetry in Eq.
          apply Hsep in Eq; auto; unfold in_range; lia.
        + rewrite Hfr; [apply (done_dst_valid J m Hdec Hdone); assumption|].
          intros (q & Hq & Hin). subst W. cbn in Hin. destruct Hin as [Eq|[]].
          apply Hinj in Eq as [Eq _]; auto; try lia; unfold in_range; lia.
        + exists m2. split; [exact E2|]. split.
          * intros a v Hin. subst W. cbn in Hin. destruct Hin as [Eq|[]]. inversion Eq; subst. exact Hw2.
          * intros a Ha. apply Hf2. intros ->. apply Ha. left. reflexivity.
      - exists m'. split; [exact E|]. destruct Hdone as [HV HF]. split.
        + intros i j Hi Hj [HJ| ->].
          * rewrite Hf; [apply HV; assumption|].
            intros (q & Hq & Hin). subst W. cbn in Hin. destruct Hin as [Eq|[]].
            assert (in_range n q) by (unfold in_range; lia).
            apply Hinj in Eq as [_ Eq]; auto. subst j. contradiction.
          * apply (Hv i); [unfold in_range in Hi; lia|]. left. reflexivity.
        + intros a Ha. rewrite Hf.
          * apply HF. intros i j Hi Hj HJ. apply Ha; auto.
          * intros (q & Hq & Hin). subst W. cbn in Hin. destruct Hin as [Eq|[]]. symmetry in Eq.
            apply Ha in Eq; auto; unfold in_range; lia. }
    unfold copy_column. destruct (position o (ordinates sd)) as [k|] eqn:Ek.
    - destruct (Z.eqb_spec (Z.of_nat k) (-1)); [lia|]. rewrite Nat2Z.id. apply Hgen.
      intros i m1 Hi Hs1 Hd1.
      assert (k < ndim sd)%nat as Hk.
      { clear - Ek. revert Ek. unfold ndim. destruct sd, o; cbn; intros E; inversion E; subst; lia. }
      destruct (copy_cell_spec m1 i col k Hi Hcol Hk (Hs1 i k Hi Hk) Hd1) as (v & m2 & Ev & E2 & Hw & Hf).
      exists m2. split; [exact E2|]. split; [|exact Hf].
      rewrite Hw. f_equal. symmetry. exact (target_pos i col o k Ho Ek v Ev).
    - change (-1 =? -1) with true. cbn iota. apply Hgen.
      intros i m1 Hi _ Hd1. unfold nan_cell. rewrite cv_cell_ok by lia. cbn [obind].
      destruct (dstore_ok m1 _ nan_word Hd1) as (m2 & E2 & Hw & Hf). exists m2. split; [exact E2|].
      split; [|exact Hf]. rewrite Hw. f_equal. symmetry. exact (target_none i col o Ho Ek).
  Qed.

  Hypothesis Hnv : cv_n_values dst = Z.of_nat (ndim dd).

  Lemma done_ext (J J' : nat -> Prop) m : (forall j, (j < ndim dd)%nat -> (J j <-> J' j)) -> done J m -> done J' m.
  Proof.
    intros HJ [Hv Hf]. split.
    - intros i j Hi Hj H. apply Hv; auto. apply HJ; auto.
    - intros a Ha. apply Hf. intros i j Hi Hj H. apply Ha; auto. apply HJ; auto.
  Qed.

  Lemma coord_view_copy_done : exists m',
    coord_view_copy src (dim_code sd) so dst (dim_code dd) dof n m0 = Ok m' /\ done (fun _ => True) m'.
  Proof.
    unfold coord_view_copy. destruct xy_loop as (m1 & E1 & D1). rewrite E1. cbn [obind].
    rewrite Hnv.
    destruct (Z.eqb_spec (Z.of_nat (ndim dd)) 2) as [H2|H2].
    { exists m1. split; [reflexivity|]. apply (done_ext (fun j => (j < 2)%nat)); [|exact D1]. intros j Hj. lia. }
    assert (3 <= ndim dd)%nat as H3' by (pose proof (ndim_ge dd); lia).
    destruct (nth_error (ordinates dd) 2) as [o2|] eqn:Eo2.
    2:{ apply nth_error_None in Eo2. unfold ndim in H3'. lia. }
    pose proof (map_dimensions_spec sd dd 2 o2 Eo2) as HM2. cbn [qget] in HM2. injection HM2 as HM2. rewrite HM2.
    destruct (column_loop m1 2 o2 (fun j => (j < 2)%nat)) as (m2 & E2 & D2);
      [intros; lia|exact D1|lia|lia|exact Eo2|].
    rewrite E2. cbn [obind].
    destruct (Z.eqb_spec (Z.of_nat (ndim dd)) 3) as [H3|H3].
    { exists m2. split; [reflexivity|].
      apply (done_ext (fun j => (j < 2)%nat \/ j = 2%nat)); [|exact D2]. intros j Hj. lia. }
    assert (ndim dd = 4)%nat as H4 by (pose proof (ndim_ge dd); lia).
    destruct (nth_error (ordinates dd) 3) as [o3|] eqn:Eo3.
    2:{ apply nth_error_None in Eo3. unfold ndim in H4. lia. }
    pose proof (map_dimensions_spec sd dd 3 o3 Eo3) as HM3. cbn [qget] in HM3. injection HM3 as HM3. rewrite HM3.
    destruct (column_loop m2 3 o3 (fun j => (j < 2)%nat \/ j = 2%nat)) as (m3 & E3 & D3);
      [intros; lia|exact D2|lia|lia|exact Eo3|].
    exists m3. split; [exact E3|].
    apply (done_ext (fun j => ((j < 2)%nat \/ j = 2%nat) \/ j = 3%nat)); [|exact D3]. intros j Hj. lia.
  Qed.

  Lemma convert_length c : length (convert_coord sd dd c) = ndim dd.
  Proof. unfold convert_coord. rewrite map_length. reflexivity. Qed.

  Lemma coord_view_copy_correct : exists m',
    coord_view_copy src (dim_code sd) so dst (dim_code dd) dof n m0 = Ok m' /\
    (forall i, in_range n i -> read_coord m' dst dd (dof + i) (convert_coord sd dd (coords i))) /\
    (forall a, (forall i j, in_range n i -> (j < ndim dd)%nat -> a <> cell dst (dof + i) j) -> m' a = m0 a).
  Proof.
    destruct coord_view_copy_done as (m' & E & Hv & Hf). exists m'. split; [exact E|]. split.
    - intros i Hi. split; [apply convert_length|]. intros j Hj. rewrite (Hv i j Hi Hj I).
      unfold target. symmetry. apply nth_error_nth'. rewrite convert_length. exact Hj.
    - intros a Ha. apply Hf. intros i j Hi Hj _. apply Ha; assumption.
  Qed.
End Copy.
