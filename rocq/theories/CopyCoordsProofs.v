From Verif Require Import Base BaseFacts TypesModel TypesSpec TypesProofs GeomSpec GeomFacts NodesModel NodesSpec CoordsModel
  CoordsProofs CopyCoordsModel CopyCoordsSpec GeomVisitProofs.
Local Open Scope Z_scope.

(** ** Memories as the result of a list of writes *)

Definition upd (dm : dmem) (ws : list (daddr * N)) : dmem :=
  fold_left (fun dm w => fun b => if daddr_eqb b (fst w) then Some (snd w) else dm b) ws dm.

Lemma upd_app dm a b : upd dm (a ++ b) = upd (upd dm a) b.
Proof. apply fold_left_app. Qed.

Lemma upd_frame ws : forall dm a, ~ In a (map fst ws) -> upd dm ws a = dm a.
Proof.
  induction ws as [|[b v] ws IH]; intros dm a Ha; [reflexivity|].
  change (upd dm ((b, v) :: ws)) with (upd (fun c => if daddr_eqb c b then Some v else dm c) ws).
  rewrite IH by (intros H; apply Ha; right; exact H). cbn beta.
  destruct (daddr_eqb_spec a b) as [->|]; [|reflexivity]. exfalso. apply Ha. left. reflexivity.
Qed.

Lemma upd_in ws : forall dm a v, In (a, v) ws -> (forall v', In (a, v') ws -> v' = v) -> upd dm ws a = Some v.
Proof.
  induction ws as [|[b u] ws IH]; intros dm a v Hin Hu; [destruct Hin|].
  change (upd dm ((b, u) :: ws)) with (upd (fun c => if daddr_eqb c b then Some u else dm c) ws).
  destruct (in_dec (fun x y : daddr * N => ltac:(decide equality; [apply N.eq_dec|decide equality; [apply Z.eq_dec|apply Nat.eq_dec]])) (a, v) ws)
    as [Hr|Hr].
  - apply IH; [exact Hr|]. intros v' H. apply Hu. right. exact H.
  - destruct Hin as [E|Hin]; [|contradiction]. injection E as -> ->.
    rewrite upd_frame; [destruct (daddr_eqb_spec a a); congruence|].
    intros H. apply in_map_iff in H. destruct H as ((a', v') & E & H). cbn in E. subst a'.
    rewrite (Hu v' (or_intror H)) in H. contradiction.
Qed.

Lemma upd_exists ws : forall dm a, dm a <> None -> upd dm ws a <> None.
Proof.
  induction ws as [|[b u] ws IH]; intros dm a H; [exact H|]. apply IH. cbn [fst snd].
  destruct (daddr_eqb a b); [discriminate|exact H].
Qed.

Lemma dstore_upd dm a v : dm a <> None -> dstore dm a v = Ok (upd dm [(a, v)]).
Proof. intros H. unfold dstore. destruct (dm a); [reflexivity|congruence]. Qed.

(** ** One column *)

Definition shift (a : daddr) (k : Z) : daddr := (fst a, snd a + k).

Lemma copy_values_ok m swap s os (vals : list N) : forall p out dm,
  (forall j v, nth_error vals j = Some v ->
     exists w, load64 m (ptr_add p (Z.of_nat j * s)) = Some w /\ decode_word swap w = v) ->
  (forall j, (j < length vals)%nat -> dm (shift out (Z.of_nat j * os)) <> None) ->
  copy_values (length vals) m swap p s out os dm =
  Ok (shift out (Z.of_nat (length vals) * os),
      upd dm (map (fun jv => (shift out (Z.of_nat (fst jv) * os), snd jv)) (combine (seq 0 (length vals)) vals))).
Proof.
  induction vals as [|v vals IH]; intros p out dm Hl He; cbn [length copy_values].
  - cbn. unfold shift. destruct out as [o1 o2]; cbn. rewrite Z.mul_0_l, Z.add_0_r. reflexivity.
  - destruct (Hl 0%nat v eq_refl) as (w & Hw & Hv).
    replace (ptr_add p (Z.of_nat 0 * s)) with p in Hw
      by (unfold ptr_add; destruct p as [p1 p2]; cbn [fst snd]; f_equal; lia).
    rewrite Hw. cbn [or_ub obind]. unfold decode_word in Hv. rewrite Hv.
    assert (forall z, shift out (Z.of_nat 0 * z) = out) as H0
      by (intros z; unfold shift; destruct out as [o1 o2]; cbn [fst snd]; f_equal; lia).
    rewrite dstore_upd by (specialize (He 0%nat ltac:(cbn; lia)); rewrite H0 in He; exact He).
    cbn [obind]. change (fst out, snd out + os) with (shift out os).
    assert (forall j, shift (shift out os) (Z.of_nat j * os) = shift out (Z.of_nat (S j) * os)) as HS
      by (intros j; unfold shift; cbn [fst snd]; f_equal; lia).
    rewrite IH.
    + rewrite HS. f_equal. f_equal. cbn [seq combine map fst snd]. rewrite H0.
      match goal with |- _ = upd dm (?x :: ?l) => change (upd dm (x :: l)) with (upd (upd dm [x]) l) end.
      f_equal. rewrite <- seq_shift. clear. generalize (seq 0 (length vals)) as l. revert vals.
      induction vals as [|v vals IH]; intros [|x l]; cbn [map combine fst snd]; try reflexivity.
      rewrite IH. f_equal. f_equal. unfold shift; cbn [fst snd]; f_equal; lia.
    + intros j u Hj. destruct (Hl (S j) u Hj) as (w' & Hw' & Hu). exists w'. split; [|exact Hu].
      rewrite <- Hw'. f_equal. unfold ptr_add; cbn [fst snd]; f_equal; lia.
    + intros j Hj. apply upd_exists. rewrite HS. apply He. cbn; lia.
Qed.

Section Copy.
  Variables (m : mem) (out0 : quad daddr) (os : quad Z) (dd : dim).
  Hypothesis Hnan : nth_error m 0 = Some empty_point_coords.

  (** Output cursors after [k] coordinates. *)
  Definition cursor (k : nat) (cur : quad daddr) : Prop :=
    forall col, (col < ndim dd)%nat -> qget cur col = Some (out_cell out0 os k col).

  (** What is stored for column [col] of the coordinate [c]. *)
  Definition stored (s : dim) (swap : bool) (c : coord) (col : nat) : option N :=
    match nth_error (ordinates dd) col with
    | Some o =>
        match position o (ordinates s) with
        | Some j => nth_error c j
        | None => Some (decode_word swap qnan)
        end
    | None => None
    end.

  Lemma load_nan : load64 m nan_ptr = Some qnan.
  Proof. unfold load64, load_bytes, nan_ptr. cbn [fst snd]. rewrite Hnan. reflexivity. Qed.

  Lemma position_lt o s j : position o (ordinates s) = Some j -> (j < ndim s)%nat.
  Proof. destruct o, s; cbn; intros H; try discriminate; injection H as <-; lia. Qed.

  Lemma ordinates_col col : (col < ndim dd)%nat -> exists o, nth_error (ordinates dd) col = Some o.
  Proof.
    intros H. destruct (nth_error (ordinates dd) col) eqn:E; [eauto|].
    apply nth_error_None in E. unfold ndim in H. lia.
  Qed.

  Lemma qget_lt4 {A} (q : quad A) j : (j < 4)%nat -> exists a, qget q j = Some a.
  Proof. apply qget_some. Qed.

  (** The values stored in one column of a node. *)
  Lemma column_source nd s cs col : holds m nd s cs -> wf_seq s cs -> (col < ndim dd)%nat ->
    exists from p st vals,
      qget (map_dimensions (Z.of_N (nd_dims nd)) (dim_code dd)) col = Some from /\
      mapped_source nd from = Ok (p, st) /\ length vals = length cs /\
      (forall j c, nth_error cs j = Some c -> nth_error vals j = stored s (nd_swap nd) c col) /\
      (forall j v, nth_error vals j = Some v ->
         exists w, load64 m (ptr_add p (Z.of_nat j * st)) = Some w /\ decode_word (nd_swap nd) w = v).
  Proof.
    intros Hh Hwf Hcol. destruct (ordinates_col col Hcol) as (o & Ho).
    assert (Z.of_N (nd_dims nd) = dim_code s) as Hd by (rewrite (h_dims _ _ _ _ Hh); destruct s; reflexivity).
    rewrite Hd, (map_dimensions_spec s dd col o Ho). unfold stored. rewrite Ho.
    destruct (position o (ordinates s)) as [j|] eqn:Ej.
    - pose proof (position_lt o s j Ej) as Hj. pose proof (ndim_bounds s).
      destruct (qget_lt4 (nd_coords nd) j ltac:(lia)) as (p & Hp), (qget_lt4 (nd_stride nd) j ltac:(lia)) as (st & Hst).
      exists (Z.of_nat j), p, st, (map (fun c : coord => nth j c 0%N) cs). split; [reflexivity|].
      split; [unfold mapped_source; destruct (Z.eqb_spec (Z.of_nat j) (-1)); [lia|]; rewrite Nat2Z.id, Hp, Hst; reflexivity|].
      split; [apply map_length|].
      assert (forall c, In c cs -> nth_error c j = Some (nth j c 0%N)) as Hc.
      { intros c Hc. apply nth_error_nth'. unfold wf_seq in Hwf. rewrite Forall_forall in Hwf.
        destruct (Hwf c Hc) as [-> _]. exact Hj. }
      split.
      + intros i c Hi. rewrite nth_error_map, Hi. cbn. symmetry. apply Hc. eapply nth_error_In; eauto.
      + intros i v Hv. rewrite nth_error_map in Hv. destruct (nth_error cs i) as [c|] eqn:Ec; [|discriminate].
        cbn in Hv. injection Hv as <-. pose proof (h_ords _ _ _ _ Hh i j c Ec Hj) as Hn.
        unfold node_ordinate in Hn. rewrite Hp, Hst in Hn.
        rewrite (Hc c) in Hn by (eapply nth_error_In; eauto).
        destruct (load64 m (ptr_add p (Z.of_nat i * st))) as [w|]; [|discriminate].
        exists w. split; [reflexivity|]. injection Hn as Hn. exact Hn.
    - exists (-1), nan_ptr, 0, (repeat (decode_word (nd_swap nd) qnan) (length cs)). split; [reflexivity|].
      split; [reflexivity|]. split; [apply repeat_length|]. split.
      + intros i c Hi. apply nth_error_repeat. apply nth_error_Some. congruence.
      + intros i v Hv. exists qnan. rewrite Z.mul_0_r. unfold ptr_add; cbn [nan_ptr fst snd].
        split; [exact load_nan|]. apply nth_error_In, repeat_spec in Hv. symmetry; exact Hv.
  Qed.

  (** A list of writes that fills the cells [k0 .. k0+n) of the columns in [J] with [val]. *)
  Definition fills (ws : list (daddr * N)) (k0 n : nat) (J : nat -> Prop) (val : nat -> nat -> option N) : Prop :=
    (forall a v, In (a, v) ws -> exists k col, (k0 <= k < k0 + n)%nat /\ J col /\ a = out_cell out0 os k col /\
       val k col = Some v) /\
    (forall k col v, (k0 <= k < k0 + n)%nat -> J col -> val k col = Some v -> In (out_cell out0 os k col, v) ws).

  Lemma shift_cell k col j st : (col < 4)%nat -> qget os col = Some st ->
    shift (out_cell out0 os k col) (Z.of_nat j * st) = out_cell out0 os (k + j) col.
  Proof.
    intros Hc Hst. unfold out_cell. destruct (qget_lt4 out0 col Hc) as (a & ->). rewrite Hst. unfold shift; cbn [fst snd].
    f_equal. lia.
  Qed.

  Lemma copy_columns_ok nd s cs : holds m nd s cs -> wf_seq s cs -> nd_size nd = N.of_nat (length cs) ->
    forall k0 k i cur dm, (i + k = ndim dd)%nat ->
    (forall col, (col < i)%nat -> qget cur col = Some (out_cell out0 os (k0 + length cs) col)) ->
    (forall col, (i <= col < ndim dd)%nat -> qget cur col = Some (out_cell out0 os k0 col)) ->
    (forall j col, (k0 <= j < k0 + length cs)%nat -> (col < ndim dd)%nat -> dm (out_cell out0 os j col) <> None) ->
    exists cur' ws, copy_node_columns k i m nd (map_dimensions (Z.of_N (nd_dims nd)) (dim_code dd)) os cur dm =
        Ok (cur', upd dm ws) /\ cursor (k0 + length cs) cur' /\
      fills ws k0 (length cs) (fun col => (i <= col < ndim dd)%nat)
        (fun k col => match nth_error cs (k - k0) with Some c => stored s (nd_swap nd) c col | None => None end).
  Proof.
    intros Hh Hwf Hsz k0. induction k as [|k IH]; intros i cur dm Hik Hdone Htodo He; cbn [copy_node_columns].
    - exists cur, []. split; [reflexivity|]. split; [intros col Hc; apply Hdone; lia|].
      split; [intros a v []|]. intros j col v _ Hc. lia.
    - pose proof (ndim_bounds dd) as Hdd.
      destruct (column_source nd s cs i Hh Hwf ltac:(lia)) as (from & p & st & vals & Hm & Hs & Hlen & Hvals & Hload).
      rewrite Hm. cbn [or_ub obind]. rewrite Hs. cbn [obind]. rewrite (Htodo i) by lia. cbn [or_ub obind].
      destruct (qget_lt4 os i ltac:(lia)) as (ost & Host). rewrite Host. cbn [or_ub obind].
      rewrite Hsz, Nat2N.id, <- Hlen.
      rewrite (copy_values_ok m (nd_swap nd) st ost vals p).
      + cbn [obind]. rewrite shift_cell by (assumption || lia). rewrite Hlen.
        edestruct (IH (S i)) as (cur' & ws & E & Hcur & Hf1 & Hf2).
        5: { rewrite E. eexists cur', (_ ++ ws). split; [rewrite upd_app; reflexivity|]. split; [exact Hcur|]. split.
             - intros a v Hin. apply in_app_or in Hin. destruct Hin as [Hin|Hin].
               + apply in_map_iff in Hin. destruct Hin as ((j & u) & Ea & Hin). cbn [fst snd] in Ea.
                 injection Ea as <- <-. rewrite shift_cell by (assumption || lia).
                 assert (j < length cs)%nat as Hj by (apply in_combine_l in Hin; apply in_seq in Hin; lia).
                 exists (k0 + j)%nat, i. split; [lia|]. split; [lia|]. split; [reflexivity|].
                 replace (k0 + j - k0)%nat with j by lia.
                 destruct (nth_error cs j) as [c|] eqn:Ec; [|apply nth_error_None in Ec; lia].
                 rewrite <- (Hvals j c Ec).
                 clear - Hin Hlen. rewrite <- Hlen in Hin.
                 assert (forall b, In (j, u) (combine (seq b (length vals)) vals) -> nth_error vals (j - b) = Some u /\ (b <= j)%nat) as G.
                 { clear. induction vals as [|v vals IH]; intros b H; [destruct H|].
                   cbn [length seq combine] in H. destruct H as [E|H].
                   - injection E as -> ->. rewrite Nat.sub_diag. split; [reflexivity|lia].
                   - destruct (IH (S b) H) as [G1 G2]. split; [|lia].
                     replace (j - b)%nat with (S (j - S b)) by lia. exact G1. }
                 destruct (G 0%nat Hin) as [G1 _]. rewrite Nat.sub_0_r in G1. exact G1.
               + destruct (Hf1 a v Hin) as (j & col & Hj & Hc & -> & Hv). exists j, col. repeat split; try lia. exact Hv.
             - intros j col v Hj Hc Hv. apply in_or_app. destruct (Nat.eq_dec col i) as [->|Hne].
               + left. apply in_map_iff.
                 destruct (nth_error cs (j - k0)) as [c|] eqn:Ec; [|discriminate].
                 rewrite <- (Hvals _ _ Ec) in Hv.
                 exists ((j - k0)%nat, v). cbn [fst snd]. rewrite shift_cell by (assumption || lia).
                 split; [f_equal; f_equal; lia|]. clear - Hv Hlen. revert Hv. rewrite <- Hlen.
                 generalize (j - k0)%nat as n. clear.
                 assert (forall b n, nth_error vals n = Some v -> In ((b + n)%nat, v) (combine (seq b (length vals)) vals)) as G.
                 { induction vals as [|u vals IH]; intros b [|n] H; cbn [nth_error] in H; try discriminate;
                     cbn [length seq combine].
                   - injection H as ->. left. f_equal. lia.
                   - right. replace (b + S n)%nat with (S b + n)%nat by lia. apply IH. exact H. }
                 intros n H. apply (G 0%nat). exact H.
               + right. apply Hf2; [exact Hj|lia|exact Hv]. }
        * lia.
        * intros col Hc. rewrite qget_qset by lia. destruct (Nat.eqb_spec col i) as [->|]; [reflexivity|]. apply Hdone. lia.
        * intros col Hc. rewrite qget_qset by lia. destruct (Nat.eqb_spec col i) as [->|]; [lia|]. apply Htodo. lia.
        * intros j col Hj Hc. apply upd_exists. apply He; assumption.
      + exact Hload.
      + intros j Hj. rewrite shift_cell by (assumption || lia). apply He; lia.
  Qed.

  (** The sequences of a node list, in order: dimensions, byte order and coordinates. *)
  Inductive seqs_of : list node -> list (dim * bool * list coord) -> Prop :=
  | so_nil : seqs_of [] []
  | so_seq nd r s cs l : is_sequence (nd_type nd) = true -> holds m nd s cs -> wf_seq s cs ->
      nd_size nd = N.of_nat (length cs) -> seqs_of r l -> seqs_of (nd :: r) ((s, nd_swap nd, cs) :: l)
  | so_inner nd r l : is_sequence (nd_type nd) = false -> seqs_of r l -> seqs_of (nd :: r) l.

  Lemma seqs_of_app a b la lb : seqs_of a la -> seqs_of b lb -> seqs_of (a ++ b) (la ++ lb).
  Proof. induction 1; intros Hb; cbn [app]; [exact Hb|constructor; auto..]. Qed.

  Definition flat (l : list (dim * bool * list coord)) : list (dim * bool * coord) :=
    flat_map (fun x => map (pair (fst x)) (snd x)) l.

  Definition cell_value (l : list (dim * bool * list coord)) (k col : nat) : option N :=
    match nth_error (flat l) k with Some (s, sw, c) => stored s sw c col | None => None end.

  Lemma copy_nodes_ok nodes l : seqs_of nodes l -> forall k0 cur dm, cursor k0 cur ->
    (forall j col, (k0 <= j < k0 + length (flat l))%nat -> (col < ndim dd)%nat -> dm (out_cell out0 os j col) <> None) ->
    exists ws, copy_nodes m nodes os (dim_code dd) (ndim dd) cur dm = Ok (upd dm ws) /\
      fills ws k0 (length (flat l)) (fun col => (col < ndim dd)%nat) (fun k col => cell_value l (k - k0) col).
  Proof.
    induction 1 as [|nd r s cs l Hty Hh Hwf Hsz Hr IH|nd r l Hty Hr IH]; intros k0 cur dm Hcur He; cbn [copy_nodes].
    - exists []. split; [reflexivity|]. split; [intros a v []|]. intros k col v Hk. cbn in Hk. lia.
    - rewrite Hty.
      cbn [flat flat_map fst snd] in He |- *. fold (flat l) in He |- *. rewrite app_length, map_length in He |- *.
      destruct (copy_columns_ok nd s cs Hh Hwf Hsz k0 (ndim dd) 0 cur dm) as (cur' & ws & E & Hcur' & Hf1 & Hf2).
      + reflexivity.
      + intros col Hc. lia.
      + intros col Hc. apply Hcur. lia.
      + intros j col Hj. apply He. lia.
      + rewrite E. cbn [obind].
        destruct (IH (k0 + length cs)%nat cur' (upd dm ws) Hcur') as (ws' & E' & G1 & G2).
        { intros j col Hj Hc. apply upd_exists, He; lia. }
        rewrite E'. exists (ws ++ ws'). split; [rewrite upd_app; reflexivity|].
        assert (forall k, (k < length cs)%nat -> forall col,
          cell_value ((s, nd_swap nd, cs) :: l) k col =
          match nth_error cs k with Some c => stored s (nd_swap nd) c col | None => None end) as CV1.
        { intros k Hk col. unfold cell_value. cbn [flat flat_map fst snd]. rewrite nth_error_app1 by (rewrite map_length; exact Hk).
          rewrite nth_error_map. destruct (nth_error cs k); reflexivity. }
        assert (forall k, (length cs <= k)%nat -> forall col,
          cell_value ((s, nd_swap nd, cs) :: l) k col = cell_value l (k - length cs) col) as CV2.
        { intros k Hk col. unfold cell_value. cbn [flat flat_map fst snd].
          rewrite nth_error_app2 by (rewrite map_length; exact Hk). rewrite map_length. reflexivity. }
        split.
        * intros a v Hin. apply in_app_or in Hin. destruct Hin as [Hin|Hin].
          -- destruct (Hf1 a v Hin) as (k & col & Hk & Hc & -> & Hv). exists k, col. repeat split; try lia.
             rewrite CV1 by lia. exact Hv.
          -- destruct (G1 a v Hin) as (k & col & Hk & Hc & -> & Hv). exists k, col. repeat split; try lia.
             rewrite CV2 by lia. replace (k - k0 - length cs)%nat with (k - (k0 + length cs))%nat by lia. exact Hv.
        * intros k col v Hk Hc Hv. apply in_or_app. destruct (Nat.lt_ge_cases (k - k0) (length cs)) as [Hlt|Hge].
          -- left. rewrite CV1 in Hv by lia. apply Hf2; [lia|lia|exact Hv].
          -- right. rewrite CV2 in Hv by lia. apply G2; [lia|lia|].
             replace (k - (k0 + length cs))%nat with (k - k0 - length cs)%nat by lia. exact Hv.
    - rewrite Hty. apply IH; assumption.
  Qed.

  Lemma stored_defined s sw c col : wf_coord s c -> (col < ndim dd)%nat -> exists v, stored s sw c col = Some v.
  Proof.
    intros [Hl _] Hc. unfold stored. destruct (ordinates_col col Hc) as (o & ->).
    destruct (position o (ordinates s)) as [j|] eqn:E; [|eauto].
    pose proof (position_lt _ _ _ E). destruct (nth_error c j) eqn:G; [eauto|]. apply nth_error_None in G. lia.
  Qed.

  Lemma seqs_of_wf nodes l : seqs_of nodes l -> Forall (fun x => wf_coord (fst (fst x)) (snd x)) (flat l).
  Proof.
    induction 1 as [|nd r s cs l Hty Hh Hwf Hsz Hr IH|]; [constructor| |assumption].
    cbn [flat flat_map fst snd]. apply Forall_app. split; [|exact IH].
    apply Forall_map. exact Hwf.
  Qed.

  Lemma copy_generic_ok nodes l dm : seqs_of nodes l -> room dm out0 os dd (length (flat l)) ->
    exists dm', copy_coords_generic m nodes out0 os (dim_code dd) dm = Ok dm' /\
      (forall k col, (k < length (flat l))%nat -> (col < ndim dd)%nat -> dm' (out_cell out0 os k col) = cell_value l k col) /\
      (forall a, (forall k col, (k < length (flat l))%nat -> (col < ndim dd)%nat -> a <> out_cell out0 os k col) -> dm' a = dm a).
  Proof.
    intros Hs [Hex Hinj]. unfold copy_coords_generic.
    assert (num_dimensions (dim_code dd) = Some (Z.of_nat (ndim dd))) as -> by (destruct dd; reflexivity).
    cbn [or_ub obind]. destruct (Z.ltb_spec (Z.of_nat (ndim dd)) 0); [lia|]. rewrite Nat2Z.id.
    destruct (copy_nodes_ok nodes l Hs 0 out0 dm) as (ws & E & F1 & F2).
    - intros col Hc. pose proof (ndim_bounds dd). unfold out_cell.
      destruct (qget_lt4 out0 col ltac:(lia)) as ([a1 a2] & ->), (qget_lt4 os col ltac:(lia)) as (st & ->).
      cbn [fst snd]. f_equal. f_equal. lia.
    - intros j col Hj. apply Hex. lia.
    - rewrite E. exists (upd dm ws). split; [reflexivity|]. split.
      + intros k col Hk Hc.
        destruct (nth_error (flat l) k) as [((s, sw), c)|] eqn:Ek; [|apply nth_error_None in Ek; lia].
        assert (wf_coord s c) as Hwc.
        { pose proof (seqs_of_wf _ _ Hs) as Hwf. rewrite Forall_forall in Hwf.
          apply (Hwf (s, sw, c)). eapply nth_error_In; eauto. }
        destruct (stored_defined s sw c col Hwc Hc) as (v & Hv).
        assert (cell_value l k col = Some v) as Hcv by (unfold cell_value; rewrite Ek; exact Hv).
        rewrite Hcv. apply upd_in.
        * apply F2; [lia|lia|]. rewrite Nat.sub_0_r. exact Hcv.
        * intros v' Hin. destruct (F1 _ _ Hin) as (k' & col' & Hk' & Hc' & Ea & Hv'). rewrite Nat.sub_0_r in Hv'.
          destruct (Hinj _ _ _ _ Hk Hc (proj2 Hk') Hc' Ea) as [<- <-]. congruence.
      + intros a Ha. apply upd_frame. intros Hin. apply in_map_iff in Hin. destruct Hin as ((a', v) & Ea & Hin).
        cbn in Ea. subst a'. destruct (F1 _ _ Hin) as (k & col & Hk & Hc & -> & _). apply (Ha k col); [lia|exact Hc|reflexivity].
  Qed.
End Copy.

(** ** The sequences of a geometry *)

Lemma repr_seqs m : forall g, wf_geom g -> forall lvl nodes, repr_geom m lvl nodes g ->
  exists l, seqs_of m nodes l /\ map (fun x => (fst (fst x), snd x)) (flat l) = geom_coords g /\
    (forall s sw c, In (s, sw, c) (flat l) -> exists nd, In nd nodes /\ nd_swap nd = sw /\ nd_dims nd = dimN s).
Proof.
  assert (forall ty lvl d cs nd, is_sequence ty = true -> seq_node m ty lvl d cs nd -> wf_seq d cs ->
    seqs_of m [nd] [(d, nd_swap nd, cs)]) as Hone.
  { intros ty lvl d cs nd Ht Hn Hwf. constructor.
    - rewrite (sn_type _ _ _ _ _ _ Hn). exact Ht.
    - eapply seq_node_holds; eauto.
    - exact Hwf.
    - apply Hn.
    - constructor. }
  assert (forall d sw (cs : list coord),
    map (fun x : dim * bool * coord => (fst (fst x), snd x)) (flat [(d, sw, cs)]) = map (pair d) cs) as Hflat1.
  { intros d sw cs. unfold flat. cbn [flat_map fst snd]. rewrite app_nil_r, map_map. reflexivity. }
  assert (forall d sw (cs : list coord) s sw' c, In (s, sw', c) (flat [(d, sw, cs)]) -> s = d /\ sw' = sw) as Hin1.
  { intros d sw cs s sw' c H. unfold flat in H. cbn [flat_map fst snd] in H. rewrite app_nil_r in H.
    apply in_map_iff in H. destruct H as (x & E & _). injection E as -> -> ->. auto. }
  induction g as [d cs|d cs|d rings|k d parts IH] using geom_ind'; intros Hwf lvl nodes Hr; inversion Hr; inversion Hwf; subst.
  - match goal with H : seq_node _ _ _ _ _ ?n |- _ => exists [(d, nd_swap n, cs)]; pose proof H as Hn end.
    split; [eapply Hone; eauto; reflexivity|]. split; [apply Hflat1|].
    intros s sw c Hin. destruct (Hin1 _ _ _ _ _ _ Hin) as [-> ->]. eexists; split; [left; reflexivity|].
    split; [reflexivity|apply Hn].
  - match goal with H : seq_node _ _ _ _ _ ?n |- _ => exists [(d, nd_swap n, cs)]; pose proof H as Hn end.
    split; [eapply Hone; eauto; reflexivity|]. split; [apply Hflat1|].
    intros s sw c Hin. destruct (Hin1 _ _ _ _ _ _ Hin) as [-> ->]. eexists; split; [left; reflexivity|].
    split; [reflexivity|apply Hn].
  - match goal with H : Forall2 _ rings ?r, I : inner_node _ _ _ _ ?n |- _ =>
      rename H into HF; rename r into rn; rename n into nd0; rename I into Hin0 end.
    match goal with H : Forall (wf_seq d) rings |- _ => rename H into HW end.
    cut (exists l, seqs_of m rn l /\ map (fun x => (fst (fst x), snd x)) (flat l) = map (pair d) (concat rings) /\
      (forall s sw c, In (s, sw, c) (flat l) -> exists nd, In nd rn /\ nd_swap nd = sw /\ nd_dims nd = dimN s)).
    { intros (l & H1 & H2 & H3). exists l. split; [|split].
      - apply so_inner; [|exact H1]. rewrite (in_type _ _ _ _ _ Hin0). reflexivity.
      - exact H2.
      - intros s sw c Hi. destruct (H3 _ _ _ Hi) as (x & Hx & Hy). exists x. split; [right; exact Hx|exact Hy]. }
    clear - HF HW Hone Hflat1 Hin1. induction HF as [|cs rn' rings rns Hs HF IH].
    + exists []. split; [constructor|]. split; [reflexivity|]. intros s sw c [].
    + inversion HW; subst. destruct IH as (l & H1' & H2' & H3'); [assumption|].
      exists ([(d, nd_swap rn', cs)] ++ l). split; [|split].
      * apply (seqs_of_app m [rn'] rns); [eapply Hone; eauto; reflexivity|exact H1'].
      * unfold flat. rewrite flat_map_app, map_app. fold (flat l). cbn [concat]. rewrite map_app, <- H2'. f_equal.
        apply Hflat1.
      * intros s sw c Hi. unfold flat in Hi. rewrite flat_map_app in Hi. apply in_app_or in Hi. destruct Hi as [Hi|Hi].
        -- destruct (Hin1 _ _ _ _ _ _ Hi) as [-> ->]. eexists; split; [left; reflexivity|]. split; [reflexivity|apply Hs].
        -- destruct (H3' _ _ _ Hi) as (x & Hx & Hy). exists x. split; [right; exact Hx|exact Hy].
  - match goal with H : repr_parts _ _ ?r parts, I : inner_node _ _ _ _ ?n |- _ =>
      rename H into HF; rename r into rn; rename n into nd0; rename I into Hin0 end.
    match goal with H : wf_geoms parts |- _ => rename H into HW end.
    cut (exists l, seqs_of m rn l /\ map (fun x => (fst (fst x), snd x)) (flat l) = flat_map geom_coords parts /\
      (forall s sw c, In (s, sw, c) (flat l) -> exists nd, In nd rn /\ nd_swap nd = sw /\ nd_dims nd = dimN s)).
    { intros (l & H1 & H2 & H3). exists l. split; [|split].
      - apply so_inner; [|exact H1]. rewrite (in_type _ _ _ _ _ Hin0). destruct k; reflexivity.
      - rewrite geom_coords_coll. exact H2.
      - intros s sw c Hi. destruct (H3 _ _ _ Hi) as (x & Hx & Hy). exists x. split; [right; exact Hx|exact Hy]. }
    clear - IH HF HW. remember (lvl + 1)%N as lv. clear Heqlv. revert IH HW. induction HF as [|lv g gs n1 n2 Hg Hgs IHg]; intros IH HW.
    + exists []. split; [constructor|]. split; [reflexivity|]. intros s sw c [].
    + inversion IH; inversion HW; subst.
      destruct IHg as (l & H1' & H2' & H3'); [assumption|assumption|].
      match goal with H : wf_geom g -> _, W : wf_geom g |- _ => destruct (H W _ _ Hg) as (l0 & G1 & G2 & G3) end.
      exists (l0 ++ l). split; [apply seqs_of_app; assumption|]. split.
      * unfold flat. rewrite flat_map_app, map_app. fold (flat l0) (flat l). rewrite G2, H2'. reflexivity.
      * intros s sw c Hi. unfold flat in Hi. rewrite flat_map_app in Hi. apply in_app_or in Hi. destruct Hi as [Hi|Hi].
        -- destruct (G3 _ _ _ Hi) as (x & Hx & Hy). exists x. split; [apply in_or_app; left; exact Hx|exact Hy].
        -- destruct (H3' _ _ _ Hi) as (x & Hx & Hy). exists x. split; [apply in_or_app; right; exact Hx|exact Hy].
Qed.

Lemma convert_nth s d c col o : nth_error (ordinates d) col = Some o ->
  nth_error (convert_coord s d c) col =
    Some (match position o (ordinates s) with Some i => nth i c qnan | None => qnan end).
Proof. intros H. unfold convert_coord. rewrite nth_error_map, H. reflexivity. Qed.

Lemma position_in o s : In o (ordinates s) -> position o (ordinates s) <> None.
Proof. destruct o, s; cbn; intuition discriminate. Qed.

Lemma copy_coords_correct m lvl nodes g out os d dm : nth_error m 0 = Some empty_point_coords ->
  repr_geom m lvl nodes g -> wf_geom g -> swapped_nodes_complete nodes d ->
  room dm out os d (length (geom_coords g)) ->
  exists dm', copy_coords_generic m nodes out os (dim_code d) dm = Ok dm' /\ copied dm dm' out os d (geom_coords g).
Proof.
  intros Hnan Hr Hwf Hsw Hroom. destruct (repr_seqs m g Hwf lvl nodes Hr) as (l & Hs & Hc & Hin).
  assert (length (geom_coords g) = length (flat l)) as Hlen by (rewrite <- Hc, map_length; reflexivity).
  rewrite Hlen in Hroom.
  destruct (copy_generic_ok m out os d Hnan nodes l dm Hs Hroom) as (dm' & E & Hv & Hf).
  exists dm'. split; [exact E|]. split; [|rewrite Hlen; exact Hf].
  intros k s c col Hk Hcol. rewrite <- Hc, nth_error_map in Hk.
  destruct (nth_error (flat l) k) as [((s0, sw), c0)|] eqn:Ek; [|discriminate]. cbn in Hk. injection Hk as -> ->.
  rewrite Hv; [|apply nth_error_Some; congruence|exact Hcol].
  unfold cell_value. rewrite Ek. unfold stored. destruct (ordinates_col d col Hcol) as (o & Ho). rewrite Ho.
  rewrite (convert_nth _ _ _ _ _ Ho).
  pose proof (seqs_of_wf m _ _ Hs) as HW. rewrite Forall_forall in HW.
  pose proof (HW _ (nth_error_In _ _ Ek)) as [HL _]. cbn [fst snd] in HL.
  destruct (position o (ordinates s)) as [j|] eqn:Ej.
  - apply nth_error_nth'. rewrite HL. eapply position_lt; eauto.
  - unfold decode_word. destruct sw; [|reflexivity]. exfalso.
    destruct (Hin _ _ _ (nth_error_In _ _ Ek)) as (nd & H1 & H2 & H3).
    apply (position_in o s); [|exact Ej]. apply (Hsw nd s H1 H2 H3). eapply nth_error_In; eauto.
Qed.

(** ** Counting *)

Lemma num_coords_app a b n : num_coords_from n (a ++ b) = num_coords_from (num_coords_from n a) b.
Proof. revert n; induction a as [|nd a IH]; intros n; [reflexivity|]. apply IH. Qed.

Lemma num_seq m ty lvl d cs nd n : ty = 1%N \/ ty = 2%N -> seq_node m ty lvl d cs nd ->
  num_coords_from n [nd] = wrap32 (n + N.of_nat (length cs)).
Proof.
  intros Hty H. cbn [num_coords_from]. rewrite (sn_type _ _ _ _ _ _ H), (sn_size _ _ _ _ _ _ H).
  destruct Hty; subst; reflexivity.
Qed.

Lemma wrap32_add_l a b : wrap32 (wrap32 a + b) = wrap32 (a + b).
Proof. apply N.add_mod_idemp_l. discriminate. Qed.
Lemma wrap32_wrap a : wrap32 (wrap32 a) = wrap32 a.
Proof. apply N.mod_mod. discriminate. Qed.

Lemma num_coords_geom m : forall g lvl nodes, repr_geom m lvl nodes g -> forall n, 
  num_coords_from (wrap32 n) nodes = wrap32 (n + N.of_nat (length (geom_coords g))).
Proof.
  induction g as [d cs|d cs|d rings|k d parts IH] using geom_ind'; intros lvl nodes Hr n; inversion Hr; subst.
  - erewrite num_seq; [|left; reflexivity|eassumption]. cbn [geom_coords]. rewrite map_length. apply wrap32_add_l.
  - erewrite num_seq; [|right; reflexivity|eassumption]. cbn [geom_coords]. rewrite map_length. apply wrap32_add_l.
  - cbn [num_coords_from geom_coords]. match goal with H : inner_node _ _ _ _ _ |- _ => rewrite (in_type _ _ _ _ _ H) end.
    change (is_sequence 3) with false. cbv iota. rewrite map_length.
    match goal with H : Forall2 _ _ _ |- _ => rename H into HF end. clear - HF. revert n.
    induction HF as [|cs rn rings rns H _ IH]; intros n; [cbn; rewrite N.add_0_r; reflexivity|].
    change (rn :: rns) with ([rn] ++ rns). rewrite num_coords_app, (num_seq _ _ _ _ _ _ _ (or_intror eq_refl) H), wrap32_add_l, IH.
    cbn [concat]. rewrite app_length. f_equal. lia.
  - cbn [num_coords_from]. match goal with H : inner_node _ _ _ _ _ |- _ => rewrite (in_type _ _ _ _ _ H); clear H end.
    replace (is_sequence (coll_code k)) with false by (destruct k; reflexivity). rewrite geom_coords_coll.
    match goal with H : repr_parts _ _ _ _ |- _ => rename H into Hp end. clear Hr. generalize dependent rest. revert n.
    generalize (lvl + 1)%N as lv. intros lv.
    induction IH as [|g gs Hg _ IHgs]; intros n rest Hp; inversion Hp; subst; [cbn; rewrite N.add_0_r; reflexivity|].
    cbn [flat_map]. rewrite num_coords_app. erewrite Hg by eassumption. erewrite IHgs by eassumption.
    rewrite app_length. f_equal. lia.
Qed.

Lemma num_coords_ok m lvl nodes g : repr_geom m lvl nodes g -> num_coords nodes = wrap32 (N.of_nat (length (geom_coords g))).
Proof. intros H. exact (num_coords_geom m g lvl nodes H 0%N). Qed.
