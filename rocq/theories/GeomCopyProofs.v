From Verif Require Import Base BaseFacts TypesModel GeomSpec GeomFacts NodesModel NodesSpec VisitorModel VisitorSpec VisitorFacts
  BufferModel BufferFacts GeomVisitModel GeomVisitProofs WkbSpec WkbReaderProofs WkbWriterSpec CopyCoordsModel
  GeomBuildModel GeomBuildSpec GeomBuildProofs GeomBuildRoll.
Local Open Scope Z_scope.

(** ** Deep copies *)

Lemma point_at_meta d start stride nd : let nd' := point_at (ndim d) 0 start stride nd in
  nd_size nd' = nd_size nd /\ nd_type nd' = nd_type nd /\ nd_dims nd' = nd_dims nd /\ nd_swap nd' = nd_swap nd /\ nd_level nd' = nd_level nd.
Proof. destruct d; repeat split. Qed.

Lemma point_at_get d b off stride nd j : (j < ndim d)%nat -> let nd' := point_at (ndim d) 0 (b, off) stride nd in
  qget (nd_coords nd') j = Some (b, off + Z.of_nat j * 8) /\ qget (nd_stride nd') j = Some stride.
Proof. intros Hj. destruct d; cbn [ndim ordinates length] in Hj; destruct j as [|[|[|[|j]]]]; try lia; split; reflexivity. Qed.

Lemma ordinate_words m b data nd d off cs l : nth_error m b = Some data -> tail_at data off (enc_coords LE cs ++ l) -> wf_seq d cs ->
  nd_swap nd = false -> forall i j c, nth_error cs i = Some c -> (j < ndim d)%nat ->
  qget (nd_coords nd) j = Some (b, off + Z.of_nat j * 8) -> qget (nd_stride nd) j = Some (Z.of_nat (ndim d) * 8) ->
  node_ordinate m nd (Z.of_nat i) j = nth_error c j.
Proof.
  intros Hm Ht Hwf Hsw i j c Hi Hj Hq Hs. unfold node_ordinate. rewrite Hq, Hs, Hsw.
  assert (wf_coord d c) as [Hlen Hw] by (apply (proj1 (Forall_forall _ _) Hwf); eapply nth_error_In; exact Hi).
  destruct (nth_error c j) as [w|] eqn:Ew; [|apply nth_error_None in Ew; lia].
  assert (w < 2 ^ 64)%N as Hw64 by (apply (proj1 (Forall_forall _ _) Hw); eapply nth_error_In; exact Ew).
  unfold load64, load_bytes, ptr_add. cbn [fst snd]. rewrite Hm.
  rewrite (seq_words data off LE d cs l i j c w Ht Hwf Hi Ew Hj).
  cbn [enc64]. rewrite le_val_bytes by exact Hw64. reflexivity.
Qed.

Lemma point_at_repr m m' b data ty lvl d off cs l nd : seq_node m ty lvl d cs nd -> nd_swap nd = false -> wf_seq d cs ->
  nth_error m' b = Some data -> tail_at data off (enc_coords LE cs ++ l) ->
  seq_node m' ty lvl d cs (point_at (ndim d) 0 (b, off) (Z.of_nat (ndim d) * 8) nd).
Proof.
  intros [S1 S2 S3 S4 _] Hsw Hwf Hm Ht.
  destruct (point_at_meta d (b, off) (Z.of_nat (ndim d) * 8) nd) as (M1 & M2 & M3 & M4 & M5).
  split; try congruence. intros i j c Hi Hj.
  destruct (point_at_get d b off (Z.of_nat (ndim d) * 8) nd j Hj) as [G1 G2].
  eapply ordinate_words; try eassumption. rewrite M4. exact Hsw.
Qed.

(** The two passes over a part of the node list that denotes something with coordinates [bs]. *)
Definition copies (m : mem) (nodes : list node) (bs : bytes) (P : mem -> list node -> Prop) : Prop :=
  forall rest, (forall total, total_bytes m rest = Ok total -> total_bytes m (nodes ++ rest) = Ok (Z.of_nat (length bs) + total)) /\
  forall blk pos room, Z.of_nat (length bs) <= room -> exists nodes',
    (forall rest' brest, copy_seqs m blk (pos + Z.of_nat (length bs)) (room - Z.of_nat (length bs)) rest = Ok (rest', brest) ->
       copy_seqs m blk pos room (nodes ++ rest) = Ok (nodes' ++ rest', bs ++ brest)) /\
    forall m' data l, nth_error m' blk = Some data -> tail_at data pos (bs ++ l) -> P m' nodes'.

Lemma flat_words cs : flat_map (le_bytes 8) (concat cs) = enc_coords LE cs.
Proof. rewrite enc_coords_concat. reflexivity. Qed.

Lemma seq_copies m ty lvl d cs nd : ty = 1%N \/ ty = 2%N -> seq_node m ty lvl d cs nd -> wf_seq d cs -> seq_small d cs ->
  nd_swap nd = false ->
  copies m [nd] (enc_coords LE cs) (fun m' ns => exists nd', ns = [nd'] /\ seq_node m' ty lvl d cs nd').
Proof.
  intros Hty Hs Hwf Hsm Hsw rest.
  assert (is_sequence (nd_type nd) = true) as Hseq by (rewrite (sn_type _ _ _ _ _ _ Hs); destruct Hty; subst; reflexivity).
  assert (Z.of_nat (length (enc_coords LE cs)) = Z.of_nat (ndim d * length cs * 8)) as Hlen
    by (rewrite (enc_coords_length LE d cs Hwf); lia).
  split.
  - intros total Ht. cbn [app total_bytes]. rewrite Hseq, Ht.
    destruct cs as [|c cs].
    + rewrite (write_sequence_ok m nd d []); [|apply (seq_node_holds _ _ _ _ _ _ Hs)|constructor|apply Hs|exact Hsm|cbn; lia].
      cbn [obind]. rewrite Hlen. reflexivity.
    + unfold write_sequence. rewrite (sn_dims _ _ _ _ _ _ Hs), num_dimensions_dimN, (sn_size _ _ _ _ _ _ Hs). cbn [or_ub obind].
      pose proof (ndim_bounds d). unfold seq_small in Hsm.
      replace (Z.to_N (Z.of_nat (ndim d) mod 4294967296)) with (N.of_nat (ndim d)) by (rewrite Z.mod_small by lia; lia).
      rewrite wrap32_id by lia.
      destruct (Z.ltb_spec 0 (Z.of_N (N.of_nat (ndim d) * N.of_nat (length (c :: cs)) * 8))) as [_|Hbad].
      * cbn [obind]. rewrite Hlen. f_equal. f_equal. lia.
      * exfalso. cbn [length] in Hbad. lia.
  - intros blk pos room Hroom. exists [point_at (ndim d) 0 (blk, pos) (Z.of_nat (ndim d) * 8) nd]. split.
    + intros rest' brest Hr. cbn [app copy_seqs]. rewrite Hseq, (sn_dims _ _ _ _ _ _ Hs), num_dimensions_dimN. cbn [or_ub obind].
      rewrite (write_sequence_ok m nd d cs);
        [|apply (seq_node_holds _ _ _ _ _ _ Hs)|exact Hwf|apply Hs|exact Hsm|lia].
      cbn [or_ub obind]. rewrite Nat2Z.id, flat_words, <- Hlen, Hr. reflexivity.
    + intros m' data l Hm Ht. eexists. split; [reflexivity|]. eapply point_at_repr; eassumption.
Qed.

Lemma inner_copies m nd bs nodes P : is_sequence (nd_type nd) = false -> copies m nodes bs P ->
  copies m (nd :: nodes) bs (fun m' ns => exists ns', ns = nd :: ns' /\ P m' ns').
Proof.
  intros Hty H rest. destruct (H rest) as [H1 H2]. split.
  - intros total Ht. cbn [app total_bytes]. rewrite Hty. apply H1, Ht.
  - intros blk pos room Hroom. destruct (H2 blk pos room Hroom) as (ns & A & B). exists (nd :: ns). split.
    + intros rest' brest Hr. cbn [app copy_seqs]. rewrite Hty, (A _ _ Hr). reflexivity.
    + intros m' data l Hm Ht. eexists. split; [reflexivity|]. eapply B; eassumption.
Qed.

Lemma app_copies m n1 n2 b1 b2 P1 P2 : copies m n1 b1 P1 -> copies m n2 b2 P2 ->
  copies m (n1 ++ n2) (b1 ++ b2) (fun m' ns => exists a b, ns = a ++ b /\ P1 m' a /\ P2 m' b).
Proof.
  intros C1 C2 rest. destruct (C1 (n2 ++ rest)) as [T1 K1], (C2 rest) as [T2 K2]. split.
  - intros total Ht. rewrite <- app_assoc. rewrite (T1 _ (T2 _ Ht)), app_length. f_equal. lia.
  - intros blk pos room Hroom. rewrite app_length in Hroom.
    destruct (K1 blk pos room ltac:(lia)) as (a & A1 & A2).
    destruct (K2 blk (pos + Z.of_nat (length b1)) (room - Z.of_nat (length b1)) ltac:(lia)) as (b & B1 & B2).
    exists (a ++ b). split.
    + intros rest' brest Hr. rewrite <- !app_assoc. apply A1, B1. rewrite app_length in Hr.
      replace (pos + Z.of_nat (length b1) + Z.of_nat (length b2)) with (pos + Z.of_nat (length b1 + length b2)) by lia.
      replace (room - Z.of_nat (length b1) - Z.of_nat (length b2)) with (room - Z.of_nat (length b1 + length b2)) by lia. exact Hr.
    + intros m' data l Hm Ht. rewrite <- app_assoc in Ht. exists a, b. split; [reflexivity|]. split.
      * eapply A2; eassumption.
      * eapply B2; [exact Hm|]. exact (tail_at_adv _ _ _ _ Ht).
Qed.

Lemma nil_copies m : copies m [] [] (fun _ ns => ns = []).
Proof.
  intros rest. split.
  - intros total Ht. cbn [app length]. rewrite Ht. reflexivity.
  - intros blk pos room _. exists []. split; [|reflexivity]. intros rest' brest Hr. cbn [app length] in *.
    rewrite Z.add_0_r, Z.sub_0_r in Hr. exact Hr.
Qed.

Lemma copies_weaken m ns bs (P Q : mem -> list node -> Prop) : (forall m' n, P m' n -> Q m' n) -> copies m ns bs P -> copies m ns bs Q.
Proof.
  intros W H rest. destruct (H rest) as [H1 H2]. split; [exact H1|]. intros blk pos room Hr.
  destruct (H2 blk pos room Hr) as (n & A & B). exists n. split; [exact A|]. intros m' data l Hm Ht. apply W. eapply B; eassumption.
Qed.

Lemma rings_copies m lvl d rings rns : Forall2 (fun cs rn => seq_node m 2 lvl d cs rn) rings rns -> Forall (wf_seq d) rings ->
  Forall (seq_small d) rings -> native_order rns ->
  copies m rns (rings_bytes rings) (fun m' ns => Forall2 (fun cs rn => seq_node m' 2 lvl d cs rn) rings ns).
Proof.
  induction 1 as [|cs rn rings rns H _ IH]; intros Hwf Hsm Hnat.
  - eapply copies_weaken; [|apply nil_copies]. intros m' n ->. constructor.
  - inversion Hwf; inversion Hsm; subst. unfold rings_bytes. cbn [concat]. rewrite enc_coords_app.
    eapply copies_weaken; [|apply (app_copies m [rn] rns (enc_coords LE cs) (rings_bytes rings));
      [apply (seq_copies m 2 lvl d cs rn); auto; apply Hnat; left; reflexivity
      |apply IH; auto; intros x Hx; apply Hnat; right; exact Hx]].
    intros m' n (a & b & -> & (nd' & -> & Hs) & Hb). cbn [app]. constructor; assumption.
Qed.

Lemma coll_not_seq k : is_sequence (coll_code k) = false.
Proof. destruct k; reflexivity. Qed.

Lemma geom_copies m g : forall lvl nodes, repr_geom m lvl nodes g -> wf_geom g -> small_geom g -> native_order nodes ->
  copies m nodes (gbytes g) (fun m' ns => repr_geom m' lvl ns g).
Proof.
  induction g as [d cs|d cs|d rings|k d parts IH] using geom_ind'; intros lvl nodes Hr Hwf Hsm Hnat;
    inversion Hr; inversion Hwf; inversion Hsm; subst.
  - rewrite gbytes_point. eapply copies_weaken; [|apply (seq_copies m 1 lvl d cs nd); auto; apply Hnat; left; reflexivity].
    intros m' n (nd' & -> & Hs). constructor. exact Hs.
  - rewrite gbytes_line. eapply copies_weaken; [|apply (seq_copies m 2 lvl d cs nd); auto; apply Hnat; left; reflexivity].
    intros m' n (nd' & -> & Hs). constructor. exact Hs.
  - rewrite gbytes_poly. eapply copies_weaken; [|apply inner_copies; [|apply (rings_copies m (lvl + 1) d rings ring_nodes); auto]].
    + intros m' n (ns & -> & Hs). cbv beta in Hs. constructor; assumption.
    + match goal with H : inner_node 3 _ _ _ _ |- _ => rewrite (in_type _ _ _ _ _ H) end. reflexivity.
    + intros x Hx. apply Hnat. right. exact Hx.
  - rewrite gbytes_coll. eapply copies_weaken; [|apply (inner_copies m nd (flat_map gbytes parts) rest (fun m' ns => repr_parts m' (lvl + 1) ns parts))].
    + intros m' n (ns & -> & Hs). cbv beta in Hs. constructor; assumption.
    + match goal with H : inner_node (coll_code k) _ _ _ _ |- _ => rewrite (in_type _ _ _ _ _ H) end. apply coll_not_seq.
    + assert (native_order rest) as Hnat' by (intros x Hx; apply Hnat; right; exact Hx).
      match goal with H : repr_parts _ _ _ _ |- _ => rename H into Hp end.
      match goal with H : wf_geoms parts |- _ => rename H into Hw end.
      match goal with H : Forall small_geom parts |- _ => rename H into Hs end.
      match goal with H : inner_node _ _ _ _ _ |- _ => clear H end.
      clear Hr Hwf Hsm Hnat. generalize dependent rest. generalize (lvl + 1)%N as lv.
      intros lv. induction IH as [|g gs Hg _ IHgs]; intros rest Hp Hnat; inversion Hp; inversion Hw; inversion Hs; subst.
      * cbn [flat_map]. eapply copies_weaken; [|apply nil_copies]. intros m' n ->. constructor.
      * cbn [flat_map]. eapply copies_weaken; [|apply app_copies].
        -- intros m' n (a & b & -> & Ha & Hb). constructor; [exact Ha|exact Hb].
        -- apply Hg; auto. intros x Hx. apply Hnat, in_or_app. left. exact Hx.
        -- apply IHgs; auto. intros x Hx. apply Hnat, in_or_app. right. exact Hx.
Qed.

Theorem deep_copy_ok m lvl nodes g : repr_geom m lvl nodes g -> wf_geom g -> small_geom g -> native_order nodes ->
  exists nodes' bs, deep_copy m (length m) nodes = Ok (nodes', bs) /\
    forall m', length m' = length m -> repr_geom (m' ++ [bs]) lvl nodes' g.
Proof.
  intros Hr Hwf Hsm Hnat. destruct (geom_copies m g lvl nodes Hr Hwf Hsm Hnat []) as [T K].
  specialize (T 0 eq_refl). rewrite app_nil_r, Z.add_0_r in T.
  destruct (K (length m) 0 (Z.of_nat (length (gbytes g))) ltac:(lia)) as (nodes' & A & B).
  exists nodes', (gbytes g). split.
  - unfold deep_copy. rewrite T. cbn [obind]. specialize (A [] [] eq_refl). rewrite !app_nil_r in A. exact A.
  - intros m' Hm'. apply (B (m' ++ [gbytes g]) (gbytes g) []).
    + rewrite <- Hm'. apply nth_error_app_len.
    + rewrite app_nil_r. apply tail_at_0.
Qed.

(** ** Nodes set to interleaved or separated coordinates *)

Lemma bytes_at_slice m b p bs : bytes_at m (b, p) bs -> exists data, nth_error m b = Some data /\ slice data p (length bs) = Some bs.
Proof. unfold bytes_at, load_bytes. cbn [fst snd]. destruct (nth_error m b); [eauto|discriminate]. Qed.

Lemma slice_tail data p bs : slice data p (length bs) = Some bs -> exists l, tail_at data p (bs ++ l).
Proof.
  unfold slice. destruct (_ && _) eqn:E; [|discriminate]. intros H. injection H as H.
  exists (skipn (length bs) (skipn (Z.to_nat p) data)). exists (firstn (Z.to_nat p) data). split.
  - rewrite <- (firstn_skipn (Z.to_nat p) data) at 1. f_equal. rewrite <- H at 1. symmetry. apply firstn_skipn.
  - rewrite firstn_length. lia.
Qed.

Lemma set_interleaved_ok m nd ty d b p cs : bytes_at m (b, p) (rows cs) -> wf_seq d cs -> count32 cs -> (ty < 256)%N ->
  nd_swap nd = false ->
  exists nd', node_set_interleaved nd ty (dimN d) (b, p) (Z.of_nat (length (rows cs))) = Ok nd' /\
    seq_node m ty (nd_level nd) d cs nd'.
Proof.
  intros Hb Hwf Hc Hty Hsw. destruct (bytes_at_slice _ _ _ _ Hb) as (data & Hm & Hsl).
  destruct (slice_tail _ _ _ Hsl) as (l & Ht). change (rows cs) with (enc_coords LE cs) in *.
  unfold node_set_interleaved. rewrite num_dimensions_dimN. cbn [or_ub obind]. eexists. split; [reflexivity|].
  pose proof (ndim_bounds d) as Hd. unfold count32 in Hc.
  split; cbn [nd_type nd_dims nd_level nd_size].
  - apply N.mod_small, Hty.
  - apply dimN_mod.
  - reflexivity.
  - rewrite (enc_coords_length LE d cs Hwf).
    replace (Z.of_nat (8 * (length cs * ndim d))) with (Z.of_nat (length cs) * (Z.of_nat (ndim d) * 8)) by lia.
    rewrite Z.quot_mul, Z.mod_small by lia. lia.
  - intros i j c Hi Hj. eapply ordinate_words; try eassumption; cbn [nd_coords nd_stride].
    + destruct j as [|[|[|[|j]]]]; try (exfalso; lia); cbn; unfold ptr_add; cbn [fst snd]; rewrite ?Z.add_0_r; reflexivity.
    + destruct j as [|[|[|[|j]]]]; try (exfalso; lia); reflexivity.
Qed.

Lemma column_length (cs : list coord) j : length (flat_map (fun c : coord => le_bytes 8 (nth j c 0%N)) cs) = (8 * length cs)%nat.
Proof. induction cs as [|c cs IH]; [reflexivity|]. cbn [flat_map length]. rewrite app_length, le_bytes_length, IH. lia. Qed.

Lemma columns_length d cs : length (columns d cs) = (8 * (length cs * ndim d))%nat.
Proof.
  unfold columns. replace (ndim d) with (length (seq 0 (ndim d))) at 2 by apply seq_length.
  induction (seq 0 (ndim d)) as [|j js IH]; [cbn; lia|]. cbn [flat_map length]. rewrite app_length, column_length, IH. lia.
Qed.

Lemma column_at (cs : list coord) i j c : nth_error cs i = Some c ->
  exists a b, flat_map (fun c : coord => le_bytes 8 (nth j c 0%N)) cs = a ++ le_bytes 8 (nth j c 0%N) ++ b /\ length a = (8 * i)%nat.
Proof.
  revert i; induction cs as [|x cs IH]; intros [|i] Hi; try discriminate.
  - injection Hi as ->. exists [], (flat_map (fun c : coord => le_bytes 8 (nth j c 0%N)) cs). split; reflexivity.
  - cbn [nth_error] in Hi. destruct (IH i Hi) as (a & b & E & L). exists (le_bytes 8 (nth j x 0%N) ++ a), b. split.
    + cbn [flat_map]. rewrite E, <- app_assoc. reflexivity.
    + rewrite app_length, le_bytes_length, L. lia.
Qed.

Lemma columns_at d (cs : list coord) i j c : nth_error cs i = Some c -> (j < ndim d)%nat ->
  exists a b, columns d cs = a ++ le_bytes 8 (nth j c 0%N) ++ b /\ length a = (8 * length cs * j + 8 * i)%nat.
Proof.
  intros Hi Hj. unfold columns.
  assert (forall n s, (s <= j < s + n)%nat -> exists a b,
    flat_map (fun j => flat_map (fun c : coord => le_bytes 8 (nth j c 0%N)) cs) (seq s n) = a ++ le_bytes 8 (nth j c 0%N) ++ b /\
    length a = (8 * length cs * (j - s) + 8 * i)%nat) as H.
  { induction n as [|n IH]; intros s Hs; [lia|]. cbn [seq flat_map].
    destruct (Nat.eq_dec j s) as [->|Hne].
    - destruct (column_at cs i s c Hi) as (a & b & E & L). rewrite E.
      exists a. eexists. rewrite <- !app_assoc. split; [reflexivity|]. lia.
    - destruct (IH (S s) ltac:(lia)) as (a & b & E & L). rewrite E.
      exists (flat_map (fun c : coord => le_bytes 8 (nth s c 0%N)) cs ++ a), b. rewrite <- app_assoc. split; [reflexivity|].
      rewrite app_length, column_length, L. nia. }
  destruct (H (ndim d) 0%nat ltac:(lia)) as (a & b & E & L). exists a, b. split; [exact E|]. rewrite L. f_equal. f_equal. lia.
Qed.

Lemma set_separated_ok m nd ty d b p cs : bytes_at m (b, p) (columns d cs) -> wf_seq d cs -> count32 cs -> (ty < 256)%N ->
  nd_swap nd = false ->
  exists nd', node_set_separated nd ty (dimN d) (b, p) (Z.of_nat (length (columns d cs))) = Ok nd' /\
    seq_node m ty (nd_level nd) d cs nd'.
Proof.
  intros Hb Hwf Hc Hty Hsw. destruct (bytes_at_slice _ _ _ _ Hb) as (data & Hm & Hsl).
  destruct (slice_tail _ _ _ Hsl) as (l & Ht).
  unfold node_set_separated. rewrite num_dimensions_dimN. cbn [or_ub obind]. eexists. split; [reflexivity|].
  pose proof (ndim_bounds d) as Hd. unfold count32 in Hc.
  assert (Z.quot (Z.of_nat (length (columns d cs))) (Z.of_nat (ndim d)) = Z.of_nat (length cs) * 8) as Hdim.
  { rewrite columns_length. replace (Z.of_nat (8 * (length cs * ndim d))) with (Z.of_nat (length cs) * 8 * Z.of_nat (ndim d)) by lia.
    apply Z.quot_mul. lia. }
  rewrite Hdim.
  split; cbn [nd_type nd_dims nd_level nd_size].
  - apply N.mod_small, Hty.
  - apply dimN_mod.
  - reflexivity.
  - rewrite Z.quot_mul, Z.mod_small by lia. lia.
  - intros i j c Hi Hj. unfold node_ordinate. cbn [nd_coords nd_stride nd_swap]. rewrite Hsw.
    assert (@qget ptr (@Quad ptr (b, p) (ptr_add (b, p) (Z.of_nat (length cs) * 8)) (ptr_add (b, p) (2 * (Z.of_nat (length cs) * 8)))
      (ptr_add (b, p) (3 * (Z.of_nat (length cs) * 8)))) j = Some (b, p + Z.of_nat j * (Z.of_nat (length cs) * 8))) as ->.
    { destruct j as [|[|[|[|j]]]]; try (exfalso; lia); cbn; unfold ptr_add; cbn [fst snd]; do 2 f_equal; lia. }
    assert (qget (qconst 8) j = Some 8) as -> by (destruct j as [|[|[|[|j]]]]; try (exfalso; lia); reflexivity).
    assert (wf_coord d c) as [Hlen Hw] by (apply (proj1 (Forall_forall _ _) Hwf); eapply nth_error_In; exact Hi).
    destruct (columns_at d cs i j c Hi Hj) as (x & y & E & L).
    destruct Ht as (pre & Epre & Lpre).
    unfold load64, load_bytes, ptr_add. cbn [fst snd]. rewrite Hm, Epre, E.
    replace (pre ++ (x ++ le_bytes 8 (nth j c 0%N) ++ y) ++ l) with ((pre ++ x) ++ le_bytes 8 (nth j c 0%N) ++ (y ++ l))
      by (rewrite <- !app_assoc; reflexivity).
    replace (p + Z.of_nat j * (Z.of_nat (length cs) * 8) + Z.of_nat i * 8) with (Z.of_nat (length (pre ++ x)))
      by (rewrite app_length, L; nia).
    rewrite slice_app_at by apply le_bytes_length.
    destruct (nth_error c j) as [w|] eqn:Ew; [|apply nth_error_None in Ew; lia].
    rewrite (nth_error_nth _ _ _ Ew).
    assert (w < 2 ^ 64)%N as Hw64 by (apply (proj1 (Forall_forall _ _) Hw); eapply nth_error_In; exact Ew).
    rewrite le_val_bytes by exact Hw64. reflexivity.
Qed.
