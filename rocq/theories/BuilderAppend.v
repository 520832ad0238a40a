(** * Appending coordinates to a builder *)
From Verif Require Import Base BaseFacts TypesModel TypesProofs GeomSpec BufferModel BufferFacts CoordsModel CoordsSpec CoordsProofs BitmapModel BitmapProofs
  ArrowModel ArrayViewModel NativeSpec NativeProofs GeomFacts NodesModel NodesSpec CopyCoordsModel CopyCoordsSpec CopyCoordsProofs
  BuilderModel BuilderFacts BuilderCoords NativeWriterModel NativeWriterSpec.
Local Open Scope Z_scope.

(** ** Buffers as doubles *)
Lemma find_block_ok bufs q c : NoDup (map bf_id bufs) -> nth_error bufs q = Some c -> find_block bufs (bf_id c) = Some (bf c).
Proof.
  unfold find_block. revert q; induction bufs as [|x bufs IH]; intros [|q] Hn H; cbn [nth_error] in H; try discriminate.
  - injection H as ->. cbn. rewrite Nat.eqb_refl. reflexivity.
  - cbn [map] in Hn. inversion Hn; subst. cbn [find]. destruct (Nat.eqb_spec (bf_id x) (bf_id c)) as [E|E].
    + exfalso. apply H2. rewrite E. apply in_map. eapply nth_error_In; eauto.
    + eauto.
Qed.

Lemma dmem_at b src q c i : good b -> nth_error (bd_bufs b) q = Some c -> builder_dmem b src (bf_id c, i) = double_at (w_mem (bf c)) i.
Proof.
  intros ((Hn & Hf) & _ & _) Hc. unfold builder_dmem.
  rewrite Forall_forall in Hf. pose proof (Hf c (nth_error_In _ _ Hc)). unfold source_block.
  destruct (Nat.eqb_spec (bf_id c) 1); [lia|]. rewrite (find_block_ok _ _ _ Hn Hc). reflexivity.
Qed.

Lemma double_at_some m i : 0 <= i -> 8 * (i + 1) <= Z.of_nat (length m) -> exists w, double_at m i = Some w.
Proof.
  intros H1 H2. unfold double_at. destruct (proj2 (slice_some_iff m (8 * i) 8) ltac:(lia)) as (b & ->). eexists; reflexivity.
Qed.

Lemma double_at_bound m i w : wf_bytes m -> double_at m i = Some w -> (w < 2 ^ 64)%N.
Proof.
  intros Hm. unfold double_at. destruct (slice m (8 * i) 8) as [bs|] eqn:E; [|discriminate]. intros H. injection H as <-.
  pose proof (slice_length _ _ _ _ E) as L. pose proof (le_val_bound bs (slice_wf _ _ _ _ Hm E)) as B. rewrite L in B. exact B.
Qed.

Lemma flat_map_length8 (f : nat -> N) l : length (flat_map (fun i => le_bytes 8 (f i)) l) = (8 * length l)%nat.
Proof. induction l as [|x l IH]; [reflexivity|]. cbn [flat_map length]. rewrite app_length, le_bytes_length, IH. lia. Qed.

Lemma slice_flat (f : nat -> N) : forall n s i rest, (i < n)%nat ->
  slice (flat_map (fun i => le_bytes 8 (f i)) (seq s n) ++ rest) (8 * Z.of_nat i) 8 = Some (le_bytes 8 (f (s + i)%nat)).
Proof.
  intros n s i rest Hi.
  replace n with (i + S (n - S i))%nat by lia. rewrite seq_app, flat_map_app. cbn [seq flat_map].
  rewrite <- !app_assoc.
  replace (8 * Z.of_nat i) with (Z.of_nat (length (flat_map (fun i => le_bytes 8 (f i)) (seq s i)))).
  2:{ rewrite flat_map_length8, seq_length. lia. }
  apply slice_app_at. apply le_bytes_length.
Qed.

Lemma refill_length m c : length (w_mem (bf (refill m c))) = length (w_mem (bf c)).
Proof.
  unfold refill. cbn [bf w_mem]. rewrite app_length.
  rewrite (flat_map_length8 (fun i => match m (bf_id c, Z.of_nat i) with Some v => v | None => 0%N end)).
  rewrite seq_length, skipn_length. pose proof (Nat.div_mod (length (w_mem (bf c))) 8 ltac:(lia)). lia.
Qed.

Lemma refill_at m c i v : 0 <= i -> 8 * (i + 1) <= Z.of_nat (length (w_mem (bf c))) -> m (bf_id c, i) = Some v -> (v < 2 ^ 64)%N ->
  double_at (w_mem (bf (refill m c))) i = Some v.
Proof.
  intros H0 H1 Hm Hv. unfold double_at, refill. cbn [bf w_mem].
  set (f := fun i : nat => match m (bf_id c, Z.of_nat i) with Some v => v | None => 0%N end).
  replace (8 * i) with (8 * Z.of_nat (Z.to_nat i)) by lia.
  rewrite (slice_flat f).
  2:{ apply Nat.div_le_lower_bound; lia. }
  cbn [option_map]. f_equal. rewrite le_val_bytes.
  - unfold f. rewrite Nat.add_0_l, Z2Nat.id, Hm by lia. reflexivity.
  - unfold f. rewrite Nat.add_0_l, Z2Nat.id, Hm by lia. exact Hv.
Qed.

Lemma refill_wf m c : wf_bytes (w_mem (bf c)) -> wf_bytes (w_mem (bf (refill m c))).
Proof.
  intros H. unfold refill. cbn [bf w_mem]. apply wf_bytes_app. split.
  - unfold wf_bytes. rewrite Forall_flat_map. apply Forall_forall. intros. apply le_bytes_wf.
  - unfold wf_bytes in *. rewrite <- (firstn_skipn (8 * (length (w_mem (bf c)) / 8)) (w_mem (bf c))) in H. apply Forall_app in H. tauto.
Qed.

Lemma skip_skip {A} (x y : nat) (l : list A) : skipn x (skipn y l) = skipn (x + y) l.
Proof. revert l; induction y as [|y IH]; intros l; [rewrite Nat.add_0_r; reflexivity|]. rewrite Nat.add_succ_r. destruct l; [rewrite !skipn_nil; reflexivity|]. cbn. apply IH. Qed.

Lemma chop8 (mm : bytes) (f : nat -> N) : forall n s, (8 * (s + n) <= length mm)%nat ->
  (forall i, (s <= i < s + n)%nat -> slice mm (8 * Z.of_nat i) 8 = Some (le_bytes 8 (f i))) ->
  flat_map (fun i => le_bytes 8 (f i)) (seq s n) ++ skipn (8 * (s + n)) mm = skipn (8 * s) mm.
Proof.
  induction n as [|n IH]; intros s HL H; cbn [seq flat_map].
  - rewrite Nat.add_0_r. reflexivity.
  - rewrite <- app_assoc. replace (s + S n)%nat with (S s + n)%nat in * by lia.
    rewrite IH; [|lia|intros i Hi; apply H; lia].
    specialize (H s ltac:(lia)). unfold slice in H. destruct (_ && _); [|discriminate].
    assert (forall x y : bytes, Some x = Some y -> y = x) as Hs by (intros; congruence). apply Hs in H. rewrite H. replace (Z.to_nat (8 * Z.of_nat s)) with (8 * s)%nat by lia.
    replace (8 * S s)%nat with (8 + 8 * s)%nat by lia. rewrite <- skip_skip. apply firstn_skipn.
Qed.

Lemma refill_same m c : wf_bytes (w_mem (bf c)) -> (forall i, m (bf_id c, i) = double_at (w_mem (bf c)) i) -> refill m c = c.
Proof.
  intros Hw Hm. unfold refill. destruct c as [id w]. cbn [bf bf_id] in *. f_equal. destruct w as [mm sz]. cbn [w_mem w_size] in *. f_equal.
  set (n := (length mm / 8)%nat). assert (8 * n <= length mm)%nat as Hn.
  { unfold n. pose proof (Nat.div_mod (length mm) 8 ltac:(lia)). lia. }
  change (8 * n)%nat with (8 * (0 + n))%nat.
  rewrite (chop8 mm (fun i => match m (id, Z.of_nat i) with Some v => v | None => 0%N end)); [reflexivity|lia|].
  intros i Hi. rewrite Hm. unfold double_at.
  destruct (proj2 (slice_some_iff mm (8 * Z.of_nat i) 8) ltac:(lia)) as (bs & E). rewrite E. cbn [option_map]. f_equal.
  rewrite <- (slice_length _ _ _ _ E). symmetry. apply le_bytes_val. exact (slice_wf _ _ _ _ Hw E).
Qed.

Lemma convert_coord_wf s d c : wf_coord s c -> wf_coord d (convert_coord s d c).
Proof.
  intros (_ & H). split; [apply convert_length|]. unfold convert_coord. rewrite Forall_forall in *. intros w Hw. apply in_map_iff in Hw as (o & <- & _).
  destruct (position o (ordinates s)) as [i|]; [|reflexivity].
  destruct (Nat.lt_ge_cases i (length c)) as [Hi|Hi]; [apply H, nth_In, Hi|]. rewrite nth_overflow by exact Hi. reflexivity.
Qed.

(** ** Where the next coordinates go *)
Lemma quad_of_get values j : length values = 8%nat -> (j < 4)%nat -> qget (quad_of values) j = nth_error values j.
Proof.
  intros L Hj. do 8 (destruct values as [|? values]; [discriminate L|]).
  destruct j as [|[|[|[|]]]]; [reflexivity..|lia].
Qed.

Lemma dst_cell l d base b cs r j : coord_cfg l d base b -> coords_in l d b base cs -> 0 < bd_cap b -> (j < ndim d)%nat ->
  exists c, nth_error (bd_bufs b) (base + col_of l j) = Some c /\ qget (quad_of (bd_values b)) j = Some (bf_id c, idx_of l d 0 j) /\
    cell (dst_view b) r j = (bf_id c, idx_of l d r j).
Proof.
  intros Hc Hi Hp Hj. destruct (ci_vals _ _ _ _ _ Hi Hp j Hj) as (c & Ec & Ev). exists c. split; [exact Ec|].
  pose proof (ndim_bounds d). pose proof (quad_of_get (bd_values b) j (ci_len _ _ _ _ _ Hi) ltac:(lia)) as Hq. rewrite Ev in Hq.
  split; [exact Hq|]. unfold cell, dst_view. cbn [cv_values cv_stride]. rewrite Hq. cbn [fst snd].
  rewrite (cc_stride _ _ _ _ Hc), (idx_step l d r). reflexivity.
Qed.

(** Storing [new] after the coordinates that are already there. *)
Lemma store_coords l d base b cs new src m' : coord_cfg l d base b -> good b -> coords_in l d b base cs ->
  bd_size b + Z.of_nat (length new) <= bd_cap b -> wf_seq d new ->
  (forall r c j w cb, nth_error new r = Some c -> nth_error c j = Some w -> nth_error (bd_bufs b) (base + col_of l j) = Some cb ->
     m' (bf_id cb, idx_of l d (bd_size b + Z.of_nat r) j) = Some w) ->
  (forall a, (forall r j cb, (r < length new)%nat -> (j < ndim d)%nat -> nth_error (bd_bufs b) (base + col_of l j) = Some cb ->
                a <> (bf_id cb, idx_of l d (bd_size b + Z.of_nat r) j)) -> m' a = builder_dmem b src a) ->
  let b' := with_coord_view (write_back b m') (bd_values b) (bd_size b + Z.of_nat (length new)) (bd_cap b) in
  good b' /\ coords_in l d b' base (cs ++ new) /\ length (bd_bufs b') = length (bd_bufs b) /\
  forall j, (j < base \/ base + ncols l d <= j)%nat -> nth_error (bd_bufs b') j = nth_error (bd_bufs b) j.
Proof.
  intros Hcfg Hg Hci Hroom Hnew Hval Hfr b'. pose proof Hg as ((Hnd & Hids) & Hmems & Hnext).
  assert (forall q c, nth_error (bd_bufs b) q = Some c -> wf_bytes (w_mem (bf c))) as Hwf.
  { intros q c Hc. unfold mems_ok in Hmems. rewrite Forall_forall in Hmems. apply Hmems. eapply nth_error_In; eauto. }
  assert (forall q q' c c', nth_error (bd_bufs b) q = Some c -> nth_error (bd_bufs b) q' = Some c' -> bf_id c = bf_id c' -> q = q') as Hinj.
  { intros q q' c c' H1 H2 E. apply (NoDup_nth_error (map bf_id (bd_bufs b))).
    - exact Hnd.
    - rewrite map_length. apply nth_error_Some. congruence.
    - rewrite !nth_error_map, H1, H2. cbn. congruence. }
  split; [|split; [|split]].
  - split; [|split]; subst b'; cbn [bd_bufs bd_next with_coord_view write_back with_bufs].
    + split.
      * rewrite map_map. exact Hnd.
      * rewrite Forall_forall in *. intros c Hc. apply in_map_iff in Hc as (c0 & <- & Hc0). cbn [refill bf_id]. auto.
    + unfold mems_ok in *. rewrite Forall_forall in *. intros c Hc. apply in_map_iff in Hc as (c0 & <- & Hc0). apply refill_wf. auto.
    + exact Hnext.
  - pose proof Hci as [(W & HW & Hcols) Hsz Hcap Hvals Hlen Hdata Hwfs].
    assert (forall q, nth_error (bd_bufs b') q = option_map (refill m') (nth_error (bd_bufs b) q)) as Hb'.
    { intros q. subst b'. cbn [bd_bufs with_coord_view write_back with_bufs]. apply nth_error_map. }
    constructor; cbn [b' bd_cap bd_size bd_values with_coord_view].
    + exists W. split; [exact HW|]. intros q Hq. destruct (Hcols q Hq) as (c & Ec & Wc & Sc).
      exists (refill m' c). rewrite Hb', Ec. split; [reflexivity|]. unfold w_cap. rewrite refill_length. split; [exact Wc|].
      cbn [refill bf w_size]. unfold b'. cbn [bd_size with_coord_view]. pose proof (step_pos l d). nia.
    + rewrite app_length. lia.
    + unfold b'. cbn [bd_cap with_coord_view]. lia.
    + intros Hp j Hj. destruct (Hvals Hp j Hj) as (c & Ec & Ev). exists (refill m' c). rewrite Hb', Ec. split; [reflexivity|exact Ev].
    + exact Hlen.
    + intros r c j w Hr Hj.
      assert (j < ndim d)%nat as Lj.
      { assert (In c (cs ++ new)) as Hin by (eapply nth_error_In; eauto).
        assert (wf_coord d c) as (Lc & _).
        { unfold wf_seq in Hnew, Hwfs. rewrite Forall_forall in Hnew, Hwfs. apply in_app_or in Hin as [Hin|Hin]; auto. }
        rewrite <- Lc. apply nth_error_Some. congruence. }
      destruct (Hcols (col_of l j) (col_lt l d j Lj)) as (cb & Ecb & Wcb & _).
      exists (refill m' cb). rewrite Hb', Ecb. split; [reflexivity|].
      assert (r < length (cs ++ new))%nat as Lr by (apply nth_error_Some; congruence). rewrite app_length in Lr.
      pose proof (idx_lt l d (Z.of_nat r) j (bd_cap b) Lj ltac:(lia)) as Hix.
      unfold w_cap in Wcb. pose proof (step_pos l d).
      assert (8 * (idx_of l d (Z.of_nat r) j + 1) <= Z.of_nat (length (w_mem (bf cb)))) as Hfit by nia.
      destruct (Nat.lt_ge_cases r (length cs)) as [Hlt|Hge].
      * rewrite nth_error_app1 in Hr by exact Hlt. destruct (Hdata r c j w Hr Hj) as (cb' & Ecb' & Hv).
        rewrite Ecb in Ecb'. injection Ecb' as <-.
        apply refill_at; [lia|exact Hfit| |eapply double_at_bound; eauto].
        rewrite Hfr; [rewrite (dmem_at _ _ _ _ _ Hg Ecb); exact Hv|].
        intros r' j' cb' Hr' Hj' Ecb' E. injection E as E1 E2.
        pose proof (Hinj _ _ _ _ Ecb Ecb' E1) as Hq. apply place_inj in E2; [|exact Lj|exact Hj'|lia]. lia.
      * rewrite nth_error_app2 in Hr by exact Hge.
        apply refill_at; [lia|exact Hfit| |].
        -- replace (Z.of_nat r) with (bd_size b + Z.of_nat (r - length cs)) by lia. eapply Hval; eauto.
        -- unfold wf_seq in Hnew. rewrite Forall_forall in Hnew. destruct (Hnew c (nth_error_In _ _ Hr)) as (_ & Hw).
           rewrite Forall_forall in Hw. apply Hw. eapply nth_error_In; eauto.
    + apply Forall_app. split; assumption.
  - subst b'. cbn [bd_bufs with_coord_view write_back with_bufs]. apply map_length.
  - intros q Hq. subst b'. cbn [bd_bufs with_coord_view write_back with_bufs]. rewrite nth_error_map.
    destruct (nth_error (bd_bufs b) q) as [c|] eqn:Ec; [|reflexivity]. cbn [option_map]. f_equal.
    apply refill_same; [eauto|]. intros i. rewrite Hfr; [eapply dmem_at; eauto|].
    intros r j cb _ Hj Ecb E. injection E as E1 _. pose proof (Hinj _ _ _ _ Ec Ecb E1). pose proof (col_lt l d j Hj). lia.
Qed.

Section Junk.
  Variable junk : nat -> nat -> N.
  Hypothesis junk_bytes : forall i j, is_byte (junk i j).

  (** GeoArrowBuilderCoordsAppend of coordinates read from the source block. *)
  Lemma coords_append_ok l d base b cs s new src sv : coord_cfg l d base b -> good b -> coords_in l d b base cs -> wf_seq s new ->
    (forall i c, nth_error new i = Some c -> forall b0, read_coord (builder_dmem b0 src) sv s (Z.of_nat i) c) ->
    (forall r j, (j < ndim s)%nat -> fst (cell sv r j) = source_block) ->
    exists b', coords_append junk b src sv (dim_code s) 0 (Z.of_nat (length new)) = Ok b' /\ good b' /\
      coords_in l d b' base (cs ++ map (convert_coord s d) new) /\ coord_cfg l d base b' /\
      (exists bufs next values size cap, b' = with_coord_view (with_bufs b bufs next) values size cap) /\
      length (bd_bufs b') = length (bd_bufs b) /\
      forall j, (j < base \/ base + ncols l d <= j)%nat -> nth_error (bd_bufs b') j = nth_error (bd_bufs b) j.
  Proof.
    intros Hcfg Hg Hci Hwf Hread Hblk. unfold coords_append.
    destruct (coords_reserve_ok junk junk_bytes l d base b cs (Z.of_nat (length new)) Hcfg Hg Hci ltac:(lia))
      as (b1 & E1 & G1 & C1 & Hroom & (bufs & next & values & cap & Eb1) & Lb1 & Hsame).
    rewrite E1. cbn [obind].
    assert (coord_cfg l d base b1) as Hcfg1.
    { subst b1. destruct Hcfg. constructor; assumption. }
    assert (wf_seq d (map (convert_coord s d) new)) as Hwf'.
    { unfold wf_seq in *. rewrite Forall_forall in *. intros c Hc. apply in_map_iff in Hc as (c0 & <- & Hc0).
      apply convert_coord_wf. apply Hwf. exact Hc0. }
    set (n := Z.of_nat (length new)) in *.
    assert (forall i, in_range n i -> (Z.to_nat i < length new)%nat) as Hin by (unfold in_range, n; lia).
    assert (0 <= bd_size b1) as Hs1 by (rewrite (ci_size _ _ _ _ _ C1); lia).
    assert (forall i, in_range n i -> 0 < bd_cap b1) as Hpos by (unfold in_range; lia).
    assert (forall i j, in_range n i -> (j < ndim d)%nat -> exists c, nth_error (bd_bufs b1) (base + col_of l j) = Some c /\
       cell (dst_view b1) (bd_size b1 + i) j = (bf_id c, idx_of l d (bd_size b1 + i) j)) as Hcell.
    { intros i j Hi Hj. destruct (dst_cell l d base b1 cs (bd_size b1 + i) j Hcfg1 C1 (Hpos i Hi) Hj) as (c & Ec & _ & Ecell). eauto. }
    pose proof G1 as ((Hnd & Hids) & _ & _).
    assert (forall q q' c c', nth_error (bd_bufs b1) q = Some c -> nth_error (bd_bufs b1) q' = Some c' -> bf_id c = bf_id c' -> q = q') as Hinj.
    { intros q q' c c' H1 H2 E. apply (NoDup_nth_error (map bf_id (bd_bufs b1))).
      - exact Hnd.
      - rewrite map_length. apply nth_error_Some. congruence.
      - rewrite !nth_error_map, H1, H2. cbn. congruence. }
    destruct (coord_view_copy_correct sv (dst_view b1) s d 0 (bd_size b1) n (builder_dmem b1 src)
                (fun i => nth (Z.to_nat i) new [])) as (m' & Em & Hv & Hf).
    - intros i Hi. rewrite Z.add_0_l. specialize (Hread (Z.to_nat i) (nth (Z.to_nat i) new []) (nth_error_nth' _ _ (Hin i Hi)) b1).
      rewrite Z2Nat.id in Hread by (unfold in_range in Hi; lia). exact Hread.
    - intros i j Hi Hj. destruct (Hcell i j Hi Hj) as (c & Ec & ->). rewrite (dmem_at _ _ _ _ _ G1 Ec).
      destruct (ci_cols _ _ _ _ _ C1) as (W & HW & Hcols). destruct (Hcols _ (col_lt l d j Hj)) as (c' & Ec' & Wc' & _).
      rewrite Ec in Ec'. injection Ec' as <-. unfold w_cap in Wc'. unfold in_range in Hi.
      pose proof (idx_lt l d (bd_size b1 + i) j (bd_cap b1) Hj ltac:(lia)). pose proof (step_pos l d).
      destruct (double_at_some (w_mem (bf c)) (idx_of l d (bd_size b1 + i) j)) as (w & ->); [lia|nia|]. discriminate.
    - intros i j i' j' Hi Hi' Hj Hj' E.
      destruct (Hcell i j Hi Hj) as (c & Ec & Er). destruct (Hcell i' j' Hi' Hj') as (c' & Ec' & Er'). rewrite Er, Er' in E.
      injection E as Ei Ex. pose proof (Hinj _ _ _ _ Ec Ec' Ei).
      apply place_inj in Ex as (? & ?); [|exact Hj|exact Hj'|lia]. split; [lia|assumption].
    - intros i j i' j' Hi Hi' Hj Hj' E. destruct (Hcell i' j' Hi' Hj') as (c' & Ec' & Er'). rewrite Er' in E.
      pose proof (Hblk (0 + i) j Hj) as Hb. rewrite E in Hb. cbn [fst] in Hb. rewrite Forall_forall in Hids.
      pose proof (Hids c' (nth_error_In _ _ Ec')). unfold source_block in Hb. lia.
    - cbn [dst_view cv_n_values]. apply (cc_nv _ _ _ _ Hcfg1).
    - rewrite (cc_dims _ _ _ _ Hcfg1), Em. cbn [obind].
      destruct (store_coords l d base b1 cs (map (convert_coord s d) new) src m' Hcfg1 G1 C1) as (G2 & C2 & L2 & S2).
      + rewrite map_length. exact Hroom.
      + exact Hwf'.
      + intros r c j w cb Hr Hj Hcb. rewrite nth_error_map in Hr. change (option_map (convert_coord s d) (@nth_error coord new r) = Some c) in Hr.
        destruct (@nth_error coord new r) as [c0|] eqn:E0; cbn [option_map] in Hr; [|discriminate]. injection Hr as <-.
        assert (r < length new)%nat as Lr by (apply nth_error_Some; congruence).
        assert (in_range n (Z.of_nat r)) as Hi by (unfold in_range, n; lia).
        destruct (Hv (Z.of_nat r) Hi) as (Lc & Hrd).
        assert (j < ndim d)%nat as Lj.
        { rewrite <- Lc, Nat2Z.id, (nth_error_nth _ _ _ E0). apply nth_error_Some. congruence. }
        specialize (Hrd j Lj). destruct (Hcell (Z.of_nat r) j Hi Lj) as (c' & Ec' & Er'). rewrite Er' in Hrd.
        rewrite Ec' in Hcb. injection Hcb as <-. rewrite Hrd, Nat2Z.id, (nth_error_nth _ _ _ E0). exact Hj.
      + intros a Ha. apply Hf. intros i j Hi Hj. destruct (Hcell i j Hi Hj) as (c' & Ec' & Er'). rewrite Er'.
        pose proof (Hin i Hi). unfold in_range in Hi. specialize (Ha (Z.to_nat i) j c'). rewrite map_length in Ha.
        rewrite Z2Nat.id in Ha by lia. apply Ha; auto.
      + rewrite map_length in *. cbn [bd_values bd_size bd_cap write_back with_bufs]. fold n in G2, C2, L2, S2.
        eexists. split; [reflexivity|]. split; [exact G2|]. split; [exact C2|]. split.
        { destruct Hcfg1. constructor; assumption. }
        split; [|split].
        * subst b1. exists (map (refill m') bufs), next, values, (bd_size b + n), cap. reflexivity.
        * etransitivity; [exact L2|exact Lb1].
        * intros j Hj. etransitivity; [apply (S2 j Hj)|apply Hsame; exact Hj].
  Qed.

  (** The coordinates of a visitor event. *)
  Lemma nth_error_concat (cs : list coord) n : forall r j c, Forall (fun c : coord => length c = n) cs -> nth_error cs r = Some c -> (j < n)%nat ->
    nth_error (concat cs) (r * n + j) = nth_error c j.
  Proof.
    induction cs as [|c0 cs IH]; intros [|r] j c HF Hr Hj; cbn [nth_error] in Hr; try discriminate; inversion HF; subst.
    - injection Hr as ->. cbn [concat]. rewrite Nat.mul_0_l, Nat.add_0_l. apply nth_error_app1. lia.
    - cbn [concat]. rewrite nth_error_app2 by lia. replace (S r * length c0 + j - length c0)%nat with (r * length c0 + j)%nat by lia.
      eapply IH; eauto.
  Qed.

  Lemma source_cell s r j : (j < ndim s)%nat -> cell (source_view (N.of_nat (ndim s))) r j = (source_block, Z.of_nat j + r * Z.of_nat (ndim s)).
  Proof. intros Hj. unfold cell, source_view. destruct s; do 4 (destruct j as [|j]; [first [reflexivity|exfalso; cbn in Hj; lia]|]); cbn in Hj; lia. Qed.

  Lemma source_read s new i c b0 : wf_seq s new -> nth_error new i = Some c ->
    read_coord (builder_dmem b0 (concat new)) (source_view (N.of_nat (ndim s))) s (Z.of_nat i) c.
  Proof.
    intros Hwf Hi.
    assert (Forall (fun c : coord => length c = ndim s) new) as HF.
    { unfold wf_seq in Hwf. rewrite Forall_forall in *. intros x Hx. apply (Hwf x Hx). }
    split. { rewrite Forall_forall in HF. apply HF. eapply nth_error_In; eauto. }
    intros j Hj. rewrite source_cell by exact Hj. unfold builder_dmem. rewrite Nat.eqb_refl.
    destruct (Z.ltb_spec (Z.of_nat j + Z.of_nat i * Z.of_nat (ndim s)) 0); [nia|].
    replace (Z.to_nat (Z.of_nat j + Z.of_nat i * Z.of_nat (ndim s))) with (i * ndim s + j)%nat by nia.
    eapply nth_error_concat; eauto.
  Qed.

  Lemma event_coords_append l d base b cs s new : coord_cfg l d base b -> good b -> coords_in l d b base cs -> wf_seq s new ->
    exists b', coords_append junk b (concat new) (source_view (N.of_nat (ndim s))) (dim_code s) 0 (Z.of_nat (length new)) = Ok b' /\ good b' /\
      coords_in l d b' base (cs ++ map (convert_coord s d) new) /\ coord_cfg l d base b' /\
      (exists bufs next values size cap, b' = with_coord_view (with_bufs b bufs next) values size cap) /\
      length (bd_bufs b') = length (bd_bufs b) /\
      forall j, (j < base \/ base + ncols l d <= j)%nat -> nth_error (bd_bufs b') j = nth_error (bd_bufs b) j.
  Proof.
    intros Hcfg Hg Hci Hwf. apply coords_append_ok with (cs := cs); auto.
    - intros. apply source_read; assumption.
    - intros r j Hj. rewrite source_cell by exact Hj. reflexivity.
  Qed.

  Lemma convert_nan s d : convert_coord s d (nan_coord s) = nan_coord d.
  Proof. destruct s, d; reflexivity. Qed.

  Lemma unknown_src sv dst dd so dof n m : coord_view_copy sv 0 so dst (dim_code dd) dof n m = coord_view_copy sv (dim_code XY) so dst (dim_code dd) dof n m.
  Proof. destruct dd; reflexivity. Qed.

  (** Dimensions a visitor may have seen: none, or those of a geometry. *)
  Definition seen_dims (z : Z) : Prop := z = 0 \/ exists s, z = dim_code s.

  Lemma empty_coord_append l d base b cs z n_values : coord_cfg l d base b -> good b -> coords_in l d b base cs -> seen_dims z ->
    exists b', coords_append junk b empty_coord_values (empty_coord n_values) z 0 1 = Ok b' /\ good b' /\
      coords_in l d b' base (cs ++ [nan_coord d]) /\ coord_cfg l d base b' /\
      (exists bufs next values size cap, b' = with_coord_view (with_bufs b bufs next) values size cap) /\
      length (bd_bufs b') = length (bd_bufs b) /\
      forall j, (j < base \/ base + ncols l d <= j)%nat -> nth_error (bd_bufs b') j = nth_error (bd_bufs b) j.
  Proof.
    intros Hcfg Hg Hci Hz.
    assert (exists s, coords_append junk b empty_coord_values (empty_coord n_values) z 0 1 =
      coords_append junk b empty_coord_values (empty_coord n_values) (dim_code s) 0 1) as (s & ->).
    { destruct Hz as [->|(s & ->)]; [|eauto]. exists XY. unfold coords_append.
      destruct (coords_reserve_ok junk junk_bytes l d base b cs 1 Hcfg Hg Hci ltac:(lia))
        as (b1 & -> & _ & _ & _ & (bufs & next & values & cap & Eb1) & _). cbn [obind].
      assert (bd_dims b1 = dim_code d) as -> by (subst b1; apply (cc_dims _ _ _ _ Hcfg)).
      rewrite unknown_src. reflexivity. }
    rewrite <- (convert_nan s d). change [convert_coord s d (nan_coord s)] with (map (convert_coord s d) [nan_coord s]).
    change 1 with (Z.of_nat (length [nan_coord s])). apply coords_append_ok with (cs := cs); auto.
    - constructor; [|constructor]. destruct s; (split; [reflexivity|repeat constructor]).
    - intros [|i] c Hc b0; [|destruct i; discriminate]. injection Hc as <-. destruct s; (split; [reflexivity|]); intros j Hj;
        do 4 (destruct j as [|j]; [first [reflexivity|exfalso; cbn in Hj; lia]|]); cbn in Hj; lia.
    - intros r j Hj. unfold cell, empty_coord. destruct s; do 4 (destruct j as [|j]; [first [reflexivity|exfalso; cbn in Hj; lia]|]); cbn in Hj; lia.
  Qed.

  (** GeoArrowNativeWriterAppendCoordsUnsafe after a reservation. *)
  Lemma geom_coords_append l d base b cs m lvl nodes g : coord_cfg l d base b -> good b -> coords_in l d b base cs ->
    nth_error m 0 = Some empty_point_coords -> repr_geom m lvl nodes g -> wf_geom g -> swapped_nodes_complete nodes d ->
    bd_size b + Z.of_nat (length (geom_coords g)) <= bd_cap b ->
    exists b', append_coords_unsafe b m nodes = Ok b' /\
      let b' := with_coord_view b' (bd_values b') (bd_size b' + Z.of_nat (length (geom_coords g))) (bd_cap b') in
      good b' /\ coords_in l d b' base (cs ++ map (fun sc => convert_coord (fst sc) d (snd sc)) (geom_coords g)) /\ coord_cfg l d base b' /\
      (exists bufs next values size cap, b' = with_coord_view (with_bufs b bufs next) values size cap) /\
      length (bd_bufs b') = length (bd_bufs b) /\
      forall j, (j < base \/ base + ncols l d <= j)%nat -> nth_error (bd_bufs b') j = nth_error (bd_bufs b) j.
  Proof.
    intros Hcfg Hg Hci Hm Hr Hwf Hsw Hroom. unfold append_coords_unsafe. rewrite (cc_dims _ _ _ _ Hcfg).
    set (out := Quad _ _ _ _). set (os := qconst (bd_stride b)).
    set (n := length (geom_coords g)) in *.
    assert (0 <= bd_size b) as Hs by (rewrite (ci_size _ _ _ _ _ Hci); lia).
    assert (forall k j, (k < n)%nat -> (j < ndim d)%nat -> exists c, nth_error (bd_bufs b) (base + col_of l j) = Some c /\
       out_cell out os k j = (bf_id c, idx_of l d (bd_size b + Z.of_nat k) j)) as Hcell.
    { intros k j Hk Hj. destruct (dst_cell l d base b cs (bd_size b + Z.of_nat k) j Hcfg Hci ltac:(lia) Hj) as (c & Ec & Eq & _).
      exists c. split; [exact Ec|]. pose proof (ndim_bounds d). rewrite (idx_step l d (bd_size b + Z.of_nat k)).
      pose proof (cc_stride _ _ _ _ Hcfg) as Est.
      unfold out_cell, out, os. destruct j as [|[|[|[|j]]]]; [..|lia]; cbn [qget qconst q0 q1 q2 q3] in *; unfold quad_of in *; cbn [qget q0 q1 q2 q3] in *;
        injection Eq as Eq; rewrite Eq; cbn [fst snd]; rewrite Est; f_equal; ring. }
    pose proof Hg as ((Hnd & Hids) & _ & _).
    assert (forall q q' c c', nth_error (bd_bufs b) q = Some c -> nth_error (bd_bufs b) q' = Some c' -> bf_id c = bf_id c' -> q = q') as Hinj.
    { intros q q' c c' H1 H2 E. apply (NoDup_nth_error (map bf_id (bd_bufs b))).
      - exact Hnd.
      - rewrite map_length. apply nth_error_Some. congruence.
      - rewrite !nth_error_map, H1, H2. cbn. congruence. }
    destruct (copy_coords_correct m lvl nodes g out os d (builder_dmem b []) Hm Hr Hwf Hsw) as (m' & Em & Hv & Hf).
    - split.
      + intros k j Hk Hj. destruct (Hcell k j Hk Hj) as (c & Ec & ->). rewrite (dmem_at _ _ _ _ _ Hg Ec).
        destruct (ci_cols _ _ _ _ _ Hci) as (W & HW & Hcols). destruct (Hcols _ (col_lt l d j Hj)) as (c' & Ec' & Wc' & _).
        rewrite Ec in Ec'. injection Ec' as <-. unfold w_cap in Wc'. fold n in Hk.
        pose proof (idx_lt l d (bd_size b + Z.of_nat k) j (bd_cap b) Hj ltac:(lia)). pose proof (step_pos l d).
        destruct (double_at_some (w_mem (bf c)) (idx_of l d (bd_size b + Z.of_nat k) j)) as (w & ->); [lia|nia|]. discriminate.
      + intros k j k' j' Hk Hj Hk' Hj' E.
        destruct (Hcell k j Hk Hj) as (c & Ec & Er). destruct (Hcell k' j' Hk' Hj') as (c' & Ec' & Er'). rewrite Er, Er' in E.
        injection E as Ei Ex. pose proof (Hinj _ _ _ _ Ec Ec' Ei).
        apply place_inj in Ex as (? & ?); [|exact Hj|exact Hj'|lia]. split; [lia|assumption].
    - rewrite Em. cbn [obind]. eexists. split; [reflexivity|]. cbn zeta.
      set (new := map (fun sc => convert_coord (fst sc) d (snd sc) : coord) (geom_coords g) : list coord).
      assert (@length coord new = n) as Ln by apply map_length.
      assert (Forall (fun sc => wf_coord (fst sc) (snd sc)) (geom_coords g)) as Hall by (apply geom_coords_wf; exact Hwf).
      destruct (store_coords l d base b cs new [] m' Hcfg Hg Hci) as (G2 & C2 & L2 & S2).
      + rewrite Ln. exact Hroom.
      + unfold wf_seq, new. rewrite Forall_map. eapply Forall_impl; [|exact Hall]. intros a Ha. apply convert_coord_wf. exact Ha.
      + intros r c j w cb Hr' Hj Hcb. assert (r < n)%nat as Lr by (rewrite <- Ln; apply nth_error_Some; congruence).
        unfold new in Hr'. rewrite nth_error_map in Hr'. set (o := nth_error _ _) in Hr'. destruct o as [(s0, c0)|] eqn:E0; cbn [option_map fst snd] in Hr'; [|discriminate].
        unfold o in E0. injection Hr' as <-.
        assert (j < ndim d)%nat as Lj. { rewrite <- (convert_length s0 d c0). apply nth_error_Some. congruence. }
        destruct (Hcell r j Lr Lj) as (c' & Ec' & Er'). rewrite Ec' in Hcb. injection Hcb as <-. rewrite <- Er', (Hv r s0 c0 j E0 Lj). exact Hj.
      + intros a Ha. apply Hf. intros k j Hk Hj. destruct (Hcell k j Hk Hj) as (c' & Ec' & Er'). rewrite Er'. apply Ha; auto. rewrite Ln. exact Hk.
      + rewrite Ln in *. split; [exact G2|]. split; [exact C2|]. split.
        { destruct Hcfg. constructor; assumption. }
        split; [|split].
        * exists (map (refill m') (bd_bufs b)), (bd_next b), (bd_values b), (bd_size b + Z.of_nat n), (bd_cap b). reflexivity.
        * exact L2.
        * exact S2.
  Qed.
End Junk.
