(** * Finishing an array of a native writer *)
From Verif Require Import Base BaseFacts TypesModel GeomSpec VisitorModel BufferModel BufferFacts CoordsModel BitmapModel BitmapSpec BitmapProofs
  ArrowModel ArrayViewModel NativeSpec NativeProofs GeomFacts
  BuilderModel BuilderSpec BuilderRun BuilderFacts BuilderCoords BuilderFinish BuilderProofs
  NativeWriterModel NativeWriterSpec NativeWriterFacts NativeWriterAppend NativeWriterGeom NativeWriterArray.
Local Open Scope Z_scope.

Lemma nth_map_combine {A B} (f : nat * A -> B) : forall (l : list A) s i,
  nth_error (map f (combine (seq s (length l)) l)) i = option_map (fun c => f ((s + i)%nat, c)) (nth_error l i).
Proof.
  induction l as [|x l IH]; intros s i; [destruct i; reflexivity|]. cbn [length seq combine map]. destruct i as [|i]; cbn [nth_error option_map]; [rewrite Nat.add_0_r; reflexivity|].
  rewrite IH. replace (S s + i)%nat with (s + S i)%nat by lia. reflexivity.
Qed.

Lemma sync_nth l d base b i : coord_cfg l d base b ->
  nth_error (sync_coord_sizes b) i = option_map (fun c => if Nat.leb base i && Nat.ltb i (base + ncols l d) then max_size c (8 * step l d * bd_size b) else c)
                                                (nth_error (bd_bufs b) i).
Proof.
  intros [H1 H2 H3 H4 H5]. unfold sync_coord_sizes. rewrite H2, H3, H5. destruct l.
  - change (layout_code Separate =? CT_INTERLEAVED) with false. change (layout_code Separate =? CT_SEPARATE) with true. cbn iota. rewrite nth_map_combine. cbn [fst snd Nat.add].
    destruct (nth_error (bd_bufs b) i) as [c|]; [|reflexivity]. cbn [option_map ncols step]. f_equal.
    replace (8 * 1 * bd_size b) with (bd_size b * 8) by lia.
    destruct (Nat.leb_spec base i), (Nat.ltb_spec i (base + ndim d)), (Z.leb_spec (Z.of_nat (base + ndim d) - 1 - Z.of_nat (ndim d) + 1) (Z.of_nat i)),
      (Z.leb_spec (Z.of_nat i) (Z.of_nat (base + ndim d) - 1)); try lia; reflexivity.
  - change (layout_code Interleaved =? CT_INTERLEAVED) with true. cbn iota. rewrite nth_map_combine. cbn [fst snd Nat.add].
    destruct (nth_error (bd_bufs b) i) as [c|]; [|reflexivity]. cbn [option_map ncols step]. f_equal.
    replace (8 * Z.of_nat (ndim d) * bd_size b) with (bd_size b * 8 * Z.of_nat (ndim d)) by lia.
    destruct (Nat.leb_spec base i), (Nat.ltb_spec i (base + 1)), (Z.eqb_spec (Z.of_nat i) (Z.of_nat (base + 1) - 1)); try lia; reflexivity.
Qed.

Lemma slice_firstn n m p k : p + Z.of_nat k <= Z.of_nat n -> (n <= length m)%nat -> slice (firstn n m) p k = slice m p k.
Proof.
  intros H Hn. rewrite <- (firstn_skipn n m) at 2. rewrite slice_app_l; [reflexivity|]. rewrite firstn_length. lia.
Qed.

Lemma skipn_nth {A} n (l : list A) i : nth_error (skipn n l) i = nth_error l (n + i).
Proof. revert l. induction n as [|n IH]; intros l; [reflexivity|]. destruct l; [destruct i; reflexivity|]. cbn [skipn]. apply IH. Qed.
Lemma firstn_nth {A} n (l : list A) i x : nth_error (firstn n l) i = Some x -> nth_error l i = Some x /\ (i < n)%nat.
Proof.
  revert l i. induction n as [|n IH]; intros l i H; [destruct i; discriminate|]. destruct l as [|y l]; [destruct i; discriminate|].
  destruct i as [|i]; cbn in *; [split; [exact H|lia]|]. destruct (IH _ _ H). split; [assumption|lia].
Qed.

Section Junk.
  Variable junk : nat -> nat -> N.
  Hypothesis junk_bytes : forall i j, is_byte (junk i j).

  (** The builder when the bitmap has been added. *)
  Lemma finish_general k l d b cnt cs bs alloc : k <> KBox ->
    cfg (make_type (geometry_kind_code k) (dim_code d) (layout_code l)) b -> length (bd_bufs b) = buffer_count (ANative k l d) ->
    (exists c, nth_error (bd_bufs b) 0 = Some c /\ holds c bs alloc) ->
    (forall i, (i < n_lists k)%nat -> exists c, nth_error (bd_bufs b) (S i) = Some c /\ has_data c (offset_buffer (cnt i))) ->
    coords_in l d b (1 + n_lists k) cs ->
    exists b' cols, builder_renew b = Ok b' /\ columns_ok l d cs cols /\
      let v := if alloc then Some bs else None in
      let bufs := map (fun i => offset_buffer (cnt i)) (seq 0 (n_lists k)) ++ cols in
      outcome_of (fits (ANative k l d) v bufs) (assembled (ANative k l d) v bufs, b') (builder_finish b).
  Proof.
    intros Hk Hcfg Hlen (c0 & Hc0 & Hh0) Hoffs Hci. pose proof (cfg_init k l d b Hk Hcfg) as (Hcc & _ & _).
    pose proof (sync_nth l d (1 + n_lists k) b) as Hsync. specialize (fun i => Hsync i Hcc) as Hsync'. clear Hsync. rename Hsync' into Hsync.
    set (n := n_lists k) in *.
    assert (length (sync_coord_sizes b) = buffer_count (ANative k l d)) as Hsl.
    { rewrite <- Hlen. unfold sync_coord_sizes. destruct (_ =? _); [|destruct (_ =? _)]; rewrite ?map_length, ?combine_length, ?seq_length; try reflexivity; lia. }
    destruct (sync_coord_sizes b) as [|c0' bufs] eqn:Es; [cbn [length buffer_count] in Hsl; lia|].
    assert (c0' = c0) as ->.
    { specialize (Hsync 0%nat). rewrite Hc0 in Hsync. cbn in Hsync. injection Hsync as ->. destruct (n_lists k); reflexivity. }
    assert (length bufs = (n + ncols l d)%nat) as Hbl.
    { cbn [length buffer_count] in Hsl. rewrite (ncols_columns k l d Hk) in Hsl. fold n in Hsl. lia. }
    assert (forall i, (i < n)%nat -> exists c, nth_error bufs i = Some c /\ has_data c (offset_buffer (cnt i))) as Ho.
    { intros i Hi. destruct (Hoffs i Hi) as (c & Hc & Hd). exists c. split; [|exact Hd]. specialize (Hsync (S i)). rewrite Hc in Hsync. cbn [nth_error option_map] in Hsync.
      rewrite Hsync. f_equal. destruct (Nat.leb_spec (1 + n) (S i)); [lia|reflexivity]. }
    pose proof Hci as [(W & HW & Hcols) Hsz Hcap Hvals Hl8 Hdata Hwf].
    assert (forall q, (q < ncols l d)%nat -> exists c c', nth_error (bd_bufs b) (1 + n + q) = Some c /\ nth_error bufs (n + q) = Some c' /\
              w_mem (bf c') = w_mem (bf c) /\ w_size (bf c') = 8 * step l d * Z.of_nat (length cs) /\ sized (bf c')) as Hcol.
    { intros q Hq. destruct (Hcols q Hq) as (c & Hc & Hw & Hs). exists c, (max_size c (8 * step l d * bd_size b)). split; [exact Hc|].
      split.
      - specialize (Hsync (1 + n + q)%nat). rewrite Hc in Hsync. cbn [nth_error option_map Nat.add] in Hsync. rewrite Hsync. f_equal.
        destruct (Nat.leb_spec (S n) (S (n + q))); [|lia]. destruct (Nat.ltb_spec (S (n + q)) (S (n + ncols l d))); [reflexivity|lia].
      - pose proof (step_pos l d). unfold max_size. unfold sized. destruct (Z.ltb_spec (w_size (bf c)) (8 * step l d * bd_size b)); cbn [bf w_mem w_size].
        + rewrite Hsz in *. split; [reflexivity|]. split; [reflexivity|]. unfold w_cap in *. cbn [w_mem]. nia.
        + rewrite Hsz in *. split; [reflexivity|]. split; [lia|]. rewrite Hw. nia. }
    assert (Forall (fun c => sized (bf c)) (c0 :: bufs)) as Hall.
    { constructor; [exact (has_data_cap _ _ (proj1 Hh0))|]. apply Forall_forall. intros c Hc. apply In_nth_error in Hc as (i & Hi).
      destruct (Nat.lt_ge_cases i n) as [Hlt|Hge].
      - destruct (Ho i Hlt) as (c' & Hc' & Hd'). rewrite Hi in Hc'. injection Hc' as <-. exact (has_data_cap _ _ Hd').
      - assert (i < length bufs)%nat by (apply nth_error_Some; congruence).
        destruct (Hcol (i - n)%nat ltac:(lia)) as (c1 & c2 & _ & H2 & _ & _ & H3). replace (n + (i - n))%nat with i in H2 by lia. congruence. }
    destruct (finish_ok (ANative k l d) _ b c0 bufs (kind_supported k d l Hk) (or_introl eq_refl) Hcfg Hsl) as (b' & Eb' & Hout).
    { unfold synced. rewrite Es. reflexivity. }
    { exact Es. }
    { unfold synced. rewrite Es, Forall_map. exact Hall. }
    rewrite map_map in Hout.
    exists b', (map (fun x => data (bf x)) (skipn n bufs)). split; [exact Eb'|]. split.
    - constructor.
      + rewrite map_length, skipn_length. lia.
      + rewrite Forall_map. apply Forall_forall. intros c Hc. apply In_nth_error in Hc as (q & Hq). rewrite skipn_nth in Hq.
        assert (n + q < length bufs)%nat by (apply nth_error_Some; congruence).
        destruct (Hcol q ltac:(lia)) as (c1 & c2 & _ & H2 & _ & H4 & H3). rewrite Hq in H2. injection H2 as <-. rewrite data_length by exact H3. exact H4.
      + intros r c j w Hr Hw. destruct (Hdata r c j w Hr Hw) as (cb & Hcb & Hd).
        assert (j < ndim d)%nat as Hj.
        { unfold wf_seq in Hwf. rewrite Forall_forall in Hwf. destruct (Hwf c (nth_error_In _ _ Hr)) as (Hcl & _). rewrite <- Hcl. apply nth_error_Some. unfold coord in *. congruence. }
        destruct (Hcol (col_of l j) (col_lt l d j Hj)) as (c1 & c2 & H1 & H2 & H3 & H4 & H5).
        change (1 + n_lists k + col_of l j)%nat with (1 + n + col_of l j)%nat in Hcb. rewrite Hcb in H1. injection H1 as <-.
        exists (data (bf c2)). split; [rewrite nth_error_map, skipn_nth, H2; reflexivity|].
        unfold double_at, data in *. rewrite H4, H3. assert (r < length cs)%nat by (apply nth_error_Some; congruence).
        pose proof (idx_lt l d (Z.of_nat r) j (Z.of_nat (length cs)) Hj ltac:(lia)). pose proof (step_pos l d).
        unfold sized, w_cap in H5. rewrite H3, H4 in H5.
        rewrite slice_firstn; [exact Hd| |].
        * nia.
        * nia.
      + exact Hwf.
    - cbn zeta. rewrite <- (holds_validity c0 bs alloc Hh0).
      replace (map (fun i => offset_buffer (cnt i)) (seq 0 n) ++ map (fun x => data (bf x)) (skipn n bufs)) with (map (fun x => data (bf x)) bufs); [exact Hout|].
      rewrite <- (firstn_skipn n bufs) at 1. rewrite map_app. f_equal.
      replace n with (length (firstn n bufs)) at 2 by (rewrite firstn_length; lia).
      apply (map_nth_seq junk); [exact junk_bytes|]. intros i c Hi. cbn [Nat.add]. apply firstn_nth in Hi as (Hi & Hlt).
      destruct (Ho i Hlt) as (c' & Hc' & Hd'). rewrite Hi in Hc'. injection Hc' as <-. apply has_data_data. exact Hd'.
  Qed.
End Junk.

(** ** Buffers that fit *)
Lemma lists_fit_ok n : forall (els : list (nest n)) m, m = Z.of_nat (length (leaves n els)) -> total_small n els -> lists_fit (offset_buffers n els) m.
Proof.
  induction n as [|n IH]; intros els m Hm Ht; cbn [nest offset_buffers lists_fit total_small leaves] in *; [exact I|]. destruct Ht as (Ht1 & Ht2).
  split; [|apply IH; assumption]. right. exists 0, (Z.of_nat (length (concat els))). rewrite buffer_length, lens_length, !offset_at_int32.
  split; [exact (buffer_nth (lens els) 0 ltac:(lia))|]. split.
  - rewrite buffer_nth by (rewrite lens_length; lia). rewrite firstn_all2 by (rewrite lens_length; apply Nat.le_refl). rewrite total_lens, to_int32_small by lia. reflexivity.
  - split; [lia|]. split; [lia|]. destruct n as [|n]; cbn [offset_buffers leaves] in *.
    + rewrite Hm. apply Z.le_refl.
    + rewrite buffer_length, lens_length. apply Z.le_refl.
Qed.

Lemma fits_ok k l d v (els : list (nest (n_lists k))) cols : k <> KBox -> columns_ok l d (leaves (n_lists k) els) cols -> total_small (n_lists k) els ->
  (forall b, v = Some b -> Z.of_nat (length els) <= 8 * blen b) -> fits (ANative k l d) v (offset_buffers (n_lists k) els ++ cols).
Proof.
  intros Hk Hc Ht Hv.
  assert (length (offset_buffers (n_lists k) els) = n_lists k) as HL by (rewrite offset_buffers_counts, map_length, seq_length; reflexivity).
  assert (firstn (n_lists k) (offset_buffers (n_lists k) els ++ cols) = offset_buffers (n_lists k) els) as HF.
  { rewrite <- HL at 1. rewrite firstn_app, Nat.sub_diag, firstn_O, app_nil_r. apply firstn_all. }
  assert (skipn (n_lists k) (offset_buffers (n_lists k) els ++ cols) = cols) as HS.
  { rewrite <- HL at 1. rewrite skipn_app, Nat.sub_diag, skipn_all. reflexivity. }
  split.
  - intros b Hb. right. unfold assembled. rewrite aa_length_null, HF, HS. destruct (list_array_ok l d cols (n_lists k) els v Hc Ht) as (_ & -> & _). auto.
  - cbn zeta. rewrite HF, HS. split.
    + apply lists_fit_ok; [|exact Ht]. eapply coord_array_len. exact Hc.
    + rewrite (hd_size l d _ cols Hc). destruct Hc as [_ Hsz _ _]. eapply Forall_impl; [|exact Hsz]. intros c Hcc. cbn beta in Hcc. rewrite Hcc. lia.
Qed.
