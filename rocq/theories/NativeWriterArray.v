(** * The array made of offsets and coordinates *)
From Verif Require Import Base BaseFacts TypesModel GeomSpec VisitorModel BufferModel BufferFacts CoordsModel BitmapModel BitmapSpec BitmapProofs
  ArrowModel ArrayViewModel NativeSpec NativeProofs GeomFacts
  BuilderModel BuilderSpec BuilderRun BuilderFacts BuilderCoords BuilderFinish BuilderProofs
  NativeWriterModel NativeWriterSpec NativeWriterFacts NativeWriterAppend NativeWriterGeom.
Local Open Scope Z_scope.

Definition offset_buffer (xs : list Z) : bytes := flat_map offset_bytes (sums 0 xs).

Lemma slice_offsets : forall l i z, nth_error l i = Some z -> slice (flat_map offset_bytes l) (4 * Z.of_nat i) 4 = Some (offset_bytes z).
Proof.
  induction l as [|x l IH]; intros [|i] z E; try discriminate; cbn [flat_map].
  - injection E as ->. rewrite <- (app_nil_l (offset_bytes z ++ _)). apply (slice_app_at [] (offset_bytes z) _ 4). apply offset_bytes_length.
  - rewrite slice_app_r by (rewrite offset_bytes_length; lia). rewrite offset_bytes_length.
    replace (4 * Z.of_nat (S i) - Z.of_nat 4) with (4 * Z.of_nat i) by lia. apply IH. exact E.
Qed.

Lemma offset_bytes_wf v : wf_bytes (offset_bytes v).
Proof. apply le_bytes_wf. Qed.
Lemma offsets_wf l : wf_bytes (flat_map offset_bytes l).
Proof. induction l; [constructor|]. apply Forall_app. split; [apply offset_bytes_wf|assumption]. Qed.

Lemma offset_value z : (let n := Z.of_N (le_val (offset_bytes z)) in if n <? 2 ^ 31 then n else n - 2 ^ 32) = to_int32 z.
Proof.
  unfold offset_bytes.
  pose proof (Z.mod_pos_bound z 4294967296 ltac:(lia)) as Hb.
  rewrite le_val_bytes by (change (256 ^ N.of_nat 4)%N with 4294967296%N; lia).
  rewrite Z2N.id by lia. cbn zeta. unfold to_int32. change (2 ^ 31) with 2147483648. change (2 ^ 32) with 4294967296.
  pose proof (Z.div_mod z 4294967296 ltac:(lia)) as Hd.
  set (r := z mod 4294967296) in *. set (q := z / 4294967296) in *.
  destruct (Z.ltb_spec r 2147483648).
  - assert ((z + 2147483648) mod 4294967296 = r + 2147483648) as ->; [|lia].
    symmetry. apply Z.mod_unique with q; lia.
  - assert ((z + 2147483648) mod 4294967296 = r - 2147483648) as ->; [|lia].
    symmetry. apply Z.mod_unique with (q + 1); lia.
Qed.

Lemma offset_nth l i z : nth_error l i = Some z -> int32_at (flat_map offset_bytes l) (Z.of_nat i) = Some (to_int32 z).
Proof. intros E. unfold int32_at. rewrite (slice_offsets _ _ _ E). cbn [option_map]. f_equal. apply offset_value. Qed.
Lemma offset_at_int32 b i : offset_at 4 b i = int32_at b i.
Proof. reflexivity. Qed.

Lemma buffer_nth xs i : (i <= length xs)%nat -> int32_at (offset_buffer xs) (Z.of_nat i) = Some (to_int32 (total (firstn i xs))).
Proof. intros H. apply offset_nth. rewrite sums_nth by exact H. f_equal. Qed.
Lemma buffer_blen xs : blen (offset_buffer xs) = 4 * (Z.of_nat (length xs) + 1).
Proof. unfold blen, offset_buffer. rewrite offsets_length, sums_length. lia. Qed.
Lemma buffer_length xs : list_length 4 (offset_buffer xs) = Z.of_nat (length xs).
Proof.
  unfold list_length. rewrite buffer_blen. destruct (Z.eqb_spec (4 * (Z.of_nat (length xs) + 1)) 0); [lia|].
  rewrite Z.mul_comm, Z.div_mul by lia. lia.
Qed.

(** ** Lengths *)
Lemma total_lens {A} (xs : list (list A)) : total (lens xs) = Z.of_nat (length (concat xs)).
Proof. unfold total, lens. induction xs as [|x xs IH]; [reflexivity|]. cbn [map fold_right concat]. rewrite IH, app_length. lia. Qed.
Lemma firstn_lens {A} i (xs : list (list A)) : firstn i (lens xs) = lens (firstn i xs).
Proof. unfold lens. apply firstn_map. Qed.
Lemma firstn_S {A} i (xs : list A) x : nth_error xs i = Some x -> firstn (S i) xs = firstn i xs ++ [x].
Proof. revert xs. induction i as [|i IH]; intros [|y xs] E; try discriminate; cbn in *; [congruence|]. f_equal. apply IH. exact E. Qed.
Lemma nth_concat {A} i (xs : list (list A)) x k y : nth_error xs i = Some x -> nth_error x k = Some y ->
  nth_error (concat xs) (length (concat (firstn i xs)) + k) = Some y.
Proof.
  revert xs. induction i as [|i IH]; intros [|z xs] E Hy; try discriminate; cbn in *.
  - injection E as ->. rewrite nth_error_app1; [exact Hy|]. apply nth_error_Some. congruence.
  - rewrite app_length, <- Nat.add_assoc, nth_error_app2 by lia. rewrite Nat.add_comm, Nat.add_sub. apply IH; assumption.
Qed.
Lemma concat_firstn_le {A} i (xs : list (list A)) : (length (concat (firstn i xs)) <= length (concat xs))%nat.
Proof. rewrite <- (firstn_skipn i xs) at 2. rewrite concat_app, app_length. lia. Qed.

(** ** Coordinates *)
Record columns_ok (l : layout) (d : dim) (cs : list coord) (cols : list bytes) : Prop := {
  co_len : length cols = ncols l d;
  co_size : Forall (fun c => blen c = 8 * step l d * Z.of_nat (length cs)) cols;
  co_data : forall r c j w, nth_error cs r = Some c -> nth_error c j = Some w -> exists col,
    nth_error cols (col_of l j) = Some col /\ double_at col (idx_of l d (Z.of_nat r) j) = Some w;
  co_wf : wf_seq d cs
}.

Lemma hd_size l d cs cols : columns_ok l d cs cols -> blen (hd [] cols) = 8 * step l d * Z.of_nat (length cs).
Proof.
  intros [H1 H2 _ _]. destruct cols as [|c cols]; [destruct l, d; discriminate|]. inversion H2; subst. assumption.
Qed.
Lemma div8 l d n : 8 * step l d * n / 8 = step l d * n.
Proof. rewrite <- Z.mul_assoc, Z.mul_comm, Z.div_mul by lia. reflexivity. Qed.
Lemma coord_array_len l d v cs cols : columns_ok l d cs cols -> aa_length (coord_array l d v cols) = Z.of_nat (length cs).
Proof.
  intros H. pose proof (hd_size l d cs cols H) as Hh. unfold coord_array.
  destruct l; cbn [aa_length]; rewrite Hh, div8; cbn [step]; [lia|].
  rewrite Z.mul_comm, Z.div_mul; [reflexivity|]. destruct d; cbn; lia.
Qed.

Lemma floats_array n c : n <= blen c / 8 -> floats_ok n (float_array c).
Proof.
  intros H. split; [reflexivity|]. split; [exact H|]. exists None, (Some c). split; [reflexivity|]. cbn [buffer_holds float_array aa_offset aa_length].
  pose proof (Z.mul_div_le (blen c) 8 ltac:(lia)). unfold blen in *. lia.
Qed.

Lemma coord_array_ok l d v cs cols : columns_ok l d cs cols -> coords_ok l d (coord_array l d v cols).
Proof.
  intros H. pose proof (coord_array_len l d v cs cols H) as HL. pose proof H as [H1 H2 _ _].
  destruct l; cbn [coord_array] in *; (split; [reflexivity|]); (split; [rewrite HL; lia|]); (split; [reflexivity|]).
  - split; [cbn [aa_children]; rewrite map_length; exact H1|]. cbn [aa_children]. rewrite Forall_map. eapply Forall_impl; [|exact H2].
    intros c Hc. apply floats_array. rewrite HL. cbn [aa_offset]. rewrite Hc, div8. cbn [step]. lia.
  - destruct cols as [|c [|]]; try discriminate H1. exists (float_array c). split; [reflexivity|]. apply floats_array. rewrite HL. cbn [aa_offset].
    apply Forall_inv in H2. rewrite H2, div8. cbn [step]. lia.
Qed.

Lemma coord_array_at l d v cs cols r c : columns_ok l d cs cols -> nth_error cs r = Some c -> coord_at l d (coord_array l d v cols) (Z.of_nat r) c.
Proof.
  intros [H1 H2 H3 H4] Hr. split.
  { unfold wf_seq in H4. rewrite Forall_forall in H4. apply H4. eapply nth_error_In. exact Hr. }
  intros j w Hw. destruct (H3 r c j w Hr Hw) as (col & Hc & Hd). unfold ordinate_at. destruct l; cbn [coord_array aa_children aa_offset col_of idx_of] in *.
  - rewrite nth_error_map, Hc. cbn [option_map]. unfold float_elt. cbn. exact Hd.
  - destruct cols as [|c0 [|]]; try discriminate H1. injection Hc as ->. cbn [map]. unfold float_elt. cbn. exact Hd.
Qed.

(** ** Lists *)
Fixpoint nest_at (l : layout) (d : dim) (n : nat) : arrow_array -> Z -> nest n -> Prop :=
  match n return arrow_array -> Z -> nest n -> Prop with
  | O => coord_at l d
  | S n' => list_at (nest_at l d n')
  end.
Fixpoint offset_buffers (n : nat) : list (nest n) -> list bytes :=
  match n return list (nest n) -> list bytes with
  | O => fun _ => []
  | S n' => fun xs => offset_buffer (lens xs) :: offset_buffers n' (concat xs)
  end.
Lemma offset_buffers_counts n : forall xs, offset_buffers n xs = map (fun i => offset_buffer (counts n xs i)) (seq 0 n).
Proof.
  induction n as [|n IH]; intros xs; [reflexivity|]. cbn [offset_buffers seq map]. f_equal. rewrite IH, <- seq_shift, map_map. reflexivity.
Qed.

Lemma list_array_ok l d cols : forall n (els : list (nest n)) v, columns_ok l d (leaves n els) cols -> total_small n els ->
  let a := list_array (offset_buffers n els) (fun v => coord_array l d v cols) v in
  nested l d n a /\ aa_length a = Z.of_nat (length els) /\ aa_offset a = 0 /\ hd None (aa_buffers a) = v /\
  forall i x, nth_error els i = Some x -> nest_at l d n a (Z.of_nat i) x.
Proof.
  induction n as [|n IH]; intros els v Hc Ht; cbn zeta; cbn [nest offset_buffers list_array leaves nested nest_at] in *.
  - split; [eapply coord_array_ok; exact Hc|]. split; [eapply coord_array_len; exact Hc|]. split; [destruct l; reflexivity|].
    split; [destruct l; reflexivity|]. intros i x Hi. eapply coord_array_at; eassumption.
  - cbn [total_small] in Ht. destruct Ht as (Ht1 & Ht2). specialize (IH (concat els) None Hc Ht2). cbn zeta in IH.
    set (child := list_array (offset_buffers n (concat els)) (fun v => coord_array l d v cols) None) in *.
    destruct IH as (N & L & O & _ & At). cbn [aa_length aa_offset aa_buffers aa_children hd]. rewrite buffer_length, lens_length.
    assert (forall i x, nth_error els i = Some x ->
      int32_at (offset_buffer (lens els)) (0 + Z.of_nat i) = Some (Z.of_nat (length (concat (firstn i els)))) /\
      int32_at (offset_buffer (lens els)) (0 + Z.of_nat i + 1) = Some (Z.of_nat (length (concat (firstn i els))) + Z.of_nat (length x))) as Hoff.
    { intros i x Hi. assert (i < length els)%nat as Hlt by (apply nth_error_Some; congruence).
      pose proof (concat_firstn_le i els). pose proof (concat_firstn_le (S i) els) as H2.
      assert (Z.of_nat (length (concat (firstn (S i) els))) = Z.of_nat (length (concat (firstn i els))) + Z.of_nat (length x)) as HS.
      { rewrite (firstn_S i els x Hi), concat_app, app_length. cbn [concat]. rewrite app_nil_r. lia. }
      assert (Z.of_nat (length (concat els)) < 2 ^ 31) as Ht3 by exact Ht1.
      split.
      - rewrite Z.add_0_l, buffer_nth by (rewrite lens_length; lia). rewrite firstn_lens, total_lens, to_int32_small by lia. reflexivity.
      - replace (0 + Z.of_nat i + 1) with (Z.of_nat (S i)) by lia. rewrite buffer_nth by (rewrite lens_length; lia).
        rewrite firstn_lens, total_lens, to_int32_small by lia. rewrite HS. reflexivity. }
    split; [|split; [reflexivity|split; [reflexivity|split; [reflexivity|]]]].
    + split; [reflexivity|]. split; [cbn [aa_length]; lia|]. exists v, (Some (offset_buffer (lens els))), child.
      split; [reflexivity|]. split; [reflexivity|]. split; [exact N|]. cbn [aa_length aa_offset]. intros _.
      exists (offset_buffer (lens els)). split; [reflexivity|]. split; [apply offsets_wf|]. intros i Hi.
      destruct (@nth_error (list (nest n)) els (Z.to_nat i)) as [x|] eqn:Ex; [|apply nth_error_None in Ex; exfalso; unfold nest in *; lia].
      destruct (Hoff _ _ Ex) as (H1 & H2). rewrite Z2Nat.id in H1, H2 by lia. eexists _, _. split; [exact H1|]. split; [exact H2|].
      split; [lia|]. rewrite L. pose proof (concat_firstn_le (S (Z.to_nat i)) els) as H3. rewrite (firstn_S _ els x Ex), concat_app, app_length in H3.
      cbn [concat] in H3. rewrite app_nil_r in H3. lia.
    + intros i x Hi. destruct (Hoff _ _ Hi) as (H1 & H2). exists (offset_buffer (lens els)).
      eexists _, _, child. split; [reflexivity|]. split; [reflexivity|]. split; [exact H1|]. split; [exact H2|]. split; [reflexivity|].
      intros kk y Hy. rewrite <- Nat2Z.inj_add. apply At. eapply nth_concat; eassumption.
Qed.
