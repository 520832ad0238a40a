From Verif Require Import Base BaseFacts BufferModel BufferFacts BitmapModel BitmapSpec.
Local Open Scope Z_scope.

(** ** Bytes and masks *)

Lemma nth_error_skipn' {A} n (m : list A) k : nth_error (skipn n m) k = nth_error m (n + k).
Proof. revert n; induction m as [|x m IH]; intros [|n]; cbn; [destruct k; reflexivity|destruct k; reflexivity|reflexivity|apply IH]. Qed.
Lemma nth_error_firstn' {A} n (m : list A) k : (k < n)%nat -> nth_error (firstn n m) k = nth_error m k.
Proof. revert n k; induction m as [|x m IH]; intros [|n] [|k] H; cbn; try reflexivity; try lia. apply IH. lia. Qed.

Lemma nth_error_mid {A} (m : list A) k x j : (k < length m)%nat ->
  nth_error (firstn k m ++ [x] ++ skipn (S k) m) j = if Nat.eqb j k then Some x else nth_error m j.
Proof.
  intros H. destruct (Nat.eqb_spec j k) as [->|Hne].
  - rewrite nth_error_app2 by (rewrite firstn_length; lia). rewrite firstn_length.
    replace (k - Nat.min k (length m))%nat with 0%nat by lia. reflexivity.
  - destruct (Nat.lt_ge_cases j k).
    + rewrite nth_error_app1 by (rewrite firstn_length; lia).
      rewrite <- (firstn_skipn k m) at 2. rewrite nth_error_app1 by (rewrite firstn_length; lia). reflexivity.
    + rewrite nth_error_app2 by (rewrite firstn_length; lia). rewrite firstn_length.
      replace (j - Nat.min k (length m))%nat with (S (j - S k))%nat by lia. cbn [app nth_error].
      rewrite <- (firstn_skipn (S k) m) at 2. rewrite nth_error_app2 by (rewrite firstn_length; lia).
      rewrite firstn_length. f_equal. lia.
Qed.

Lemma upd_byte_ok m i f : 0 <= i < Z.of_nat (length m) ->
  exists m', upd_byte m i f = Ok m' /\ length m' = length m /\
  forall j, 0 <= j -> nth_error m' (Z.to_nat j) =
    if j =? i then option_map f (nth_error m (Z.to_nat i)) else nth_error m (Z.to_nat j).
Proof.
  intros H. unfold upd_byte. destruct (Z.ltb_spec i 0); [lia|].
  destruct (nth_error m (Z.to_nat i)) as [b|] eqn:E; [|apply nth_error_None in E; lia].
  eexists; split; [reflexivity|]. split.
  - rewrite !app_length, firstn_length, skipn_length. cbn [length]. lia.
  - intros j Hj. rewrite nth_error_mid by lia.
    destruct (Nat.eqb_spec (Z.to_nat j) (Z.to_nat i)), (Z.eqb_spec j i); try lia; reflexivity.
Qed.

Lemma upd_byte_bits m i f : 0 <= i < Z.of_nat (length m) ->
  exists m', upd_byte m i f = Ok m' /\ length m' = length m /\
  forall j, 0 <= j -> bit_of m' j =
    if j / 8 =? i then option_map (fun b => N.testbit (f b) (Z.to_N (j mod 8))) (nth_error m (Z.to_nat i)) else bit_of m j.
Proof.
  intros H. destruct (upd_byte_ok m i f H) as (m' & E & L & P). exists m'. split; [exact E|]. split; [exact L|].
  intros j Hj. unfold bit_of. destruct (Z.ltb_spec j 0); [lia|].
  rewrite P by (apply Z.div_pos; lia). destruct (j / 8 =? i) eqn:D; [|reflexivity].
  destruct (nth_error m (Z.to_nat i)); reflexivity.
Qed.

Lemma masks_ok r j : 0 <= r < 8 -> 0 <= j < 8 ->
  N.testbit (mask_at preceding_bitmask r) (Z.to_N j) = (j <? r) /\
  N.testbit (mask_at trailing_bitmask r) (Z.to_N j) = (r <=? j) /\
  N.testbit 255 (Z.to_N j) = true.
Proof.
  intros Hr Hj.
  assert (r = 0 \/ r = 1 \/ r = 2 \/ r = 3 \/ r = 4 \/ r = 5 \/ r = 6 \/ r = 7) as C by lia.
  assert (j = 0 \/ j = 1 \/ j = 2 \/ j = 3 \/ j = 4 \/ j = 5 \/ j = 6 \/ j = 7) as D by lia.
  decompose [or] C; decompose [or] D; subst; vm_compute; repeat split; reflexivity.
Qed.

Lemma blend_bit (mask : N) (v : bool) (b : N) (j : Z) : 0 <= j < 8 ->
  N.testbit (blend mask (if v then 255 else 0)%N b) (Z.to_N j) =
  if N.testbit mask (Z.to_N j) then N.testbit b (Z.to_N j) else v.
Proof.
  intros Hj. unfold blend. rewrite N.lor_spec, !N.land_spec, N.lxor_spec.
  destruct (masks_ok 0 j) as (_ & _ & E); [lia|lia|].
  rewrite E. destruct v; [rewrite E|rewrite N.bits_0]; destruct (N.testbit mask _), (N.testbit b _); reflexivity.
Qed.

Lemma bit_of_Some m j : 0 <= j < 8 * Z.of_nat (length m) ->
  exists x, nth_error m (Z.to_nat (j / 8)) = Some x /\ bit_of m j = Some (N.testbit x (Z.to_N (j mod 8))).
Proof.
  intros H. unfold bit_of. destruct (Z.ltb_spec j 0); [lia|].
  assert (j / 8 < Z.of_nat (length m)) by (apply Z.div_lt_upper_bound; lia).
  destruct (nth_error m (Z.to_nat (j / 8))) as [x|] eqn:E; [|apply nth_error_None in E; assert (0 <= j / 8) by (apply Z.div_pos; lia); lia].
  eauto.
Qed.

Lemma patch_nth m i bs m' j : patch m i bs = Some m' -> 0 <= j ->
  nth_error m' (Z.to_nat j) =
  if (i <=? j) && (j <? i + Z.of_nat (length bs)) then nth_error bs (Z.to_nat (j - i)) else nth_error m (Z.to_nat j).
Proof.
  unfold patch. intros E Hj.
  destruct ((0 <=? i) && (i + Z.of_nat (length bs) <=? Z.of_nat (length m))) eqn:C; [|discriminate].
  apply andb_true_iff in C as [C1 C2]. apply Z.leb_le in C1, C2. injection E as <-.
  destruct (Z.leb_spec i j); cbn [andb].
  - destruct (Z.ltb_spec j (i + Z.of_nat (length bs))).
    + rewrite nth_error_app2 by (rewrite firstn_length; lia). rewrite firstn_length.
      rewrite nth_error_app1 by lia. f_equal. lia.
    + rewrite nth_error_app2 by (rewrite firstn_length; lia). rewrite firstn_length.
      rewrite nth_error_app2 by lia. rewrite nth_error_skipn'. f_equal. lia.
  - rewrite nth_error_app1 by (rewrite firstn_length; lia). apply nth_error_firstn'. lia.
Qed.

(** ** ArrowBitsSetTo *)
Theorem bits_set_to_ok m start n v : 0 <= start -> 0 <= n -> start + n <= 8 * Z.of_nat (length m) ->
  exists m', bits_set_to m start n v = Ok m' /\ length m' = length m /\
  forall j, 0 <= j -> bit_of m' j = if (start <=? j) && (j <? start + n) then Some v else bit_of m j.
Proof.
  intros H1 H2 H3. unfold bits_set_to.
  destruct (Z.eqb_spec n 0) as [->|Hn].
  { exists m. split; [reflexivity|]. split; [reflexivity|]. intros j _.
    destruct (Z.leb_spec start j); cbn [andb]; [|reflexivity]. destruct (Z.ltb_spec j (start + 0)); [lia|reflexivity]. }
  cbv zeta. rewrite !Z.quot_div_nonneg, !Z.rem_mod_nonneg by lia.
  set (e := start + n) in *.
  assert (Hsm := Z.mod_pos_bound start 8 ltac:(lia)). assert (Hem := Z.mod_pos_bound e 8 ltac:(lia)).
  assert (Hsd := Z.div_mod start 8 ltac:(lia)). assert (Hed := Z.div_mod e 8 ltac:(lia)).
  set (sb := start / 8) in *. set (eb := e / 8) in *. set (sr := start mod 8) in *. set (er := e mod 8) in *.
  destruct (Z.eqb_spec (eb + 1) (sb + 1)) as [Heq|Hne].
  - (* one byte *)
    assert (er <> 0) by lia.
    destruct (Z.eqb_spec er 0); [lia|].
    edestruct (upd_byte_bits m sb) as (m' & E & L & P); [lia|].
    exists m'. split; [exact E|]. split; [exact L|]. intros j Hj. rewrite P by lia. clear P E.
    assert (Hjm := Z.mod_pos_bound j 8 ltac:(lia)). assert (Hjd := Z.div_mod j 8 ltac:(lia)).
    destruct (Z.eqb_spec (j / 8) sb) as [Hb|Hb].
    + destruct (bit_of_Some m j) as (x & Ex & Ebit); [lia|]. rewrite Hb in Ex. rewrite Ex, Ebit. cbn [option_map].
      rewrite blend_bit by lia. rewrite N.lor_spec.
      destruct (masks_ok sr (j mod 8)) as (A & _ & _); [lia|lia|]. destruct (masks_ok er (j mod 8)) as (_ & B & _); [lia|lia|].
      rewrite A, B.
      destruct (Z.ltb_spec (j mod 8) sr), (Z.leb_spec er (j mod 8)), (Z.leb_spec start j), (Z.ltb_spec j e); cbn [andb orb]; try lia; reflexivity.
    + destruct (Z.leb_spec start j), (Z.ltb_spec j e); cbn [andb]; try lia; reflexivity.
  - assert (sb < eb) by lia.
    edestruct (upd_byte_bits m sb) as (m1 & E1 & L1 & P1); [lia|]. rewrite E1. cbn [obind]. clear E1.
    assert (exists m2, (if 2 <? eb + 1 - sb then upd_bytes m1 (sb + 1) (repeat (if v then 255%N else 0%N) (Z.to_nat (eb + 1 - sb - 2))) else Ok m1) = Ok m2 /\
             length m2 = length m1 /\
             forall j, 0 <= j -> bit_of m2 j = if (sb + 1 <=? j / 8) && (j / 8 <? eb) then Some v else bit_of m1 j) as (m2 & E2 & L2 & P2).
    { destruct (Z.ltb_spec 2 (eb + 1 - sb)).
      - unfold upd_bytes. edestruct (patch_in m1 (sb + 1)) as (m2 & E2); [lia| |rewrite E2].
        { rewrite repeat_length. lia. }
        exists m2. split; [reflexivity|]. split; [eapply patch_some; exact E2|].
        intros j Hj. unfold bit_of. destruct (Z.ltb_spec j 0); [lia|].
        assert (0 <= j / 8) by (apply Z.div_pos; lia).
        rewrite (patch_nth _ _ _ _ _ E2) by lia. rewrite repeat_length.
        replace (sb + 1 + Z.of_nat (Z.to_nat (eb + 1 - sb - 2))) with eb by lia.
        destruct (Z.leb_spec (sb + 1) (j / 8)); cbn [andb]; [|reflexivity].
        destruct (Z.ltb_spec (j / 8) eb); [|reflexivity].
        rewrite nth_error_repeat by lia. cbn [option_map]. destruct v; [|rewrite N.bits_0; reflexivity].
        assert (Hjm := Z.mod_pos_bound j 8 ltac:(lia)).
        destruct (masks_ok 0 (j mod 8)) as (_ & _ & ->); [lia|lia|reflexivity].
      - exists m1. split; [reflexivity|]. split; [reflexivity|]. intros j Hj.
        destruct (Z.leb_spec (sb + 1) (j / 8)), (Z.ltb_spec (j / 8) eb); cbn [andb]; try lia; reflexivity. }
    rewrite E2. cbn [obind]. clear E2.
    assert (P12 : forall j, 0 <= j -> j / 8 < eb -> bit_of m2 j = if (start <=? j) && (j <? e) then Some v else bit_of m j).
    { intros j Hj Hlt. assert (Hjm := Z.mod_pos_bound j 8 ltac:(lia)). assert (Hjd := Z.div_mod j 8 ltac:(lia)).
      rewrite P2, P1 by lia.
      destruct (Z.leb_spec (sb + 1) (j / 8)); cbn [andb].
      - destruct (Z.ltb_spec (j / 8) eb); [|lia].
        destruct (Z.leb_spec start j), (Z.ltb_spec j e); cbn [andb]; try lia; reflexivity.
      - destruct (Z.eqb_spec (j / 8) sb) as [Hb|Hb].
        + destruct (bit_of_Some m j) as (x & Ex & Ebit); [lia|]. rewrite Hb in Ex. rewrite Ex, Ebit. cbn [option_map].
          rewrite blend_bit by lia. destruct (masks_ok sr (j mod 8)) as (A & _ & _); [lia|lia|]. rewrite A.
          destruct (Z.ltb_spec (j mod 8) sr), (Z.leb_spec start j), (Z.ltb_spec j e); cbn [andb]; try lia; reflexivity.
        + destruct (Z.leb_spec start j), (Z.ltb_spec j e); cbn [andb]; try lia; reflexivity. }
    assert (P12' : forall j, 0 <= j -> eb <= j / 8 -> bit_of m2 j = bit_of m j).
    { intros j Hj Hge. rewrite P2, P1 by lia.
      destruct (Z.leb_spec (sb + 1) (j / 8)); cbn [andb]; [|lia]. destruct (Z.ltb_spec (j / 8) eb); [lia|].
      destruct (Z.eqb_spec (j / 8) sb); [lia|reflexivity]. }
    destruct (Z.eqb_spec er 0) as [Her|Her].
    + exists m2. split; [reflexivity|]. split; [lia|]. intros j Hj.
      assert (Hjm := Z.mod_pos_bound j 8 ltac:(lia)). assert (Hjd := Z.div_mod j 8 ltac:(lia)).
      destruct (Z.lt_ge_cases (j / 8) eb); [apply P12; lia|]. rewrite P12' by lia.
      destruct (Z.leb_spec start j), (Z.ltb_spec j e); cbn [andb]; try lia; reflexivity.
    + replace (eb + 1 - 1) with eb by lia.
      edestruct (upd_byte_bits m2 eb) as (m3 & E3 & L3 & P3); [lia|]. exists m3. split; [exact E3|]. split; [lia|].
      intros j Hj. rewrite P3 by lia.
      assert (Hjm := Z.mod_pos_bound j 8 ltac:(lia)). assert (Hjd := Z.div_mod j 8 ltac:(lia)).
      destruct (Z.eqb_spec (j / 8) eb) as [Hb|Hb].
      * destruct (bit_of_Some m2 j) as (x & Ex & Ebit); [lia|]. rewrite Hb in Ex. rewrite Ex. cbn [option_map].
        rewrite blend_bit by lia. destruct (masks_ok er (j mod 8)) as (_ & B & _); [lia|lia|]. rewrite B.
        rewrite P12' in Ebit by lia. rewrite Ebit.
        destruct (Z.leb_spec er (j mod 8)), (Z.leb_spec start j), (Z.ltb_spec j e); cbn [andb]; try lia; reflexivity.
      * destruct (Z.lt_ge_cases (j / 8) eb); [apply P12; lia|]. rewrite P12' by lia.
        destruct (Z.leb_spec start j), (Z.ltb_spec j e); cbn [andb]; try lia; reflexivity.
Qed.

(** ** ArrowBitGet *)
Lemma bit_get_ok m i b : bit_of m i = Some b -> bit_get m i = Ok b.
Proof.
  unfold bit_of, bit_get. destruct (Z.ltb_spec i 0); [discriminate|].
  rewrite Z.shiftr_div_pow2 by lia. change (2 ^ 3) with 8.
  change 7 with (Z.ones 3). rewrite Z.land_ones by lia. change (2 ^ 3) with 8.
  destruct (nth_error m (Z.to_nat (i / 8))) as [x|]; [|discriminate]. cbn [option_map or_ub obind].
  intros E. injection E as <-. f_equal.
  change 1%N with (N.ones 1) at 1. rewrite N.land_ones. change (2 ^ 1)%N with 2%N.
  rewrite <- N.bit0_mod. rewrite N.shiftr_spec by lia. rewrite N.add_0_l.
  destruct (N.testbit x (Z.to_N (i mod 8))); reflexivity.
Qed.

Lemma bit_get_iff m i : bit_get m i = match bit_of m i with Some b => Ok b | None => UB end.
Proof.
  destruct (bit_of m i) as [b|] eqn:E; [apply bit_get_ok; exact E|].
  unfold bit_of, bit_get in *. destruct (Z.ltb_spec i 0); [reflexivity|].
  rewrite Z.shiftr_div_pow2 by lia. change (2 ^ 3) with 8.
  destruct (nth_error m (Z.to_nat (i / 8))); [discriminate|reflexivity].
Qed.

(** ** Appending *)
Lemma bytes_for_bits_spec n : 0 <= n -> bytes_for_bits n = bytes_needed n.
Proof.
  intros H. unfold bytes_for_bits, bytes_needed. rewrite Z.shiftr_div_pow2 by lia. change (2 ^ 3) with 8.
  change 7 with (Z.ones 3) at 1. rewrite Z.land_ones by lia. change (2 ^ 3) with 8.
  assert (A := Z.div_mod n 8 ltac:(lia)). assert (B := Z.mod_pos_bound n 8 ltac:(lia)).
  assert (C := Z.div_mod (n + 7) 8 ltac:(lia)). assert (D := Z.mod_pos_bound (n + 7) 8 ltac:(lia)).
  destruct (Z.eqb_spec (n mod 8) 0); lia.
Qed.

Lemma bytes_needed_bound n : 0 <= n -> n <= 8 * bytes_needed n < n + 8.
Proof. intros H. unfold bytes_needed. assert (C := Z.div_mod (n + 7) 8 ltac:(lia)). assert (D := Z.mod_pos_bound (n + 7) 8 ltac:(lia)). lia. Qed.
Lemma bytes_needed_nonneg n : 0 <= n -> 0 <= bytes_needed n.
Proof. intros H. assert (A := bytes_needed_bound n H). lia. Qed.
Lemma bytes_needed_mono a b : 0 <= a <= b -> bytes_needed a <= bytes_needed b.
Proof. intros H. unfold bytes_needed. apply Z.div_le_mono; lia. Qed.

(** What a bitmap holds. *)
Record bitmap_ok (bm : bitmap) (bits : list bool) : Prop := {
  bo_bits : bm_bits bm = Z.of_nat (length bits);
  bo_size : w_size (bm_buffer bm) = bytes_needed (Z.of_nat (length bits));
  bo_cap : w_size (bm_buffer bm) <= w_cap (bm_buffer bm);
  bo_holds : holds_bits (w_mem (bm_buffer bm)) bits
}.

Lemma bit_of_app a b i : i < 8 * Z.of_nat (length a) -> bit_of (a ++ b) i = bit_of a i.
Proof.
  intros H. unfold bit_of. destruct (Z.ltb_spec i 0); [reflexivity|].
  rewrite nth_error_app1; [reflexivity|].
  assert (i / 8 < Z.of_nat (length a)) by (apply Z.div_lt_upper_bound; lia). assert (0 <= i / 8) by (apply Z.div_pos; lia). lia.
Qed.

Section Junk.
  Variable junk : nat -> N.

  Lemma wbuf_reserve_spec b n : w_size b <= w_cap b ->
    w_size (wbuf_reserve junk b n) = w_size b /\
    (exists extra, w_mem (wbuf_reserve junk b n) = w_mem b ++ extra) /\
    w_size b + n <= w_cap (wbuf_reserve junk b n) /\
    (w_cap b < w_size b + n -> w_cap b < w_cap (wbuf_reserve junk b n)).
  Proof.
    intros H. unfold wbuf_reserve. destruct (Z.leb_spec (w_size b + n) (w_cap b)); cbn [w_size w_mem].
    - split; [reflexivity|]. split; [exists []; rewrite app_nil_r; reflexivity|]. split; lia.
    - split; [reflexivity|]. split; [eauto|]. unfold w_cap in *. cbn [w_mem]. rewrite app_length, map_length, seq_length.
      unfold grow_by_factor. destruct (Z.ltb_spec (w_size b + n) (Z.of_nat (length (w_mem b)) * 2)); lia.
  Qed.

  Lemma bitmap_reserve_ok bm bits n : bitmap_ok bm bits -> 0 <= n ->
    exists bm', bitmap_reserve junk bm n = Ok bm' /\ bitmap_ok bm' bits /\
    bytes_needed (Z.of_nat (length bits) + n) <= w_cap (bm_buffer bm') /\
    (bytes_needed (Z.of_nat (length bits) + n) > 0 -> w_null (bm_buffer bm') = false) /\
    (w_null (bm_buffer bm) = false -> w_null (bm_buffer bm') = false).
  Proof.
    intros [Hb Hs Hc Hh] Hn. unfold bitmap_reserve. rewrite Hb, bytes_for_bits_spec by lia.
    set (need := bytes_needed (Z.of_nat (length bits) + n)) in *.
    assert (NN : forall b, 0 < w_cap b -> w_null b = false).
    { intros [[|? ?] ?]; cbn; unfold w_cap; cbn; [lia|reflexivity]. }
    assert (CN : forall b, 0 <= w_cap b) by (intros; unfold w_cap; lia).
    destruct (Z.leb_spec need (w_cap (bm_buffer bm))).
    { exists bm. split; [reflexivity|]. split; [constructor; assumption|]. split; [assumption|]. split; [|auto].
      intros. apply NN. lia. }
    destruct (wbuf_reserve_spec (bm_buffer bm) (need - w_size (bm_buffer bm)) Hc) as (A & (extra & B) & C & D).
    specialize (D ltac:(lia)).
    set (b' := wbuf_reserve junk (bm_buffer bm) (need - w_size (bm_buffer bm))) in *.
    edestruct (upd_byte_bits (w_mem b') (w_cap b' - 1) (fun _ => 0%N)) as (m & E & L & P).
    { specialize (CN (bm_buffer bm)). unfold w_cap in *. lia. }
    rewrite E. cbn [obind]. eexists; split; [reflexivity|]. cbn [bm_buffer].
    assert (W : w_cap {| w_mem := m; w_size := w_size b' |} = w_cap b') by (unfold w_cap; cbn [w_mem]; lia).
    assert (0 < w_cap b') by (specialize (CN (bm_buffer bm)); lia).
    split; [|split; [rewrite W; lia|split; intros; apply NN; rewrite W; lia]].
    constructor; cbn [bm_bits bm_buffer w_size w_mem]; [reflexivity|lia|rewrite W; lia|].
    intros i x Hi. rewrite P by lia.
    assert (i < length bits)%nat by (apply nth_error_Some; congruence).
    assert (Bn := bytes_needed_bound (Z.of_nat (length bits)) ltac:(lia)).
    destruct (Z.eqb_spec (Z.of_nat i / 8) (w_cap b' - 1)) as [Q|Q].
    - exfalso. assert (Z.of_nat i / 8 < bytes_needed (Z.of_nat (length bits))) by (apply Z.div_lt_upper_bound; lia). lia.
    - rewrite B. rewrite bit_of_app; [apply Hh; exact Hi|]. unfold w_cap in Hc. lia.
  Qed.

  Lemma nth_error_repeat' {A} (x : A) n i : nth_error (repeat x n) i = if Nat.ltb i n then Some x else None.
  Proof.
    destruct (Nat.ltb_spec i n); [apply nth_error_repeat; assumption|].
    apply nth_error_None. rewrite repeat_length. assumption.
  Qed.

  Lemma append_unsafe_ok bm bits v n : bitmap_ok bm bits -> 0 <= n ->
    bytes_needed (Z.of_nat (length bits) + n) <= w_cap (bm_buffer bm) ->
    exists bm', bitmap_append_unsafe bm v n = Ok bm' /\ bitmap_ok bm' (bits ++ repeat v (Z.to_nat n)) /\
      w_cap (bm_buffer bm') = w_cap (bm_buffer bm) /\ w_null (bm_buffer bm') = w_null (bm_buffer bm).
  Proof.
    intros [Hb Hs Hc Hh] Hn Hr. unfold bitmap_append_unsafe. rewrite Hb.
    assert (Bn := bytes_needed_bound (Z.of_nat (length bits) + n) ltac:(lia)).
    edestruct (bits_set_to_ok (w_mem (bm_buffer bm)) (Z.of_nat (length bits)) n v) as (m & E & L & P); [lia|lia| |].
    { unfold w_cap in Hr. lia. }
    rewrite E. cbn [obind]. eexists; split; [reflexivity|]. cbn [bm_buffer].
    assert (len : Z.of_nat (length (bits ++ repeat v (Z.to_nat n))) = Z.of_nat (length bits) + n).
    { rewrite app_length, repeat_length. lia. }
    split; [|split].
    - constructor; cbn [bm_bits bm_buffer w_size w_mem]; rewrite ?len.
      + lia.
      + apply bytes_for_bits_spec. lia.
      + unfold w_cap in *. cbn [w_mem]. rewrite L. rewrite bytes_for_bits_spec by lia. exact Hr.
      + intros i x Hi. rewrite P by lia.
        destruct (Nat.lt_ge_cases i (length bits)).
        * rewrite nth_error_app1 in Hi by assumption.
          destruct (Z.leb_spec (Z.of_nat (length bits)) (Z.of_nat i)); [lia|]. cbn [andb]. apply Hh; exact Hi.
        * rewrite nth_error_app2 in Hi by assumption. rewrite nth_error_repeat' in Hi.
          destruct (Nat.ltb_spec (i - length bits) (Z.to_nat n)); [|discriminate]. injection Hi as <-.
          destruct (Z.leb_spec (Z.of_nat (length bits)) (Z.of_nat i)); [|lia].
          destruct (Z.ltb_spec (Z.of_nat i) (Z.of_nat (length bits) + n)); [reflexivity|lia].
    - unfold w_cap. cbn [w_mem]. lia.
    - unfold w_null. cbn [w_mem]. destruct m, (w_mem (bm_buffer bm)); cbn in L; try lia; reflexivity.
  Qed.

  Lemma bitmap_append_ok bm bits v n : bitmap_ok bm bits -> 0 <= n ->
    exists bm', bitmap_append junk bm v n = Ok bm' /\ bitmap_ok bm' (bits ++ repeat v (Z.to_nat n)) /\
      (0 < n -> w_null (bm_buffer bm') = false).
  Proof.
    intros H Hn. unfold bitmap_append.
    destruct (bitmap_reserve_ok bm bits n H Hn) as (b1 & E1 & O1 & R1 & N1 & _). rewrite E1. cbn [obind].
    destruct (append_unsafe_ok b1 bits v n O1 Hn R1) as (b2 & E2 & O2 & _ & N2). exists b2. split; [exact E2|]. split; [exact O2|].
    intros Hp. rewrite N2. apply N1. assert (B := bytes_needed_bound (Z.of_nat (length bits) + n) ltac:(lia)). lia.
  Qed.

  Lemma bitmap_init_ok : bitmap_ok bitmap_init [].
  Proof.
    constructor; [reflexivity|reflexivity|cbn; unfold w_cap; cbn; lia|].
    intros i b H. destruct i; discriminate.
  Qed.

  Lemma bitmap_clear_ok bm bits : bitmap_ok bm bits -> bitmap_ok (bitmap_clear bm) [].
  Proof.
    intros [Hb Hs Hc Hh]. constructor; [reflexivity|reflexivity|cbn; unfold w_cap; cbn; lia|].
    intros i b H. destruct i; discriminate.
  Qed.

  Theorem bitmap_appends_ok runs : Forall (fun r => 0 <= snd r) runs -> forall bm bits, bitmap_ok bm bits ->
    exists bm', bitmap_appends junk bm runs = Ok bm' /\ bitmap_ok bm' (bits ++ run_bits runs).
  Proof.
    induction 1 as [|[v n] runs Hn _ IH]; intros bm bits H; cbn [bitmap_appends run_bits flat_map].
    - exists bm. rewrite app_nil_r. auto.
    - destruct (bitmap_append_ok bm bits v n H Hn) as (b1 & E1 & O1 & _). rewrite E1. cbn [obind].
      destruct (IH b1 _ O1) as (b2 & E2 & O2). exists b2. split; [exact E2|]. cbn [fst snd]. rewrite app_assoc. exact O2.
  Qed.
End Junk.

Lemma bit_of_firstn m k i : i < 8 * Z.of_nat k -> bit_of (firstn k m) i = bit_of m i.
Proof.
  intros H. unfold bit_of. destruct (Z.ltb_spec i 0); [reflexivity|].
  assert (i / 8 < Z.of_nat k) by (apply Z.div_lt_upper_bound; lia). assert (0 <= i / 8) by (apply Z.div_pos; lia).
  rewrite nth_error_firstn' by lia. reflexivity.
Qed.

Theorem bitmap_history_ok junk runs : Forall (fun r => 0 <= snd r) runs ->
  exists bm, bitmap_appends junk bitmap_init runs = Ok bm /\
    bm_bits bm = Z.of_nat (length (run_bits runs)) /\
    w_size (bm_buffer bm) = bytes_needed (Z.of_nat (length (run_bits runs))) /\
    holds_bits (firstn (Z.to_nat (w_size (bm_buffer bm))) (w_mem (bm_buffer bm))) (run_bits runs).
Proof.
  intros H. destruct (bitmap_appends_ok junk runs H bitmap_init [] bitmap_init_ok) as (bm & E & [B S C HB]).
  cbn [app] in *. exists bm. split; [exact E|]. split; [exact B|]. split; [exact S|].
  intros i b Hi. assert (i < length (run_bits runs))%nat by (apply nth_error_Some; congruence).
  pose proof (bytes_needed_bound (Z.of_nat (length (run_bits runs))) ltac:(lia)).
  rewrite bit_of_firstn by lia. apply HB. exact Hi.
Qed.
