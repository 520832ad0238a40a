(** * The coordinate buffers of a builder *)
From Verif Require Import Base BaseFacts TypesModel GeomSpec BufferModel BufferFacts CoordsModel CoordsSpec CoordsProofs BitmapModel BitmapProofs
  ArrowModel ArrayViewModel NativeSpec NativeProofs BuilderModel BuilderFacts.
Local Open Scope Z_scope.

(** Buffers per coordinate array, ordinates of a coordinate in one buffer, and where an ordinate is. *)
Definition ncols (l : layout) (d : dim) : nat := match l with Separate => ndim d | Interleaved => 1 end.
Definition step (l : layout) (d : dim) : Z := match l with Separate => 1 | Interleaved => Z.of_nat (ndim d) end.
Definition col_of (l : layout) (j : nat) : nat := match l with Separate => j | Interleaved => 0 end.
Definition idx_of (l : layout) (d : dim) (r : Z) (j : nat) : Z :=
  match l with Separate => r | Interleaved => r * Z.of_nat (ndim d) + Z.of_nat j end.

Lemma ndim_bounds d : (2 <= ndim d <= 4)%nat.
Proof. destruct d; cbn; lia. Qed.
Lemma step_pos l d : 1 <= step l d.
Proof. destruct l, d; cbn; lia. Qed.
Lemma col_lt l d j : (j < ndim d)%nat -> (col_of l j < ncols l d)%nat.
Proof. destruct l; cbn; lia. Qed.
Lemma idx_lt l d r j n : (j < ndim d)%nat -> 0 <= r < n -> 0 <= idx_of l d r j < step l d * n.
Proof. intros Hj Hr. destruct l; unfold idx_of, step; nia. Qed.
Lemma idx_step l d r j : idx_of l d r j = idx_of l d 0 j + r * step l d.
Proof. destruct l; unfold idx_of, step; lia. Qed.
Lemma place_inj l d r j r' j' : (j < ndim d)%nat -> (j' < ndim d)%nat ->
  col_of l j = col_of l j' -> idx_of l d r j = idx_of l d r' j' -> r = r' /\ j = j'.
Proof.
  intros Hj Hj' Hc Hi. destruct l; unfold col_of, idx_of in *; [auto|].
  assert (r = r') by nia. split; [assumption|]. subst. lia.
Qed.

Record coords_in (l : layout) (d : dim) (b : builder) (base : nat) (cs : list coord) : Prop := {
  ci_cols : exists W, 8 * step l d * bd_cap b <= W /\
    forall q, (q < ncols l d)%nat -> exists c, nth_error (bd_bufs b) (base + q) = Some c /\
      w_cap (bf c) = W /\ 0 <= w_size (bf c) <= 8 * step l d * bd_size b;
  ci_size : bd_size b = Z.of_nat (length cs);
  ci_cap : bd_size b <= bd_cap b;
  ci_vals : 0 < bd_cap b -> forall j, (j < ndim d)%nat -> exists c, nth_error (bd_bufs b) (base + col_of l j) = Some c /\
    nth_error (bd_values b) j = Some (bf_id c, idx_of l d 0 j);
  ci_len : length (bd_values b) = 8%nat;
  ci_data : forall r c j w, nth_error cs r = Some c -> nth_error c j = Some w -> exists cb,
    nth_error (bd_bufs b) (base + col_of l j) = Some cb /\ double_at (w_mem (bf cb)) (idx_of l d (Z.of_nat r) j) = Some w;
  ci_wf : wf_seq d cs
}.

(** Changes to the buffers before the coordinates. *)
Lemma coords_in_frame l d b base cs bufs next : coords_in l d b base cs ->
  (forall q, (base <= q)%nat -> nth_error bufs q = nth_error (bd_bufs b) q) -> coords_in l d (with_bufs b bufs next) base cs.
Proof.
  intros [] H. constructor; cbn [bd_bufs with_bufs bd_cap bd_size bd_values]; auto.
  - destruct ci_cols0 as (W & HW & Hq). exists W. split; [exact HW|]. intros q Lq. rewrite H by lia. auto.
  - intros Hc j Hj. rewrite H by lia. auto.
  - intros r c j w Hr Hj. rewrite H by lia. eauto.
Qed.

Section Junk.
  Variable junk : nat -> nat -> N.
  Hypothesis junk_bytes : forall i j, is_byte (junk i j).

  Lemma with_bufs_twice b x n y m : with_bufs (with_bufs b x n) y m = with_bufs b y m.
  Proof. reflexivity. Qed.

  Lemma one_column b i c size add : good b -> nth_error (bd_bufs b) i = Some c -> 0 <= size <= w_cap (bf c) ->
    exists c' next' extra,
      (do b <- set_buf_size b (Z.of_nat i) size; reserve_buffer junk b (Z.of_nat i) add) =
        Ok (with_bufs b (set_nth i c' (bd_bufs b)) next') /\
      good (with_bufs b (set_nth i c' (bd_bufs b)) next') /\ w_mem (bf c') = w_mem (bf c) ++ extra /\
      w_size (bf c') = size /\ w_cap (bf c') = new_capacity size (w_cap (bf c)) add.
  Proof.
    intros (Hi & Hm & Hn) Hc Hs. unfold set_buf_size. rewrite (get_buf_ok _ _ _ Hc). cbn [obind]. unfold set_buf. rewrite Nat2Z.id.
    set (c1 := {| bf_id := bf_id c; bf := {| w_mem := w_mem (bf c); w_size := size |} |}).
    destruct (reserve_buffer_ok junk junk_bytes (with_bufs b (set_nth i c1 (bd_bufs b)) (bd_next b)) i c1 add)
      as (c' & next' & extra & E & G & Es & Em & Ec).
    - split; [|split]; cbn [bd_bufs bd_next with_bufs]; [apply ids_same; assumption| |exact Hn].
      apply mems_set; [exact Hm|]. cbn [bf w_mem c1]. unfold mems_ok in Hm. rewrite Forall_forall in Hm. apply Hm. eapply nth_error_In; eauto.
    - cbn [bd_bufs with_bufs]. eapply nth_error_set_same; eauto.
    - exact Hs.
    - cbn [bd_bufs bd_next with_bufs] in *. rewrite with_bufs_twice, set_nth_twice in *. exists c', next', extra. auto.
  Qed.

  Lemma reserve_columns_ok add W : forall k i b, good b -> 0 <= bd_size b * 8 <= W ->
    (forall j, (i <= j < i + k)%nat -> exists c, nth_error (bd_bufs b) j = Some c /\ w_cap (bf c) = W) ->
    exists bufs' next', reserve_columns junk k b (Z.of_nat i) add = Ok (with_bufs b bufs' next') /\
      good (with_bufs b bufs' next') /\
      (forall j, (j < i \/ i + k <= j)%nat -> nth_error bufs' j = nth_error (bd_bufs b) j) /\
      (forall j, (i <= j < i + k)%nat -> exists c c' extra, nth_error (bd_bufs b) j = Some c /\ nth_error bufs' j = Some c' /\
         w_mem (bf c') = w_mem (bf c) ++ extra /\ w_size (bf c') = bd_size b * 8 /\
         w_cap (bf c') = new_capacity (bd_size b * 8) W (add * 8)).
  Proof.
    induction k as [|k IH]; intros i b Hg Hs Hc; cbn [reserve_columns].
    - exists (bd_bufs b), (bd_next b). rewrite with_bufs_id. split; [reflexivity|]. split; [exact Hg|]. split; [reflexivity|]. intros; lia.
    - destruct (Hc i ltac:(lia)) as (c & Ec & Wc).
      destruct (one_column b i c (bd_size b * 8) (add * 8) Hg Ec ltac:(lia)) as (c1 & n1 & x1 & E1 & G1 & M1 & S1 & C1).
      destruct (set_buf_size b (Z.of_nat i) (bd_size b * 8)) as [b1| | |] eqn:Eb; cbn [obind] in E1; try discriminate. cbn [obind].
      assert (bd_size b1 = bd_size b) as Hb1.
      { clear - Eb. unfold set_buf_size in Eb. destruct (get_buf b (Z.of_nat i)); cbn in Eb; try discriminate. injection Eb as <-. reflexivity. }
      rewrite E1. cbn [obind]. replace (Z.of_nat i + 1) with (Z.of_nat (S i)) by lia.
      destruct (IH (S i) _ G1) as (bufs' & next' & E' & G' & Ho & Hi).
      + exact Hs.
      + intros j Hj. cbn [bd_bufs with_bufs]. rewrite nth_error_set_other by lia. apply Hc. lia.
      + cbn [bd_bufs with_bufs bd_size] in *. rewrite with_bufs_twice in *.
        exists bufs', next'. split; [exact E'|]. split; [exact G'|]. split.
        * intros j Hj. rewrite Ho by lia. apply nth_error_set_other. lia.
        * intros j Hj. destruct (Nat.eq_dec j i) as [->|Hne].
          -- exists c, c1, x1. split; [exact Ec|]. rewrite Ho by lia. split; [eapply nth_error_set_same; eauto|].
             split; [exact M1|]. split; [exact S1|]. rewrite C1, Wc. reflexivity.
          -- destruct (Hi j ltac:(lia)) as (c0 & c' & x & H1 & H2). rewrite nth_error_set_other in H1 by lia. eauto.
  Qed.

  Lemma buffer_pointers_ok : forall n b i, (forall j, (i <= j < i + n)%nat -> exists c, nth_error (bd_bufs b) j = Some c) ->
    exists ps, buffer_pointers n b (Z.of_nat i) = Ok ps /\ length ps = n /\
      forall j c, (j < n)%nat -> nth_error (bd_bufs b) (i + j) = Some c -> nth_error ps j = Some (bf_id c, 0).
  Proof.
    induction n as [|n IH]; intros b i H; cbn [buffer_pointers].
    - exists []. split; [reflexivity|]. split; [reflexivity|]. intros; lia.
    - destruct (H i ltac:(lia)) as (c & Ec). rewrite (get_buf_ok _ _ _ Ec). cbn [obind].
      replace (Z.of_nat i + 1) with (Z.of_nat (S i)) by lia.
      destruct (IH b (S i)) as (ps & E & L & Hp); [intros j Hj; apply H; lia|]. rewrite E. cbn [obind].
      exists ((bf_id c, 0) :: ps). split; [reflexivity|]. split; [cbn; lia|].
      intros [|j] c' Hj Hc'.
      + rewrite Nat.add_0_r in Hc'. rewrite Hc' in Ec. injection Ec as ->. reflexivity.
      + cbn. apply Hp; [lia|]. rewrite <- Hc'. f_equal. lia.
  Qed.

  (** The part of the configuration that concerns coordinates. *)
  Record coord_cfg (l : layout) (d : dim) (base : nat) (b : builder) : Prop := {
    cc_dims : bd_dims b = dim_code d;
    cc_ctype : bd_ctype b = layout_code l;
    cc_nv : bd_n_values b = Z.of_nat (ndim d);
    cc_stride : bd_stride b = step l d;
    cc_nb : bd_n_buffers b = Z.of_nat (base + ncols l d)
  }.

  Lemma nth_error_seq_map {A} (f : nat -> A) n j : (j < n)%nat -> nth_error (map f (seq 0 n)) j = Some (f j).
  Proof.
    intros H. rewrite nth_error_map. rewrite (nth_error_nth' (seq 0 n) 0%nat) by (rewrite seq_length; lia).
    rewrite seq_nth by lia. reflexivity.
  Qed.

  Lemma nth_error_skip_app {A} (a v : list A) n j x : length a = n -> nth_error a j = Some x -> nth_error (a ++ skipn n v) j = Some x.
  Proof. intros L H. rewrite nth_error_app1; [exact H|]. apply nth_error_Some. congruence. Qed.

  Lemma double_at_app m e i w : double_at m i = Some w -> double_at (m ++ e) i = Some w.
  Proof.
    unfold double_at. destruct (slice m (8 * i) 8) as [bs|] eqn:E; [|discriminate]. intros H.
    rewrite slice_app_l, E; [exact H|]. assert (exists b, slice m (8 * i) 8 = Some b) as Hx by eauto.
    apply slice_some_iff in Hx. lia.
  Qed.

  Lemma div_div8 W n : 0 <= W -> 0 < n -> 8 * n * (W / 8 / n) <= W.
  Proof.
    intros. rewrite Z.div_div by lia. pose proof (Z.mul_div_le W (8 * n) ltac:(lia)). lia.
  Qed.

  Lemma coords_reserve_ok l d base b cs n : coord_cfg l d base b -> good b -> coords_in l d b base cs -> 0 <= n ->
    exists b', coords_reserve junk b n = Ok b' /\ good b' /\ coords_in l d b' base cs /\
      bd_size b' + n <= bd_cap b' /\
      (exists bufs next values cap, b' = with_coord_view (with_bufs b bufs next) values (bd_size b) cap) /\
      length (bd_bufs b') = length (bd_bufs b) /\
      (forall j, (j < base \/ base + ncols l d <= j)%nat -> nth_error (bd_bufs b') j = nth_error (bd_bufs b) j).
  Proof.
    intros [Hd Hct Hnv Hst Hnb] Hg Hci Hn. unfold coords_reserve.
    destruct (Z.leb_spec (bd_size b + n) (bd_cap b)) as [Hle|Hgt].
    { exists b. split; [reflexivity|]. split; [exact Hg|]. split; [exact Hci|]. split; [exact Hle|].
      split; [|split; reflexivity]. exists (bd_bufs b), (bd_next b), (bd_values b), (bd_cap b). destruct b; reflexivity. }
    rewrite Hct, Hnb, Hnv.
    destruct Hci as [(W & HW & Hcols) Hsz Hcap Hvals Hlen Hdata Hwf].
    assert (0 <= bd_size b) as Hs0 by lia. pose proof (step_pos l d) as Hsp.
    assert (ncols l d <= 4)%nat as Hn4 by (destruct l, d; cbn; lia).
    destruct l; cbn [layout_code].
    - change (1 =? CT_INTERLEAVED) with false. change (1 =? CT_SEPARATE) with true. cbn iota.
      cbn [ncols step] in *. rewrite Nat2Z.id.
      replace (Z.of_nat (base + ndim d) - 1 - Z.of_nat (ndim d) + 1) with (Z.of_nat base) by lia.
      destruct (reserve_columns_ok n W (ndim d) base b Hg ltac:(lia)) as (bufs' & next' & E & G & Ho & Hi).
      { intros j Hj. destruct (Hcols (j - base)%nat ltac:(lia)) as (c & Ec & Wc & _). replace (base + (j - base))%nat with j in Ec by lia. eauto. }
      rewrite E. cbn [obind]. pose proof (ndim_bounds d).
      destruct (Hi (base + ndim d - 1)%nat ltac:(lia)) as (c & c' & x & Hc & Hc' & _ & _ & Cc).
      replace (Z.of_nat (base + ndim d) - 1) with (Z.of_nat (base + ndim d - 1)) by lia.
      rewrite (get_buf_ok (with_bufs b bufs' next') _ c') by exact Hc'. cbn [obind].
      destruct (buffer_pointers_ok (ndim d) (with_bufs b bufs' next') base) as (ps & Ep & Lp & Hp).
      { intros j Hj. destruct (Hi j ltac:(lia)) as (? & cj & ? & _ & Hj' & _). exists cj. exact Hj'. }
      rewrite Ep. cbn [obind]. cbn [bd_values bd_size with_bufs].
      set (N := new_capacity (bd_size b * 8) W (n * 8)) in *.
      assert (W <= N /\ bd_size b * 8 + n * 8 <= N) as (HN1 & HN2) by (apply new_capacity_ge; lia).
      eexists. split; [reflexivity|].
      assert (length bufs' = length (bd_bufs b)) as Hlb.
      { apply Nat.le_antisymm; [apply (proj1 (nth_error_None _ _))|]; [|apply (proj1 (nth_error_None _ _))].
        - destruct (nth_error bufs' (length (bd_bufs b))) eqn:E0; [|reflexivity].
          assert (base <= length (bd_bufs b) < base + ndim d \/ (length (bd_bufs b) < base \/ base + ndim d <= length (bd_bufs b)))%nat as [Hx|Hx] by lia.
          + destruct (Hi _ Hx) as (? & ? & ? & H1 & _). rewrite (proj2 (nth_error_None _ _)) in H1 by lia. discriminate.
          + rewrite Ho in E0 by exact Hx. rewrite (proj2 (nth_error_None _ _)) in E0 by lia. discriminate.
        - destruct (nth_error (bd_bufs b) (length bufs')) eqn:E0; [|reflexivity].
          assert (base <= length bufs' < base + ndim d \/ (length bufs' < base \/ base + ndim d <= length bufs'))%nat as [Hx|Hx] by lia.
          + destruct (Hi _ Hx) as (? & ? & ? & _ & H1 & _). rewrite (proj2 (nth_error_None _ _)) in H1 by lia. discriminate.
          + rewrite <- Ho in E0 by exact Hx. rewrite (proj2 (nth_error_None _ _)) in E0 by lia. discriminate. }
      split; [exact G|]. split; [|split; [|split; [|split]]].
      + constructor; cbn [bd_bufs bd_cap bd_size bd_values with_coord_view with_bufs].
        * exists N. rewrite Cc. split; [change (step Separate d) with 1; pose proof (Z.mul_div_le N 8 ltac:(lia)); lia|].
          intros q Hq. cbn [ncols] in Hq. destruct (Hi (base + q)%nat ltac:(lia)) as (c1 & c2 & y & _ & H2 & _ & S2 & C2).
          exists c2. split; [exact H2|]. split; [exact C2|]. change (step Separate d) with 1. lia.
        * exact Hsz.
        * rewrite Cc. apply Z.div_le_lower_bound; lia.
        * intros _ j Hj. cbn [col_of idx_of]. destruct (Hi (base + j)%nat ltac:(lia)) as (c1 & c2 & y & _ & H2 & _).
          exists c2. split; [exact H2|]. apply nth_error_skip_app; [exact Lp|]. apply Hp; assumption.
        * rewrite app_length, skipn_length, Lp. lia.
        * intros r c0 j w Hr Hj. destruct (Hdata r c0 j w Hr Hj) as (cb & Hcb & Hv). cbn [col_of idx_of] in *.
          assert (j < ndim d)%nat as Lj.
          { unfold wf_seq in Hwf. rewrite Forall_forall in Hwf. destruct (Hwf c0 (nth_error_In _ _ Hr)) as (L0 & _).
            rewrite <- L0. apply nth_error_Some. congruence. }
          destruct (Hi (base + j)%nat ltac:(lia)) as (c1 & c2 & y & H1 & H2 & M2 & _).
          exists c2. split; [exact H2|]. rewrite M2. apply double_at_app. congruence.
        * exact Hwf.
      + cbn [bd_size bd_cap with_coord_view]. rewrite Cc. apply Z.div_le_lower_bound; lia.
      + eexists _, _, _, _. reflexivity.
      + exact Hlb.
      + exact Ho.
    - change (2 =? CT_INTERLEAVED) with true. cbn iota. cbn [ncols step] in *.
      destruct (Hcols 0%nat ltac:(lia)) as (c & Ec & Wc & Sc). rewrite Nat.add_0_r in Ec.
      replace (Z.of_nat (base + 1) - 1) with (Z.of_nat base) by lia.
      assert (0 < Z.of_nat (ndim d)) by (pose proof (ndim_bounds d); lia).
      destruct (one_column b base c (bd_size b * 8 * Z.of_nat (ndim d)) (n * 8 * Z.of_nat (ndim d)) Hg Ec ltac:(rewrite Wc; nia))
        as (c1 & n1 & x1 & E1 & G1 & M1 & S1 & C1).
      destruct (set_buf_size b (Z.of_nat base) (bd_size b * 8 * Z.of_nat (ndim d))) as [b1| | |] eqn:Eb; cbn [obind] in E1; try discriminate.
      cbn [obind]. rewrite E1. cbn [obind].
      assert (nth_error (set_nth base c1 (bd_bufs b)) base = Some c1) as E1' by (eapply nth_error_set_same; eauto).
      rewrite (get_buf_ok (with_bufs b (set_nth base c1 (bd_bufs b)) n1) base c1) by exact E1'. cbn [obind]. rewrite Nat2Z.id.
      cbn [bd_values bd_size with_bufs]. rewrite C1, Wc in *.
      set (N := new_capacity (bd_size b * 8 * Z.of_nat (ndim d)) W (n * 8 * Z.of_nat (ndim d))) in *.
      assert (W <= N /\ bd_size b * 8 * Z.of_nat (ndim d) + n * 8 * Z.of_nat (ndim d) <= N) as (HN1 & HN2) by (apply new_capacity_ge; nia).
      eexists. split; [reflexivity|]. split; [exact G1|].
      assert (bd_size b + n <= N / 8 / Z.of_nat (ndim d)) as Hroom.
      { rewrite Z.div_div by lia. apply Z.div_le_lower_bound; lia. }
      split; [|split; [|split; [|split]]].
      + constructor; cbn [bd_bufs bd_cap bd_size bd_values with_coord_view with_bufs].
        * exists N. split; [change (step Interleaved d) with (Z.of_nat (ndim d)); apply div_div8; lia|].
          intros q Hq. cbn [ncols] in Hq. assert (q = 0)%nat by lia. subst q. rewrite Nat.add_0_r.
          exists c1. split; [exact E1'|]. split; [exact C1|]. change (step Interleaved d) with (Z.of_nat (ndim d)). nia.
        * exact Hsz.
        * lia.
        * intros _ j Hj. cbn [col_of idx_of]. rewrite Nat.add_0_r. exists c1. split; [exact E1'|].
          apply nth_error_skip_app; [rewrite map_length, seq_length; reflexivity|]. rewrite nth_error_seq_map by exact Hj. f_equal.
        * rewrite app_length, skipn_length, map_length, seq_length. pose proof (ndim_bounds d). lia.
        * intros r c0 j w Hr Hj. destruct (Hdata r c0 j w Hr Hj) as (cb & Hcb & Hv). cbn [col_of] in *. rewrite Nat.add_0_r in *.
          exists c1. split; [exact E1'|]. rewrite M1. apply double_at_app. congruence.
        * exact Hwf.
      + cbn [bd_size bd_cap with_coord_view]. exact Hroom.
      + eexists _, _, _, _. reflexivity.
      + apply set_nth_length.
      + intros j Hj. cbn [bd_bufs with_coord_view with_bufs]. apply nth_error_set_other. lia.
  Qed.
End Junk.
