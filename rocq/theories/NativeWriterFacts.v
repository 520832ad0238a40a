(** * Offsets and coordinates in the buffers of a native writer *)
From Verif Require Import Base BaseFacts TypesModel GeomSpec VisitorModel BufferModel BufferFacts CoordsModel BitmapModel BitmapSpec BitmapProofs
  ArrowModel ArrayViewModel NativeSpec BuilderModel BuilderSpec BuilderRun BuilderFacts BuilderCoords BuilderFinish BuilderProofs NativeWriterModel NativeWriterSpec.
Local Open Scope Z_scope.

(** The offsets of lists of given lengths. *)
Fixpoint sums (s : Z) (l : list Z) : list Z := s :: match l with [] => [] | x :: r => sums (s + x) r end.
Definition total (l : list Z) : Z := fold_right Z.add 0 l.

Lemma total_app a b : total (a ++ b) = total a + total b.
Proof. unfold total. induction a as [|x a IH]; cbn; [reflexivity|]. rewrite IH. lia. Qed.
Lemma sums_app x : forall l s, sums s (l ++ [x]) = sums s l ++ [s + total l + x].
Proof.
  induction l as [|y l IH]; intros s; cbn [app sums]; [cbn; do 3 f_equal; lia|]. f_equal. rewrite IH. do 2 f_equal. change (total (y :: l)) with (y + total l). lia.
Qed.
Lemma sums_length l : forall s, length (sums s l) = S (length l).
Proof. induction l as [|y l IH]; intros s; cbn [sums length]; [reflexivity|]. rewrite IH. reflexivity. Qed.
Lemma sums_nth : forall i l s, (i <= length l)%nat -> nth_error (sums s l) i = Some (s + total (firstn i l)).
Proof.
  induction i as [|i IH]; intros l s H; [destruct l; cbn; f_equal; lia|]. destruct l as [|x l]; [cbn in H; lia|].
  cbn [sums nth_error firstn]. rewrite IH by (cbn in H; lia). f_equal. change (total (x :: firstn i l)) with (x + total (firstn i l)). lia.
Qed.

Lemma offset_bytes_length v : length (offset_bytes v) = 4%nat.
Proof. unfold offset_bytes. apply le_bytes_length. Qed.
Lemma offsets_length l : length (flat_map offset_bytes l) = (4 * length l)%nat.
Proof. induction l as [|x l IH]; [reflexivity|]. cbn [flat_map length]. rewrite app_length, offset_bytes_length, IH. lia. Qed.

(** The counts with [x] added at level [i]. *)
Definition add_at (i : nat) (x : Z) (cnt : nat -> list Z) : nat -> list Z := fun j => if Nat.eqb j i then cnt j ++ [x] else cnt j.

(** The builder of a writer: offsets made of the counts [cnt] at each level, and the coordinates [cs]. *)
Record built (k : geometry_kind) (l : layout) (d : dim) (b : builder) (cnt : nat -> list Z) (cs : list coord) : Prop := {
  bu_cfg : cfg (make_type (geometry_kind_code k) (dim_code d) (layout_code l)) b;
  bu_good : good b;
  bu_len : length (bd_bufs b) = buffer_count (ANative k l d);
  bu_zero : exists c, nth_error (bd_bufs b) 0 = Some c /\ bf c = wbuf_init;
  bu_offs : forall i, (i < n_lists k)%nat -> exists c, nth_error (bd_bufs b) (S i) = Some c /\ has_data c (flat_map offset_bytes (sums 0 (cnt i)));
  bu_coords : coords_in l d b (1 + n_lists k) cs
}.

Lemma built_ext k l d b cnt cnt' cs cs' : built k l d b cnt cs -> (forall i, (i < n_lists k)%nat -> cnt i = cnt' i) -> cs = cs' -> built k l d b cnt' cs'.
Proof. intros [H1 H2 H3 H4 H5 H6] He <-. constructor; auto. intros i Hi. rewrite <- He by exact Hi. auto. Qed.

Lemma kind_supported k d l : k <> KBox -> supported k d l.
Proof. intros H E. contradiction. Qed.

Lemma cfg_init k l d b : k <> KBox -> cfg (make_type (geometry_kind_code k) (dim_code d) (layout_code l)) b ->
  coord_cfg l d (1 + n_lists k) b /\ bd_geom b = geometry_kind_code k /\ bd_n_offsets b = Z.of_nat (n_lists k).
Proof.
  intros Hk (b0 & E & (H1 & H2 & H3 & H4 & H5 & H6 & H7 & H8 & H9)).
  destruct k, l, d; try contradiction; vm_compute in E; injection E as <-;
    (split; [constructor; [rewrite H3|rewrite H4|rewrite H6|rewrite H7|rewrite H8]; vm_compute; reflexivity|split; [rewrite H2|rewrite H5]; vm_compute; reflexivity]).
Qed.

Lemma ncols_columns k l d : k <> KBox -> n_columns k l d = ncols l d.
Proof. intros H. destruct k; try contradiction; destruct l; reflexivity. Qed.

Section Junk.
  Variable junk : nat -> nat -> N.
  Hypothesis junk_bytes : forall i j, is_byte (junk i j).

  (** An offset is appended to level [i]; only its value modulo 2^32 matters. *)
  Lemma built_push k l d b cnt cs i v x : built k l d b cnt cs -> (i < n_lists k)%nat -> v mod 4294967296 = (total (cnt i) + x) mod 4294967296 ->
    exists b', offset_append junk b (Z.of_nat i) v = Ok b' /\ built k l d b' (add_at i x cnt) cs.
  Proof.
    intros [H1 H2 H3 H4 H5 H6] Hi Hv. destruct (H5 i Hi) as (c & Hc & Hd).
    assert (Z.of_nat (length (flat_map offset_bytes (sums 0 (cnt i)))) mod 4 = 0) as Hm.
    { rewrite offsets_length, Nat2Z.inj_mul. change (Z.of_nat 4) with 4. rewrite Z.mul_comm. apply Z_mod_mult. }
    destruct (offset_append_ok junk junk_bytes b i c _ v H2 Hc Hd Hm) as (c' & next & E & G & D).
    eexists. split; [exact E|]. constructor; cbn [bd_bufs with_bufs]; auto.
    - rewrite set_nth_length. exact H3.
    - rewrite nth_error_set_other by lia. exact H4.
    - intros j Hj. unfold add_at. destruct (Nat.eqb_spec j i) as [->|Hne].
      + exists c'. split; [eapply nth_error_set_same; exact Hc|]. rewrite sums_app, flat_map_app. cbn [flat_map]. rewrite app_nil_r.
        unfold offset_bytes at 2. rewrite Z.add_0_l, <- Hv. exact D.
      + rewrite nth_error_set_other by lia. auto.
    - apply coords_in_frame; [exact H6|]. intros q Hq. apply nth_error_set_other. lia.
  Qed.

  Lemma built_coords k l d b b' cnt cs cs' : built k l d b cnt cs -> good b' -> coords_in l d b' (1 + n_lists k) cs' ->
    (exists bufs next values size cap, b' = with_coord_view (with_bufs b bufs next) values size cap) ->
    length (bd_bufs b') = length (bd_bufs b) ->
    (forall j, (j < 1 + n_lists k \/ 1 + n_lists k + ncols l d <= j)%nat -> nth_error (bd_bufs b') j = nth_error (bd_bufs b) j) ->
    built k l d b' cnt cs'.
  Proof.
    intros [H1 H2 H3 H4 H5 H6] G C (bufs & next & values & size & cap & E) L F. constructor; auto.
    - rewrite E. exact H1.
    - congruence.
    - rewrite F by lia. exact H4.
    - intros i Hi. rewrite F by lia. auto.
  Qed.
End Junk.
