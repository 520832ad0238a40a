From Verif Require Import Base BaseFacts TypesModel GeomSpec GeomFacts WkbSpec NodesModel NodesSpec VisitorModel VisitorSpec
  VisitorFacts WkbReaderModel WkbReaderProofs GeomVisitModel GeomVisitProofs BufferModel BufferFacts ArraySpec
  WkbWriterModel WkbWriterProofs WkbWriterSpec WkbWriterHistory.
Local Open Scope N_scope.

Lemma nan_points_coll k d parts : nan_points (GColl k d parts) = GColl k d (map nan_points parts).
Proof. cbn. f_equal. Qed.

Lemma nan_points_wf g : wf_geom g -> wf_geom (nan_points g).
Proof.
  induction g as [d cs|d cs|d rings|k d parts IH] using geom_ind'; intros H; try exact H.
  - destruct cs; [|exact H]. constructor; [|cbn; lia]. constructor; [|constructor].
    split; [apply repeat_length|]. apply Forall_forall. intros w Hw. apply repeat_spec in Hw as ->. reflexivity.
  - rewrite nan_points_coll. inversion H as [| | |? ? ? Hw]; subst. constructor. apply wf_geoms_Forall in Hw. apply wf_geoms_Forall.
    rewrite Forall_map. clear H. induction IH; inversion Hw; subst; constructor; auto.
Qed.

Lemma levels_coll k d parts : levels (GColl k d parts) = S (fold_right (fun g n => Nat.max (levels g) n) 1%nat parts).
Proof. cbn. f_equal. Qed.

Lemma nan_points_levels g : levels (nan_points g) = levels g.
Proof.
  induction g as [d cs|d cs|d rings|k d parts IH] using geom_ind'; try reflexivity.
  - destruct cs; reflexivity.
  - rewrite nan_points_coll, !levels_coll. f_equal. induction IH as [|g gs Hg Hgs IHgs]; [reflexivity|].
    cbn [map fold_right]. rewrite Hg, IHgs. reflexivity.
Qed.

Lemma iso_header_eq d t : iso_header d t = enc_header LE Iso None d t.
Proof. unfold iso_header, enc_header, type_word. rewrite N.add_0_r, app_nil_r. reflexivity. Qed.

Lemma iso_wkb_pos g : (1 <= length (iso_wkb g))%nat.
Proof.
  destruct g as [d [|c cs]|d cs|d rings|k d parts]; cbn [iso_wkb]; unfold iso_header; rewrite !app_length; cbn [length]; lia.
Qed.

Lemma flat_map_count {A} (f : A -> bytes) l : (forall a, In a l -> (1 <= length (f a))%nat) ->
  (length l <= length (flat_map f l))%nat.
Proof.
  induction l as [|a l IH]; intros H; cbn [flat_map length]; [lia|]. rewrite app_length.
  specialize (IH (fun b Hb => H b (or_intror Hb))). specialize (H a (or_introl eq_refl)). lia.
Qed.
Lemma flat_map_part {A} (f : A -> bytes) l a : In a l -> (length (f a) <= length (flat_map f l))%nat.
Proof.
  induction l as [|b l IH]; intros H; [contradiction|]. cbn [flat_map]. rewrite app_length. destruct H as [->|H]; [lia|].
  specialize (IH H). lia.
Qed.

Lemma enc_coord_pos d c : wf_coord d c -> (1 <= length (enc_coord LE c))%nat.
Proof.
  intros [H _]. unfold enc_coord. destruct c as [|w c]; [destruct d; discriminate|]. cbn [flat_map]. rewrite app_length.
  unfold enc64. rewrite le_bytes_length. lia.
Qed.
Lemma enc_coords_count d cs : wf_seq d cs -> (length cs <= length (enc_coords LE cs))%nat.
Proof.
  intros H. apply flat_map_count. intros c Hc. apply (enc_coord_pos d). unfold wf_seq in H. rewrite Forall_forall in H. auto.
Qed.

Lemma iso_wkb_is_wkb g : wf_geom g -> N.of_nat (length (iso_wkb g)) < 2 ^ 32 -> wkb (nan_points g) (iso_wkb g).
Proof.
  induction g as [d cs|d cs|d rings|k d parts IH] using geom_ind'; intros Hwf Hlen.
  - inversion Hwf; subst. destruct cs as [|c [|c2 cs]]; [| |cbn in *; lia]; cbn [nan_points iso_wkb]; rewrite iso_header_eq.
    + apply wkb_point. exact I.
    + unfold enc_coords. cbn [flat_map]. rewrite app_nil_r. apply wkb_point. exact I.
  - inversion Hwf; subst. cbn [nan_points iso_wkb] in *. rewrite iso_header_eq.
    apply (wkb_line LE Iso None d cs); [exact I|]. unfold count_ok.
    pose proof (enc_coords_count d cs ltac:(assumption)). rewrite !app_length in Hlen. lia.
  - inversion Hwf as [| |? ? Hw|]; subst. cbn [nan_points iso_wkb] in *. rewrite iso_header_eq. rewrite !app_length in Hlen.
    apply (wkb_poly LE Iso None d rings); [exact I|unfold count_ok|].
    + pose proof (flat_map_count (enc_ring LE) rings) as H.
      assert (length rings <= length (flat_map (enc_ring LE) rings))%nat; [|lia].
      apply H. intros r _. unfold enc_ring, enc32. rewrite app_length, le_bytes_length. lia.
    + apply Forall_forall. intros r Hr. rewrite Forall_forall in Hw. specialize (Hw r Hr).
      pose proof (enc_coords_count d r Hw). pose proof (flat_map_part (enc_ring LE) rings r Hr) as Hp.
      unfold enc_ring at 1 in Hp. rewrite app_length in Hp. unfold count_ok. lia.
  - inversion Hwf as [| | |? ? ? Hw]; subst. apply wf_geoms_Forall in Hw.
    rewrite nan_points_coll, iso_wkb_coll, iso_header_eq in *. rewrite !app_length in Hlen.
    replace (N.of_nat (length parts)) with (N.of_nat (length (map nan_points parts))) by (rewrite map_length; reflexivity).
    apply (wkb_coll LE Iso None k d (map nan_points parts)); [exact I|unfold count_ok; rewrite map_length|].
    + pose proof (flat_map_count iso_wkb parts (fun g _ => iso_wkb_pos g)). lia.
    + assert (N.of_nat (length (flat_map iso_wkb parts)) < 2 ^ 32) as Hp by lia. clear Hlen Hwf.
      induction IH as [|g gs Hg Hgs IHgs]; cbn [map flat_map]; [constructor|].
      inversion Hw; subst. cbn [flat_map] in Hp. rewrite app_length in Hp.
      constructor; [apply Hg; [assumption|lia]|apply IHgs; [assumption|lia]].
Qed.

Lemma written_reads_back op g s s' rest swap0 : writes op (Some g) -> buf_ok (w_values s) -> run_op s op = Some (s', 0%Z) ->
  (levels g <= 256)%nat -> (b_size (w_values s') < 2 ^ 31)%Z ->
  exists b nodes, b_data (w_values s') = b_data (w_values s) ++ b /\ b = iso_wkb g /\
    wkb_read_from (b ++ rest) swap0 = Ok nodes /\ repr_geom (wkb_mem (b ++ rest)) 0 nodes (nan_points g).
Proof.
  intros Hw Hok Hrun Hlev Hsz. pose proof (run_op_ok s op (Some g) s' Hw Hok Hrun) as A.
  assert (wf_geom g) as Hwf by (inversion Hw; subst; auto).
  pose proof (ad_data _ _ _ A) as D. cbn in D. unfold data in D.
  assert (N.of_nat (length (iso_wkb g)) < 2 ^ 32).
  { unfold b_size in Hsz. rewrite D, app_length in Hsz. lia. }
  destruct (wkb_read_ok (nan_points g) (iso_wkb g) rest swap0) as (nodes & R & Rep).
  - apply iso_wkb_is_wkb; assumption.
  - apply nan_points_wf. exact Hwf.
  - rewrite nan_points_levels. exact Hlev.
  - lia.
  - exists (iso_wkb g), nodes. auto.
Qed.
