From Coq Require Import Sorting.Sorted.
From Verif Require Import Base BaseFacts TypesModel GeomSpec GeomFacts VisitorModel BufferModel ArrowModel NativeSpec WktGrammar WktReaderModel WktReaderProofs ArrayReaderModel SerialSpec
  KernelModel KernelSpec KernelProofs.
From Verif Require BuilderFacts NativeWriterArray.
Local Open Scope Z_scope.

Lemma type_value g : nth (N.to_nat (type_bit g)) type_values 0 = iso_code g.
Proof. unfold type_bit, iso_code. destruct g as [d cs|d cs|d rings|c d parts]; destruct d; try destruct c; reflexivity. Qed.

Lemma type_values_mono i j : (i < j < 40)%nat -> nth i type_values 0 < nth j type_values 0.
Proof.
  intros H. assert (forallb (fun j => forallb (fun i => nth i type_values 0 <? nth j type_values 0) (seq 0 j)) (seq 0 40) = true) as Hall by reflexivity.
  rewrite forallb_forall in Hall. specialize (Hall j ltac:(apply in_seq; lia)). rewrite forallb_forall in Hall.
  specialize (Hall i ltac:(apply in_seq; lia)). apply Z.ltb_lt in Hall. exact Hall.
Qed.
Lemma type_values_range i : -1000 <= nth i type_values 0 <= 3007.
Proof.
  destruct (Nat.lt_ge_cases i 40).
  - assert (forallb (fun i => (-1000 <=? nth i type_values 0) && (nth i type_values 0 <=? 3007)) (seq 0 40) = true) as Hall by reflexivity.
    rewrite forallb_forall in Hall. specialize (Hall i ltac:(apply in_seq; lia)). apply Bool.andb_true_iff in Hall.
    rewrite Z.leb_le, Z.leb_le in Hall. exact Hall.
  - rewrite nth_overflow by exact H. lia.
Qed.

Lemma sorted_values p n : forall k, (k + n <= 40)%nat ->
  StronglySorted Z.lt (map (fun i => nth i type_values 0) (filter p (seq k n))).
Proof.
  induction n as [|n IH]; intros k Hk; cbn [seq filter map]; [constructor|].
  destruct (p k); [|apply IH; lia]. cbn [map]. constructor; [apply IH; lia|].
  apply Forall_forall. intros z Hz. apply in_map_iff in Hz. destruct Hz as (i & <- & Hi). apply filter_In in Hi. destruct Hi as (Hi & _).
  apply in_seq in Hi. apply type_values_mono. lia.
Qed.

Lemma to_int32_small z : -1000 <= z <= 3007 -> to_int32 z = z.
Proof. intros H. unfold to_int32. rewrite Z.mod_small; lia. Qed.

Theorem types_agg parse t r0 st sw batches fss : number_parser parse -> reader_init t = Ok r0 -> Forall2 (features_array parse t) batches fss ->
  exists a zs, aggregate unique_geometry_types_agg parse st sw t gtypes_init batches = Ok a /\ int32_array a zs /\ StronglySorted Z.lt zs /\
    forall z, In z zs <-> exists g, In (Some g) (concat fss) /\ geom_coords g <> [] /\ iso_code g = z.
Proof.
  intros Hp Hr Hb. unfold aggregate. rewrite Hr. cbn [obind].
  destruct (push_types parse t st sw Hp batches fss 0%nat r0 gtypes_init (rh_init t r0 Hr) Hb) as (r & s & outs & -> & Hm & _).
  cbn [obind kn_finish unique_geometry_types_agg]. unfold gtypes_finish. change (0 =? 0) with true. cbn iota. cbn [or_ub].
  set (values := map (fun i => nth i type_values 0) (filter (fun i => N.testbit (gs_mask s) (N.of_nat i)) (seq 0 40))).
  eexists. exists values. split; [reflexivity|]. split; [|split; [apply sorted_values; lia|]].
  - split; [reflexivity|]. split; [reflexivity|]. intros i z Hz. split; [reflexivity|].
    eexists. split; [reflexivity|]. cbn [aa_offset]. rewrite Z.add_0_l. change int32_bytes with BuilderFacts.offset_bytes.
    rewrite (NativeWriterArray.offset_nth _ _ _ Hz). f_equal. apply to_int32_small.
    apply nth_error_In in Hz. apply in_map_iff in Hz. destruct Hz as (j & <- & _). apply type_values_range.
  - intros z. unfold values. rewrite in_map_iff. split.
    + intros (i & <- & Hi). apply filter_In in Hi. destruct Hi as (_ & Hi). rewrite Hm in Hi. apply masked_bits in Hi.
      destruct Hi as [Hi|(g & H1 & H2 & H3)]; [rewrite N.bits_0 in Hi; discriminate|]. exists g. split; [exact H1|]. split; [exact H2|].
      rewrite <- type_value, H3, Nat2N.id. reflexivity.
    + intros (g & H1 & H2 & <-). exists (N.to_nat (type_bit g)). split; [apply type_value|].
      pose proof (type_bit_bound g). apply filter_In. split; [apply in_seq; lia|]. rewrite N2Nat.id, Hm. apply masked_bits. right. exists g. auto.
Qed.

(** Equal features give the same array, however they are encoded and split. *)
Theorem types_agg_split parse t1 t2 r1 r2 st1 sw1 st2 sw2 batches1 batches2 fss1 fss2 : number_parser parse ->
  reader_init t1 = Ok r1 -> reader_init t2 = Ok r2 ->
  Forall2 (features_array parse t1) batches1 fss1 -> Forall2 (features_array parse t2) batches2 fss2 -> concat fss1 = concat fss2 ->
  aggregate unique_geometry_types_agg parse st1 sw1 t1 gtypes_init batches1 = aggregate unique_geometry_types_agg parse st2 sw2 t2 gtypes_init batches2.
Proof.
  intros Hp Hr1 Hr2 H1 H2 He. unfold aggregate. rewrite Hr1, Hr2. cbn [obind].
  destruct (push_types parse t1 st1 sw1 Hp batches1 fss1 0%nat r1 gtypes_init (rh_init t1 r1 Hr1) H1) as (x1 & s1 & outs1 & -> & Hm1 & _).
  destruct (push_types parse t2 st2 sw2 Hp batches2 fss2 0%nat r2 gtypes_init (rh_init t2 r2 Hr2) H2) as (x2 & s2 & outs2 & -> & Hm2 & _).
  cbn [obind kn_finish unique_geometry_types_agg]. unfold gtypes_finish. rewrite Hm1, Hm2, He. reflexivity.
Qed.
