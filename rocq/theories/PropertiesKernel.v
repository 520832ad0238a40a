(** * C37 and C38: the box kernel and the aggregating kernels *)
From Coq Require Import Sorting.Sorted.
From Verif Require Import Base TypesModel GeomSpec WkbSpec WktGrammar ArrowModel NativeSpec WktReaderModel ArrayReaderModel SerialSpec KernelModel KernelSpec
  KernelTypes KernelBox PropertiesWktReader.
Local Open Scope Z_scope.

(** In all of these, [parse] is the number parser of the WKT reader, [st] and [sw] are the states in which its readers are when
    they start on a feature, and [t] is the type of the arrays, in any encoding. *)

(** ** Examples of batches *)

(** An array of byte strings with 32-bit offsets, one of them unused, and an offset of one. *)
Fixpoint ex_offsets (n : Z) (els : list (option bytes)) : list Z :=
  match els with
  | [] => [n]
  | e :: els => n :: ex_offsets (n + match e with Some b => Z.of_nat (length b) | None => 0 end) els
  end.
Definition ex_serial (bitmap : bytes) (nulls : Z) (els : list (option bytes)) : arrow_array :=
  ArrowArray (Z.of_nat (length els)) 1 nulls
    [Some bitmap; Some (flat_map (fun z => le_bytes 4 (Z.to_N z)) (0 :: ex_offsets 2 els));
     Some (9 :: 9 :: flat_map (fun e : option bytes => match e with Some b => b | None => [] end) els)%N] [].

Definition one : N := 0x3FF0000000000000.
Definition minus_one : N := 0xBFF0000000000000.
Definition minus_zero : N := 0x8000000000000000.
Definition quiet_nan : N := 0x7FF8000000000000.

Definition ex_point : geom := GPoint XY [[one; minus_one]].
Definition ex_line : geom := GLine XYZ [[minus_zero; quiet_nan; 0]; [0; minus_one; one]; [minus_one; quiet_nan; 0]]%N.
Definition ex_hole : geom := GColl CCollection XY [].
Definition ex_batch1 : list (option geom) := [Some ex_point; None; Some ex_line].
Definition ex_batch2 : list (option geom) := [Some ex_hole].
Definition ex_array1 : arrow_array := ex_serial [10]%N 1
  [Some (enc_header LE Iso None XY 1 ++ enc_coord LE [one; minus_one]); None;
   Some (enc_header BE Ewkb None XYZ 2 ++ enc32 BE 3 ++ enc_coords BE [[minus_zero; quiet_nan; 0]; [0; minus_one; one]; [minus_one; quiet_nan; 0]])]%N.
Definition ex_array2 : arrow_array := ex_serial [2]%N 0 [Some (enc_header LE Iso None XY 7 ++ enc32 LE 0 ++ [])].

Lemma ex_features1 parse : features_array parse TYPE_WKB ex_array1 ex_batch1.
Proof.
  apply (fa_wkb parse Offsets32 ex_array1
    [Some (enc_header LE Iso None XY 1 ++ enc_coord LE [one; minus_one]); None;
     Some (enc_header BE Ewkb None XYZ 2 ++ enc32 BE 3 ++ enc_coords BE [[minus_zero; quiet_nan; 0]; [0; minus_one; one]; [minus_one; quiet_nan; 0]])]%N).
  - repeat (split; [vm_compute; congruence || reflexivity|]). eexists; eexists; eexists. split; [reflexivity|]. split; [discriminate|].
    split; [repeat constructor|reflexivity].
  - split; [reflexivity|]. intros [|[|[|i]]] e E; [injection E as <-|injection E as <-|injection E as <-|destruct i; discriminate].
    + split; [reflexivity|]. eexists. split; [reflexivity|]. exists (nth 2 (aa_buffers ex_array1) None), 2. split; [|split; [|split]]; vm_compute; reflexivity.
    + reflexivity.
    + split; [reflexivity|]. eexists. split; [reflexivity|]. exists (nth 2 (aa_buffers ex_array1) None), 23. split; [|split; [|split]]; vm_compute; reflexivity.
  - constructor; [|constructor; [|constructor; [|constructor]]].
    + split; [apply (wkb_point LE Iso None XY); exact I|]. split; [repeat constructor|]. split; [cbn; lia|reflexivity].
    + exact I.
    + split; [apply (wkb_line BE Ewkb None XYZ [[minus_zero; quiet_nan; 0]; [0; minus_one; one]; [minus_one; quiet_nan; 0]]%N); [exact I|reflexivity]|].
      split; [repeat constructor|]. split; [cbn; lia|reflexivity].
Qed.
Lemma ex_features2 parse : features_array parse TYPE_WKB ex_array2 ex_batch2.
Proof.
  apply (fa_wkb parse Offsets32 ex_array2 [Some (enc_header LE Iso None XY 7 ++ enc32 LE 0 ++ [])]).
  - repeat (split; [vm_compute; congruence || reflexivity|]). eexists; eexists; eexists. split; [reflexivity|]. split; [discriminate|].
    split; [repeat constructor|reflexivity].
  - split; [reflexivity|]. intros [|i] e E; [injection E as <-|destruct i; discriminate].
    split; [reflexivity|]. eexists. split; [reflexivity|]. exists (nth 2 (aa_buffers ex_array2) None), 2. split; [|split; [|split]]; vm_compute; reflexivity.
  - constructor; [|constructor]. split; [apply (wkb_coll LE Iso None CCollection XY []); [exact I|reflexivity|constructor]|]. split; [repeat constructor|]. split; [cbn; lia|reflexivity].
Qed.
Lemma ex_wf : Forall (Forall wf_feature) [ex_batch1; ex_batch2].
Proof. repeat constructor; intros g E; try discriminate; injection E as <-; repeat constructor. Qed.

(** ** C37 *)

(** Any number of batches pushed one after another: each output has one box per feature of its batch. Missing: batches pushed
    after one that failed. *)
Theorem C37_boxes_partial : forall junk parse t r0 st sw batches fss, number_parser parse -> reader_init t = Ok r0 ->
  Forall2 (features_array parse t) batches fss -> Forall (Forall wf_feature) fss ->
  exists r s outs, push_batches (box_kernel junk) parse st sw 0 r0 box_init batches = Ok (r, s, outs) /\
    Forall2 (fun fs out => exists a, out = Some a /\ boxes a fs) fss outs.
Proof. exact box_batches. Qed.
Print Assumptions C37_boxes_partial.

(** The hypotheses hold, and what comes out: negative zero and NaNs in the line, and the box of an empty collection. *)
Example C37_ex : number_parser ex_parse /\ Forall2 (features_array ex_parse TYPE_WKB) [ex_array1; ex_array2] [ex_batch1; ex_batch2] /\
  Forall (Forall wf_feature) [ex_batch1; ex_batch2] /\
  exists r0 r s a b, reader_init TYPE_WKB = Ok r0 /\
    push_batches (box_kernel (fun _ => 255%N)) ex_parse (fun _ _ => wkt_reader_init) (fun _ _ => true) 0 r0 box_init [ex_array1; ex_array2] = Ok (r, s, [Some a; Some b]) /\
    map (valid_at a) [0; 1; 2] = [Some true; Some false; Some true] /\ box_at a 0 one minus_one one minus_one /\
    box_at a 2 minus_one minus_one minus_zero minus_one /\ box_at b 0 pos_inf pos_inf neg_inf neg_inf.
Proof.
  split; [exact ex_number|]. split; [repeat constructor; [apply ex_features1|apply ex_features2]|]. split; [exact ex_wf|].
  eexists; eexists; eexists; eexists; eexists. split; [reflexivity|]. split; [vm_compute; reflexivity|]. split; [reflexivity|].
  split; [|split]; intros [|[|[|[|j]]]] v E; try (injection E as <-; reflexivity); destruct j; discriminate.
Qed.

(** After a batch that failed the full property is false: the features before the bad one are in the next output. Here the
    first batch is a point and a WKB element of one byte, and the second an empty collection. *)
Definition ex_bad : arrow_array := ex_serial [6]%N 0 [Some (enc_header LE Iso None XY 1 ++ enc_coord LE [one; minus_one]); Some [1]%N].
Theorem C37_after_error_refuted : exists r0 r1 s1 r2 s2 a,
  reader_init TYPE_WKB = Ok r0 /\ features_array ex_parse TYPE_WKB ex_array2 ex_batch2 /\
  push_batch (box_kernel (fun _ => 0%N)) ex_parse (fun _ => wkt_reader_init) (fun _ => false) r0 box_init ex_bad = KRet r1 s1 EINVAL None /\
  push_batch (box_kernel (fun _ => 0%N)) ex_parse (fun _ => wkt_reader_init) (fun _ => false) r1 s1 ex_array2 = KRet r2 s2 0 (Some a) /\
  aa_length ex_array2 = 1 /\ aa_length a = 2 /\ box_at a 0 one minus_one one minus_one.
Proof.
  eexists; eexists; eexists; eexists; eexists; eexists. split; [reflexivity|]. split; [apply ex_features2|]. split; [vm_compute; reflexivity|].
  split; [vm_compute; reflexivity|]. split; [reflexivity|]. split; [reflexivity|].
  intros [|[|[|[|j]]]] v E; try (injection E as <-; reflexivity); destruct j; discriminate.
Qed.
Print Assumptions C37_after_error_refuted.

(** ** C38 *)

(** box_agg returns one box, the tight one of all coordinates of all batches. *)
Theorem C38_box : forall parse t r0 st sw batches fss, number_parser parse -> reader_init t = Ok r0 ->
  Forall2 (features_array parse t) batches fss -> Forall (Forall wf_feature) fss ->
  exists a x0 y0 x1 y1, aggregate box_agg parse st sw t box_agg_init batches = Ok a /\
    native_ok KBox Separate XY a /\ aa_length a = 1 /\ aa_null_count a = 0 /\ valid_at a 0 = Some true /\ box_at a 0 x0 y0 x1 y1 /\
    tight (feature_ordinates 0 (concat fss)) (feature_ordinates 1 (concat fss)) x0 y0 x1 y1.
Proof. exact box_agg_ok. Qed.
Print Assumptions C38_box.

(** The same features in other batches, of the same or another encoding, give the same array. *)
Theorem C38_box_split : forall parse t1 t2 r1 r2 st1 sw1 st2 sw2 batches1 batches2 fss1 fss2, number_parser parse ->
  reader_init t1 = Ok r1 -> reader_init t2 = Ok r2 ->
  Forall2 (features_array parse t1) batches1 fss1 -> Forall2 (features_array parse t2) batches2 fss2 ->
  Forall (Forall wf_feature) fss1 -> concat fss1 = concat fss2 ->
  aggregate box_agg parse st1 sw1 t1 box_agg_init batches1 = aggregate box_agg parse st2 sw2 t2 box_agg_init batches2.
Proof. exact box_agg_split. Qed.
Print Assumptions C38_box_split.

(** unique_geometry_types_agg returns the ISO codes of the features that have coordinates, each once and in order. *)
Theorem C38_types : forall parse t r0 st sw batches fss, number_parser parse -> reader_init t = Ok r0 -> Forall2 (features_array parse t) batches fss ->
  exists a zs, aggregate unique_geometry_types_agg parse st sw t gtypes_init batches = Ok a /\ int32_array a zs /\ StronglySorted Z.lt zs /\
    forall z, In z zs <-> exists g, In (Some g) (concat fss) /\ geom_coords g <> [] /\ iso_code g = z.
Proof. exact types_agg. Qed.
Print Assumptions C38_types.

Theorem C38_types_split : forall parse t1 t2 r1 r2 st1 sw1 st2 sw2 batches1 batches2 fss1 fss2, number_parser parse ->
  reader_init t1 = Ok r1 -> reader_init t2 = Ok r2 ->
  Forall2 (features_array parse t1) batches1 fss1 -> Forall2 (features_array parse t2) batches2 fss2 -> concat fss1 = concat fss2 ->
  aggregate unique_geometry_types_agg parse st1 sw1 t1 gtypes_init batches1 = aggregate unique_geometry_types_agg parse st2 sw2 t2 gtypes_init batches2.
Proof. exact types_agg_split. Qed.
Print Assumptions C38_types_split.

(** The hypotheses hold, and what comes out. *)
Example C38_ex : number_parser ex_parse /\ Forall2 (features_array ex_parse TYPE_WKB) [ex_array1; ex_array2] [ex_batch1; ex_batch2] /\
  Forall (Forall wf_feature) [ex_batch1; ex_batch2] /\
  exists r0 a b, reader_init TYPE_WKB = Ok r0 /\
    aggregate box_agg ex_parse (fun _ _ => wkt_reader_init) (fun _ _ => true) TYPE_WKB box_agg_init [ex_array1; ex_array2] = Ok a /\
    box_at a 0 minus_one minus_one one minus_one /\
    aggregate unique_geometry_types_agg ex_parse (fun _ _ => wkt_reader_init) (fun _ _ => true) TYPE_WKB gtypes_init [ex_array1; ex_array2] = Ok b /\
    int32_array b [1; 1002].
Proof.
  split; [exact ex_number|]. split; [repeat constructor; [apply ex_features1|apply ex_features2]|]. split; [exact ex_wf|].
  eexists; eexists; eexists. split; [reflexivity|]. split; [vm_compute; reflexivity|].
  split; [intros [|[|[|[|j]]]] v E; try (injection E as <-; reflexivity); destruct j; discriminate|]. split; [vm_compute; reflexivity|].
  split; [reflexivity|]. split; [reflexivity|]. intros [|[|i]] z E; [injection E as <-|injection E as <-|destruct i; discriminate]; (split; [reflexivity|]; eexists; split; reflexivity).
Qed.
