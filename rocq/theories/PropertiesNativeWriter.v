(** * C24, C25 and C26: arrays of a native writer *)
From Verif Require Import Base TypesModel GeomSpec VisitorModel VisitorSpec VisitorFacts GeomFacts CoordsModel ArrowModel ArrayViewModel NativeSpec NodesModel NodesSpec CopyCoordsModel CopyCoordsSpec
  BuilderModel BuilderSpec BuilderRun NativeWriterModel NativeWriterSpec NativeWriterRun NativeWriterOverflow NativeVisitorSpec NativeVisitorHistory NativeRoundTripSpec NativeRoundTrip.
Local Open Scope Z_scope.

Notation native_type k l d := (make_type (geometry_kind_code k) (dim_code d) (layout_code l)).

(** ** C24 *)

(** Any number of arrays from one writer: the geometries of each array are those appended for it, in the form ([store]) that
    an array of this kind gives them. *)
Theorem C24_append : forall junk k l d batches gss elss, (forall i j, is_byte (junk i j)) -> k <> KBox ->
  Forall2 (Forall2 (denotes d)) batches gss -> Forall2 (stored_as k d) gss elss ->
  Forall (fun els => total_small (n_lists k) (map (element k d) els)) elss ->
  exists w arrays, writer_init junk (native_type k l d) = Ok w /\ write_arrays junk w batches = Ok arrays /\
    Forall2 (fun els => reads_as k l d (shown k d els)) elss arrays.
Proof. exact (fun junk k l d batches gss elss Hj Hk => append_round_trip junk Hj k l d Hk batches gss elss). Qed.
Print Assumptions C24_append.

(** Geometries of the array's own kind and dimensions come back unchanged. *)
Theorem C24_same_partial : forall junk k l d batches elss, (forall i j, is_byte (junk i j)) -> k <> KBox ->
  Forall2 (Forall2 (denotes d)) batches (map (shown k d) elss) ->
  Forall (Forall (fun e => match e with Some x => unambiguous k d x | None => True end)) elss ->
  Forall (fun els => total_small (n_lists k) (map (element k d) els)) elss ->
  exists w arrays, writer_init junk (native_type k l d) = Ok w /\ write_arrays junk w batches = Ok arrays /\
    Forall2 (reads_as k l d) (map (shown k d) elss) arrays.
Proof. exact (fun junk k l d batches elss Hj Hk => own_round_trip junk Hj k l d Hk batches elss). Qed.
Print Assumptions C24_same_partial.

(** Geometries the array cannot hold are refused. *)
Theorem C24_refused : forall junk k l d items gs els w m nodes g, (forall i j, is_byte (junk i j)) -> k <> KBox ->
  writer_init junk (native_type k l d) = Ok w -> Forall2 (denotes d) items gs -> stored_as k d gs els ->
  Forall (small (n_lists k)) (map (element k d) els) ->
  item_ok d m nodes g -> proper g -> store k d g = None ->
  append_items junk w (items ++ [Some (m, nodes)]) = Err EINVAL.
Proof. exact (fun junk k l d items gs els w m nodes g Hj Hk => append_refused junk Hj k l d Hk items gs els w m nodes g). Qed.
Print Assumptions C24_refused.

(** A geometry without coordinates loses its empty rings: POLYGON (EMPTY) is read back as POLYGON EMPTY. *)
Theorem C24_same_refuted :
  let g := GPoly XY [[]] in
  let nodes := [{| nd_coords := qconst nan_ptr; nd_stride := qconst 0%Z; nd_size := 1; nd_type := 3; nd_dims := 1; nd_swap := false; nd_level := 0 |};
                {| nd_coords := qconst nan_ptr; nd_stride := qconst 0%Z; nd_size := 0; nd_type := 2; nd_dims := 1; nd_swap := false; nd_level := 1 |}]%N in
  nest_geom KPolygon XY [[]] = g /\ denotes XY (Some ([empty_point_coords], nodes)) (Some g) /\
  exists w a, writer_init (fun _ _ => 0%N) (native_type KPolygon Separate XY) = Ok w /\
    write_arrays (fun _ _ => 0%N) w [[Some ([empty_point_coords], nodes)]] = Ok [a] /\ reads_as KPolygon Separate XY [Some (GPoly XY [])] a.
Proof.
  cbv zeta. split; [reflexivity|].
  match goal with |- denotes XY ?i ?g /\ _ => assert (denotes XY i g) as Hd end.
  { constructor.
    - reflexivity.
    - exists 0%N. constructor; [constructor; reflexivity|]. constructor; [|constructor]. constructor; try reflexivity. intros i j c Hi. destruct i; discriminate Hi.
    - constructor. repeat constructor.
    - intros nd s [<-|[<-|[]]] H; discriminate H.
    - reflexivity. }
  split; [exact Hd|].
  match type of Hd with denotes XY ?i ?g => destruct (append_round_trip (fun _ _ => 0%N) (fun _ _ => eq_refl) KPolygon Separate XY ltac:(discriminate) [[i]] [[g]] [[Some []]]) as (w & arrays & E1 & E2 & A) end.
  - repeat constructor; apply Hd.
  - repeat constructor.
  - repeat constructor.
  - inversion A as [|? a ? r H1 H2]; subst. inversion H2; subst. exists w, a. split; [exact E1|]. split; [exact E2|]. exact H1.
Qed.
Print Assumptions C24_same_refuted.

(** A linestring, a null and a multilinestring with one empty member, appended to an array of linestrings. *)
Definition C24_mem : mem := [empty_point_coords; flat_map (le_bytes 8) [1; 2; 3; 4]%N].
Definition C24_line (n : N) (level : N) : node :=
  {| nd_coords := Quad (1%nat, 0%Z) (1%nat, 8%Z) nan_ptr nan_ptr; nd_stride := Quad 16%Z 16%Z 0%Z 0%Z; nd_size := n; nd_type := 2; nd_dims := 1;
     nd_swap := false; nd_level := level |}%N.
Definition C24_multi : node :=
  {| nd_coords := qconst nan_ptr; nd_stride := qconst 0%Z; nd_size := 1; nd_type := 5; nd_dims := 1; nd_swap := false; nd_level := 0 |}%N.
Lemma C24_line_ok lvl cs : cs = [] \/ cs = [[1; 2]; [3; 4]]%N -> repr_geom C24_mem lvl [C24_line (N.of_nat (length cs)) lvl] (GLine XY cs).
Proof.
  intros H. constructor. constructor; try reflexivity. intros i j c Hi Hj. destruct H as [-> | ->]; [destruct i; discriminate Hi|].
  destruct i as [|[|i]]; [| |destruct i; discriminate Hi]; injection Hi as <-; destruct j as [|[|j]]; (reflexivity || (cbn in Hj; lia)).
Qed.
Example C24_example :
  let items := [Some (C24_mem, [C24_line 2 0]); None; Some (C24_mem, [C24_multi; C24_line 0 1])] in
  let gs := [Some (GLine XY [[1; 2]; [3; 4]]%N); None; Some (GColl CMultilinestring XY [GLine XY []])] in
  Forall2 (denotes XY) items gs /\ stored_as KLinestring XY gs [Some [[1; 2]; [3; 4]]%N; None; Some []] /\
  total_small 1 [[[1; 2]; [3; 4]]%N; []; []] /\ store KLinestring XY (GPoint XY [[1; 2]%N]) = None /\ unambiguous KLinestring XY [[1; 2]; [3; 4]]%N.
Proof.
  cbv zeta. split; [|split; [repeat constructor|split; [repeat constructor|split; [reflexivity|discriminate]]]].
  constructor; [|constructor; [exact I|constructor; [|constructor]]].
  - constructor; try reflexivity.
    + exists 0%N. apply (C24_line_ok 0 [[1; 2]; [3; 4]]%N). right. reflexivity.
    + repeat constructor.
    + intros nd s [<-|[]] H. discriminate H.
  - constructor; try reflexivity.
    + exists 0%N. constructor; [constructor; reflexivity|].
      change [C24_line 0 1] with ([C24_line 0 1] ++ []). constructor; [|constructor]. apply (C24_line_ok 1 []). left. reflexivity.
    + repeat constructor.
    + intros nd s [<-|[<-|[]]] H; discriminate H.
Qed.

(** ** C25 *)

(** Any number of arrays from one writer through its visitor, for the features that the kind of array keeps apart. *)
Theorem C25_visit_partial : forall junk k l d batches gss elss, (forall i j, is_byte (junk i j)) -> k <> KBox ->
  Forall2 features_events gss batches -> Forall2 (visited_as k d) gss elss -> Forall (Forall (feature_for k)) gss -> Forall (has_room k d) gss ->
  exists w v arrays, writer_init junk (native_type k l d) = Ok w /\ native_visitor junk (geometry_kind_code k) = Some v /\
    visit_arrays junk v w batches = Ok arrays /\ Forall2 (fun els => reads_as k l d (shown k d els)) elss arrays.
Proof. exact (fun junk k l d batches gss elss Hj Hk => visit_round_trip junk Hj k l d Hk batches gss elss). Qed.
Print Assumptions C25_visit_partial.

(** What is read back of a feature has exactly its non-empty coordinate sequences. (An empty point is read back as a point
    of NaN ordinates.) *)
Theorem C25_sequences : forall k d g x, wf_geom g -> (k = KPoint -> geom_coords g <> []) -> visited k d g = Some x ->
  filter nonempty (sequences d (nest_geom k d x)) = filter nonempty (sequences d g).
Proof. exact visited_sequences. Qed.
Print Assumptions C25_sequences.

(** Features the array cannot hold are refused. *)
Theorem C25_refused : forall junk k l d v w gs els evs g e, (forall i j, is_byte (junk i j)) -> k <> KBox ->
  native_visitor junk (geometry_kind_code k) = Some v -> writer_init junk (native_type k l d) = Ok w ->
  features_events gs evs -> visited_as k d gs els -> Forall (feature_for k) gs -> has_room k d gs ->
  deliverable k g -> wf_geom g -> feature_events (Some g) e -> visited k d g = None ->
  (k = KPoint \/ Z.of_nat (length (feature_coords d (gs ++ [Some g]))) <= 2147483647) ->
  exists w', feed v w (evs ++ e) = Some (w', EINVAL).
Proof. exact (fun junk k l d v w gs els evs g e Hj Hk => visit_refused junk Hj k l d Hk v w gs els evs g e). Qed.
Print Assumptions C25_refused.

(** The result of a call. *)
Ltac result_of e k := let r := eval vm_compute in e in match r with Ok ?x => k x end.
Local Notation zeros := (fun _ _ => 0%N).

(** What is read from the one array of some features. *)
Definition read_back (k : geometry_kind) (gs : list (option geom)) (evs : list event) : Prop :=
  exists w v a av av', writer_init zeros (native_type k Separate XY) = Ok w /\ native_visitor zeros (geometry_kind_code k) = Some v /\
    visit_arrays zeros v w [flat_map canon_feature gs] = Ok [a] /\
    array_view_init (native_type k Separate XY) = Ok av /\ set_array av a = Ok av' /\ trace (visit_native av' 0 (aa_length a)) = (evs, Ok tt).
Ltac compute_read_back k v gs :=
  result_of (writer_init zeros (native_type k Separate XY)) ltac:(fun w =>
  result_of (visit_arrays zeros v w [flat_map canon_feature gs]) ltac:(fun r => match r with [?a] =>
  result_of (array_view_init (native_type k Separate XY)) ltac:(fun av =>
  result_of (set_array av a) ltac:(fun av' => exists w, v, a, av, av')) end));
  repeat apply conj; first [match goal with |- native_visitor _ _ = _ => reflexivity end|vm_compute; reflexivity].

(** GEOMETRYCOLLECTION (LINESTRING (1 2, 3 4), POINT (5 6)) and LINESTRING (7 8, 9 10) in an array of linestrings: the point ends
    up in the second feature. *)
Theorem C25_leak_refuted :
  read_back KLinestring [Some (GColl CCollection XY [GLine XY [[1; 2]; [3; 4]]; GPoint XY [[5; 6]]]); Some (GLine XY [[7; 8]; [9; 10]])]%N
    (flat_map canon_feature [Some (GLine XY [[1; 2]; [3; 4]]); Some (GLine XY [[5; 6]; [7; 8]; [9; 10]])]%N).
Proof.
  compute_read_back KLinestring (linestring_visitor zeros) [Some (GColl CCollection XY [GLine XY [[1; 2]; [3; 4]]; GPoint XY [[5; 6]]]); Some (GLine XY [[7; 8]; [9; 10]])]%N.
Qed.
Print Assumptions C25_leak_refuted.

(** The same in an array of multipoints. *)
Theorem C25_multipoint_leak_refuted :
  read_back KMultipoint [Some (GColl CCollection XY [GLine XY [[1; 2]]; GPoint XY [[5; 6]]]); Some (GPoint XY [[7; 8]])]%N
    (flat_map canon_feature [Some (GColl CMultipoint XY [GPoint XY [[1; 2]]]); Some (GColl CMultipoint XY [GPoint XY [[5; 6]]; GPoint XY [[7; 8]]])]%N).
Proof.
  compute_read_back KMultipoint (linestring_visitor zeros) [Some (GColl CCollection XY [GLine XY [[1; 2]]; GPoint XY [[5; 6]]]); Some (GPoint XY [[7; 8]])]%N.
Qed.
Print Assumptions C25_multipoint_leak_refuted.

(** A multipoint in an array of multilinestrings becomes two linestrings. *)
Theorem C25_split_refuted :
  read_back KMultilinestring [Some (GColl CMultipoint XY [GPoint XY [[1; 2]]; GPoint XY [[3; 4]]; GPoint XY [[5; 6]]])]%N
    (flat_map canon_feature [Some (GColl CMultilinestring XY [GLine XY [[1; 2]]; GLine XY [[3; 4]; [5; 6]]])]%N).
Proof. compute_read_back KMultilinestring (polygon_visitor zeros) [Some (GColl CMultipoint XY [GPoint XY [[1; 2]]; GPoint XY [[3; 4]]; GPoint XY [[5; 6]]])]%N. Qed.
Print Assumptions C25_split_refuted.

(** Two linestrings in a collection become a single ring in an array of multipolygons. *)
Theorem C25_merge_refuted :
  read_back KMultipolygon [Some (GColl CCollection XY [GLine XY [[1; 2]; [3; 4]]; GLine XY [[5; 6]; [7; 8]]])]%N
    (flat_map canon_feature [Some (GColl CMultipolygon XY [GPoly XY [[[1; 2]; [3; 4]; [5; 6]; [7; 8]]]])]%N).
Proof. compute_read_back KMultipolygon (multipolygon_visitor zeros) [Some (GColl CCollection XY [GLine XY [[1; 2]; [3; 4]]; GLine XY [[5; 6]; [7; 8]]])]%N. Qed.
Print Assumptions C25_merge_refuted.

(** A visited feature and then GeoArrowNativeWriterAppendNull: the array says that the visited feature is null. Its offsets are
    0, 2, 0. *)
Theorem C25_mixed_refuted : exists w v w1 w2 a w3 av av' offs,
  writer_init zeros (native_type KLinestring Separate XY) = Ok w /\ native_visitor zeros (geometry_kind_code KLinestring) = Some v /\
  feed v w (canon_feature (Some (GLine XY [[1; 2]; [3; 4]]%N))) = Some (w1, 0) /\ append_null zeros w1 = VRet w2 0 /\ writer_finish zeros w2 = Ok (a, w3) /\
  array_view_init (native_type KLinestring Separate XY) = Ok av /\ set_array av a = Ok av' /\
  trace (visit_native av' 0 (aa_length a)) = (flat_map canon_feature [None; None], Ok tt) /\
  nth_error (aa_buffers a) 1 = Some (Some offs) /\ int32_at offs 0 = Some 0 /\ int32_at offs 1 = Some 2 /\ int32_at offs 2 = Some 0.
Proof.
  result_of (writer_init zeros (native_type KLinestring Separate XY)) ltac:(fun w =>
  let v := constr:(linestring_visitor zeros) in
  let f := eval vm_compute in (feed v w (canon_feature (Some (GLine XY [[1; 2]; [3; 4]]%N)))) in match f with Some (?w1, _) =>
  let n := eval vm_compute in (append_null zeros w1) in match n with VRet ?w2 _ =>
  result_of (writer_finish zeros w2) ltac:(fun r => match r with (?a, ?w3) =>
  result_of (array_view_init (native_type KLinestring Separate XY)) ltac:(fun av =>
  result_of (set_array av a) ltac:(fun av' =>
  let o := eval vm_compute in (nth_error (aa_buffers a) 1) in match o with Some (Some ?offs) => exists w, v, w1, w2, a, w3, av, av', offs end)) end) end end).
  repeat apply conj; first [match goal with |- native_visitor _ _ = _ => reflexivity end|vm_compute; reflexivity].
Qed.
Print Assumptions C25_mixed_refuted.

(** Two polygons and a null, one of the polygons in a collection and with an empty ring. *)
Example C25_example :
  let gs := [Some (GPoly XYZ [[[1; 2; 3]; [4; 5; 6]]; []]); None; Some (GColl CCollection XY [GPoly XY [[[7; 8]]]; GLine XYM [[9; 10; 11]]])]%N in
  features_events gs (flat_map canon_feature gs) /\
  visited_as KMultilinestring XY gs [Some [[[1; 2]; [4; 5]]]; None; Some [[[7; 8]]; [[9; 10]]]]%N /\
  Forall (feature_for KMultilinestring) gs /\ has_room KMultilinestring XY gs /\ visited KPoint XY (GLine XY [[1; 2]; [3; 4]])%N = None.
Proof.
  cbv zeta. split; [|split; [repeat constructor|split; [|split; [right; split; vm_compute; (discriminate || reflexivity)|reflexivity]]]].
  - repeat first [apply fes_nil|apply fes_cons]; first [apply fe_null|apply (fe_geom _ (canon_events _)); apply canon_events_ok].
  - constructor; [|constructor; [exact I|constructor; [|constructor]]].
    + split; [right; apply mo_leaf; right; exact I|]. repeat constructor.
    + split; [|repeat constructor]. right. apply mo_coll; [discriminate|]. intros p [<-|[<-|[]]]; apply mo_leaf; [right|left]; exact I.
Qed.

(** ** C26 *)

(** Offsets of appended geometries, as long as no level reaches 2^31 entries. *)
Theorem C26_append_partial : forall junk k l d batches gss elss, (forall i j, is_byte (junk i j)) -> k <> KBox ->
  Forall2 (Forall2 (denotes d)) batches gss -> Forall2 (stored_as k d) gss elss ->
  Forall (fun els => total_small (n_lists k) (map (element k d) els)) elss ->
  exists w arrays, writer_init junk (native_type k l d) = Ok w /\ write_arrays junk w batches = Ok arrays /\
    Forall2 (fun els a => aa_length a = Z.of_nat (length els) /\ aa_null_count a = null_count els /\ exact_offsets (n_lists k) a) elss arrays.
Proof. exact (fun junk k l d batches gss elss Hj Hk => append_offsets junk Hj k l d Hk batches gss elss). Qed.
Print Assumptions C26_append_partial.

(** Beyond that they wrap: three linestrings of 2^31 - 1 coordinates, each accepted. *)
Theorem C26_append_refuted : forall junk n, (forall i j, is_byte (junk i j)) -> Z.of_nat n = 2 ^ 31 - 1 ->
  let item := Some (flat_mem, [flat_line (N.of_nat n)]) in
  denotes XY item (Some (GLine XY (repeat [0; 0]%N n))) /\
  exists w a offs, writer_init junk (native_type KLinestring Separate XY) = Ok w /\ write_arrays junk w [[item; item; item]] = Ok [a] /\
    aa_length a = 3 /\ nth_error (aa_buffers a) 1 = Some (Some offs) /\
    int32_at offs 0 = Some 0 /\ int32_at offs 1 = Some 2147483647 /\ int32_at offs 2 = Some (-2) /\ int32_at offs 3 = Some 2147483645.
Proof.
  intros junk n Hj Hn item. split; [|exact (offsets_wrap junk Hj n Hn)].
  apply flat_item. rewrite Hn. reflexivity.
Qed.
Print Assumptions C26_append_refuted.

(** Offsets of visited features. *)
Theorem C26_visit_partial : forall junk k l d batches gss elss, (forall i j, is_byte (junk i j)) -> k <> KBox ->
  Forall2 features_events gss batches -> Forall2 (visited_as k d) gss elss -> Forall (Forall (feature_for k)) gss -> Forall (has_room k d) gss ->
  exists w v arrays, writer_init junk (native_type k l d) = Ok w /\ native_visitor junk (geometry_kind_code k) = Some v /\
    visit_arrays junk v w batches = Ok arrays /\
    Forall2 (fun els a => aa_length a = Z.of_nat (length els) /\ aa_null_count a = null_count els /\ exact_offsets (n_lists k) a) elss arrays.
Proof. exact (fun junk k l d batches gss elss Hj Hk => visit_offsets junk Hj k l d Hk batches gss elss). Qed.
Print Assumptions C26_visit_partial.

(** The feature with coordinate number 2^31 stops the visit with EOVERFLOW. *)
Theorem C26_overflow_partial : forall junk k l d v w gs els evs g e, (forall i j, is_byte (junk i j)) -> k <> KBox ->
  native_visitor junk (geometry_kind_code k) = Some v -> writer_init junk (native_type k l d) = Ok w -> k <> KPoint ->
  features_events gs evs -> visited_as k d gs els -> Forall (feature_for k) gs -> has_room k d gs ->
  deliverable k g -> wf_geom g -> feature_events (Some g) e ->
  Z.of_nat (length (feature_coords d (gs ++ [Some g]))) > 2147483647 -> Z.of_nat (length (feature_sequences d (gs ++ [Some g]))) < 2147483647 ->
  exists w', feed v w (evs ++ e) = Some (w', EOVERFLOW).
Proof. exact (fun junk k l d v w gs els evs g e Hj Hk => visit_overflow junk Hj k l d Hk v w gs els evs g e). Qed.
Print Assumptions C26_overflow_partial.

(** One linestring with that many coordinates, in one batch. *)
Example C26_example : forall n, Z.of_nat n = 2 ^ 31 -> let g := GLine XY (repeat [0; 0]%N n) in
  has_room KLinestring XY [] /\ deliverable KLinestring g /\ wf_geom g /\ feature_events (Some g) (canon_feature (Some g)) /\
  Z.of_nat (length (feature_coords XY [Some g])) > 2147483647 /\ Z.of_nat (length (feature_sequences XY [Some g])) < 2147483647.
Proof.
  intros n Hn g. split; [right; split; cbn; lia|]. split; [right; apply mo_leaf; left; exact I|]. split.
  { constructor. apply Forall_forall. intros c Hc. apply repeat_spec in Hc. subst c. split; [reflexivity|repeat constructor]. }
  split; [apply (fe_geom g (canon_events g)); apply canon_events_ok|]. unfold feature_coords, feature_sequences. cbn [flat_map]. rewrite !app_nil_r. unfold all_coords, g. cbn [geom_coords sequences].
  rewrite map_map, map_length, repeat_length. split; [rewrite Hn; reflexivity|]. cbn [filter]. destruct (nonempty _); cbn; lia.
Qed.
