(** * C59 and C60: kernels from their creation to their end, and their options *)
From Coq Require Import Sorted.
From Verif Require Import Base Text TypesModel TypesSpec GeomSpec WktSpec WktGrammar ArrowModel NativeSpec WktReaderModel ArrayReaderModel SerialSpec KernelModel KernelSpec
  WktWriterModel WktWriterSpec ConversionModel ConversionSpec ConversionProofs PropertiesWktReader PropertiesWktWriter PropertiesKernel PropertiesConversion
  MetadataModel MetadataSpec MetadataProofs MetadataReading MetadataMeaning MetadataWriting SchemaModel SchemaSpec SchemaMetadata SchemaViews KernelStartModel KernelStartSpec KernelStartProofs.
Local Open Scope Z_scope.

(** In all of these, [parse] is the number parser of the WKT reader, [print_double] the number printer of the WKT writer, [junk] the
    contents of newly allocated memory, [wkt_state] and [wkb_state] the states that the readers are in. *)

(** ** C59 *)

(** There are eight kernels, and any other name is refused. *)
Theorem C59_names : forall name, match kernel_init name with
  | Ok _ => In name [$"void"; $"void_agg"; $"visit_void_agg"; $"format_wkt"; $"as_geoarrow"; $"unique_geometry_types_agg"; $"box"; $"box_agg"]
  | Err c => c = ENOTSUP /\
      ~ In name [$"void"; $"void_agg"; $"visit_void_agg"; $"format_wkt"; $"as_geoarrow"; $"unique_geometry_types_agg"; $"box"; $"box_agg"]
  | _ => False
  end.
Proof.
  intros name. destruct (kernel_names name) as [[-> H]|(n & -> & H)]; [split; [reflexivity | exact H]|].
  exact (in_map fst _ _ H).
Qed.
Print Assumptions C59_names.

(** The kernels that look at geometries refuse a schema that is of no GeoArrow type. *)
Theorem C59_refused : forall print_double junk name n s options, kernel_init name = Ok n -> name <> $"void" -> name <> $"void_agg" ->
  not_geoarrow s -> kernel_start print_double junk n s options = Err EINVAL.
Proof.
  intros print_double junk name n s options Hn H1 H2 H.
  destruct (kernel_names name) as [[E _]|(n' & E & Hi)]; [congruence|]. rewrite E in Hn. injection Hn as ->.
  apply start_refused; [exact H| |]; intros ->; cbn in Hi; repeat (destruct Hi as [Hi|Hi]; [congruence|]); contradiction.
Qed.
Print Assumptions C59_refused.

Definition ex_options (os : list (bytes * bytes)) : option bytes := Some (metadata_bytes os).
Definition ex_schema (f name : bytes) (text : bytes) : schema :=
  Schema false (Some f) None (Some (metadata_bytes [($"ARROW:extension:name", name); ($"ARROW:extension:metadata", text)])) 2 [] None.
Lemma ex_holds es : fits es -> holds (Some (metadata_bytes es)) es.
Proof. intros H. split; [exact H|]. exists []. rewrite app_nil_r. reflexivity. Qed.
Lemma ex_well_formed f name text : (forall t, f <> $"+w:" ++ t) -> fits [($"ARROW:extension:name", name); ($"ARROW:extension:metadata", text)] ->
  well_formed (ex_schema f name text).
Proof. intros Hf H. apply (wf_simple f None _ 2 [] [($"ARROW:extension:name", name); ($"ARROW:extension:metadata", text)]); [intros t E; destruct (Hf t E) | auto | apply ex_holds; exact H | constructor]. Qed.

Example C59_refused_ex : not_geoarrow (ex_schema $"z" $"geoarrow.point" $"{}") /\ not_geoarrow (ex_schema $"u" $"something else" $"{}").
Proof.
  split; (eexists; split; [apply ex_well_formed; [intros t E; discriminate E | repeat constructor]|]; split; [apply ex_holds; repeat constructor|]; split;
    [intros name [= <-] E; vm_compute in E; discriminate|]); intros t He E; destruct t as [[] [] []|[] []]; try (vm_compute in E; discriminate E).
  all: intros S; try (destruct S; discriminate).
Qed.

(** as_geoarrow: the output schema is of the type that is asked for and has exactly the extension metadata of the input; the
    output arrays are the conversions of the batches ([converts]: C45 says to which features). *)
Theorem C59_as_geoarrow : forall parse print_double junk wkt_state wkb_state s t text options os t' batches fss fss',
  (forall i j, is_byte (junk i j)) -> schema_of s t text -> holds options os ->
  exists_type t' -> option_is os $"type" None (type_id t') -> writable t' ->
  Forall2 (features_array parse (type_id t)) batches fss -> converts parse print_double junk (type_id t) (type_id t') fss fss' ->
  exists out outs, session parse print_double junk wkt_state wkb_state $"as_geoarrow" false s options batches = Ok (out, outs, None) /\
    schema_of out t' (Some (text_of text)) /\ arrays_of parse (type_id t') fss' outs.
Proof. exact as_geoarrow_session. Qed.
Print Assumptions C59_as_geoarrow.
(** It is not started without the option, or for a type that cannot be written. *)
Theorem C59_as_geoarrow_refused : forall print_double junk s t text options os, schema_of s t text -> holds options os ->
  (value_of $"type" os = None -> kernel_start print_double junk NAsGeoarrow s options = Err EINVAL) /\
  (forall t', exists_type t' -> option_is os $"type" None (type_id t') -> ~ writable t' ->
    exists c, kernel_start print_double junk NAsGeoarrow s options = Err c /\ (c = EINVAL \/ c = ENOTSUP)).
Proof.
  intros print_double junk s t text options os Hs Ho. split.
  - exact (start_as_geoarrow_missing print_double junk s t text options os Hs Ho).
  - intros t'. exact (start_as_geoarrow_unwritable print_double junk s t text options os t' Hs Ho).
Qed.
Print Assumptions C59_as_geoarrow_refused.

Definition ex_text : bytes := $"{""crs"":""4326"",""crs_type"":""srid""}".
Definition ex_wkb_schema : schema := ex_schema $"z" $"geoarrow.wkb" ex_text.
Lemma ex_schema_of : schema_of ex_wkb_schema (Serialized Wkb Regular) (Some ex_text).
Proof.
  eexists. split; [apply ex_well_formed; [intros t E; discriminate E | repeat constructor]|]. split; [apply ex_holds; repeat constructor|].
  repeat split.
Qed.
Example C59_as_geoarrow_ex : schema_of ex_wkb_schema (Serialized Wkb Regular) (Some ex_text) /\
  holds (ex_options [($"type", $"100003")]) [($"type", $"100003")] /\
  option_is [($"type", $"100003")] $"type" None (type_id (Serialized Wkt Regular)) /\ writable (Serialized Wkt Regular) /\
  ~ writable (Native KBox XY Separate) /\
  Forall2 (features_array ex_parse (type_id (Serialized Wkb Regular))) [ex_array1; ex_array2] [ex_batch1; ex_batch2] /\
  match session ex_parse ex_print (fun _ _ => 0%N) (fun _ _ => wkt_reader_init) (fun _ _ => true) $"as_geoarrow" false ex_wkb_schema
          (ex_options [($"type", $"100001")]) [ex_array1; ex_array2] with
  | Ok (_, [Some a; Some b], None) => aa_length a = 3 /\ aa_length b = 1
  | _ => False
  end.
Proof.
  split; [exact ex_schema_of|]. split; [apply ex_holds; repeat constructor|]. split.
  { split; [|split; [vm_compute; lia | vm_compute; split; discriminate]]. exists $"100003". split; [discriminate|]. split; [repeat (constructor; [vm_compute; split; discriminate|]); constructor|].
    left. split; reflexivity. }
  split; [exact I|]. split; [intros H; apply H; reflexivity|]. split; [constructor; [apply ex_features1|constructor; [apply ex_features2|constructor]]|].
  vm_compute. split; reflexivity.
Qed.

(** format_wkt: texts, whole or cut, with the precision and the limit that the options give. *)
Theorem C59_format_wkt : forall parse print_double junk wkt_state wkb_state s t text options os precision max batches fss,
  PropertiesWktWriter.short print_double -> number_parser parse ->
  let cfg := wkt_config precision true max in
  schema_of s t text -> holds options os ->
  option_is os $"precision" (Some 16) precision -> option_is os $"max_element_size_bytes" (Some (-1)) max ->
  Forall2 (features_array parse (type_id t)) batches fss ->
  Forall (fun fs => Z.of_nat (length fs) < 2 ^ 63 /\ Forall expressible fs /\ Forall shallow fs /\ text_size print_double cfg fs < 2 ^ 31) fss ->
  exists outs, session parse print_double junk wkt_state wkb_state $"format_wkt" false s options batches = Ok (init_from_type $"u", outs, None) /\
    Forall2 (fun fs out => exists a, out = Some a /\ serial_ok Offsets32 a /\ aa_null_count a = nulls fs /\
      exists els, serial_contents Offsets32 a els /\ formatted (wkt (fun w => print_double w (kc_precision cfg)) true) max fs els) fss outs.
Proof. exact format_wkt_session. Qed.
Print Assumptions C59_format_wkt.
Example C59_format_wkt_ex : holds None [] /\ option_is [] $"precision" (Some 16) 16 /\
  option_is [($"max_element_size_bytes", $"+10"); ($"precision", $"3")] $"max_element_size_bytes" (Some (-1)) 10 /\
  match session ex_parse ex_print (fun _ _ => 0%N) (fun _ _ => wkt_reader_init) (fun _ _ => true) $"format_wkt" false ex_wkb_schema
          (ex_options [($"max_element_size_bytes", $"+10"); ($"precision", $"3")]) [ex_array2] with
  | Ok (s, [Some a], None) => sc_format s = Some $"u" /\ nth_error (aa_buffers a) 2 = Some (Some $"GEOMETRYCO")
  | _ => False
  end.
Proof.
  split; [exact holds_none|]. split; [reflexivity|]. split.
  { split; [|split; [vm_compute; lia | lia]]. exists $"10". split; [discriminate|]. split; [repeat (constructor; [vm_compute; split; discriminate|]); constructor|].
    right. left. split; reflexivity. }
  vm_compute. split; reflexivity.
Qed.

(** box: the boxes of the features, one array for each batch; the output schema is a box whose extension metadata read as what
    those of the input say. *)
Theorem C59_box : forall parse print_double junk wkt_state wkb_state s t text options m batches fss, number_parser parse ->
  schema_of s t text -> says (text_of text) m -> m_edges m = EDGE_PLANAR -> Z.of_nat (length (m_crs m)) <= 1000000000 ->
  Forall2 (features_array parse (type_id t)) batches fss -> Forall (Forall wf_feature) fss ->
  exists out text' outs, session parse print_double junk wkt_state wkb_state $"box" false s options batches = Ok (out, outs, None) /\
    schema_of out (Native KBox XY Separate) (Some text') /\
    says text' (Metadata (m_edges m) (m_crs_type m) (if m_crs_type m =? CRS_NONE then [] else m_crs m)) /\
    Forall2 (fun fs out => exists a, out = Some a /\ boxes a fs) fss outs.
Proof. exact box_session. Qed.
Print Assumptions C59_box.
(** box_agg: one box at the end, and nothing before. *)
Theorem C59_box_agg : forall parse print_double junk wkt_state wkb_state s t text options m batches fss, number_parser parse ->
  schema_of s t text -> says (text_of text) m -> m_edges m = EDGE_PLANAR -> Z.of_nat (length (m_crs m)) <= 1000000000 ->
  Forall2 (features_array parse (type_id t)) batches fss -> Forall (Forall wf_feature) fss ->
  exists out text' a x0 y0 x1 y1,
    session parse print_double junk wkt_state wkb_state $"box_agg" true s options batches = Ok (out, repeat None (length batches), Some a) /\
    schema_of out (Native KBox XY Separate) (Some text') /\
    says text' (Metadata (m_edges m) (m_crs_type m) (if m_crs_type m =? CRS_NONE then [] else m_crs m)) /\
    native_ok KBox Separate XY a /\ aa_length a = 1 /\ aa_null_count a = 0 /\ valid_at a 0 = Some true /\ box_at a 0 x0 y0 x1 y1 /\
    tight (feature_ordinates 0 (concat fss)) (feature_ordinates 1 (concat fss)) x0 y0 x1 y1.
Proof. exact box_agg_session. Qed.
Print Assumptions C59_box_agg.
(** Neither is started for edges that are not planar or for extension metadata that are JSON but not of GeoArrow. *)
Theorem C59_box_refused : forall print_double junk name n s t text options, In name [$"box"; $"box_agg"] -> kernel_init name = Ok n ->
  schema_of s t text ->
  (exists m, says (text_of text) m /\ m_edges m <> EDGE_PLANAR) \/
  (forall past fuel, (length (text_of text) < fuel)%nat -> metadata_view_init past fuel (text_of text) = Err EINVAL) ->
  kernel_start print_double junk n s options = Err EINVAL.
Proof.
  intros print_double junk name n s t text options Hi Hn Hs H. apply (start_box_refused print_double junk n s t text options); [|exact Hs | exact H].
  cbn in Hi. destruct Hi as [<-|[<-|[]]]; vm_compute in Hn; injection Hn as <-; [left | right]; reflexivity.
Qed.
Print Assumptions C59_box_refused.
Example C59_box_ex : says ex_text (Metadata EDGE_PLANAR CRS_SRID $"""4326""") /\ says [] (Metadata EDGE_PLANAR CRS_NONE []) /\
  match session ex_parse ex_print (fun _ _ => 0%N) (fun _ _ => wkt_reader_init) (fun _ _ => true) $"box_agg" true ex_wkb_schema None [ex_array1; ex_array2] with
  | Ok (s, [None; None], Some a) =>
      (map (ordinate_at Separate XY a 0) [0; 1; 2; 3]%nat, sc_format s) =
      (map Some [minus_one; minus_one; one; minus_one], Some $"+s")
  | _ => False
  end.
Proof.
  split; [|split; [intros past fuel H; reflexivity|]].
  - intros past fuel H.
    refine (view_init_json past fuel [(quoted $"crs", quoted $"4326"); (quoted $"crs_type", quoted $"srid")] ex_text _ _ _ H).
    + exists [], [], $"""crs"":""4326"",""crs_type"":""srid""". split; [constructor|]. split; [constructor|]. split; [reflexivity|]. right.
      refine (json_member_more [] (quoted $"crs") [] [] (quoted $"4326") [] _ _ _ _ _ _ _ _ _);
        try apply Forall_nil; try apply json_str; try (apply text_const; reflexivity).
      refine (json_member [] (quoted $"crs_type") [] [] (quoted $"srid") [] _ _ _ _ _ _);
        try apply Forall_nil; try apply json_str; try (apply text_const; reflexivity).
    + repeat (apply NoDup_cons; [vm_compute; intuition discriminate|]). apply NoDup_nil.
    + intros v Hv _. vm_compute in Hv. injection Hv as <-. left. vm_compute. discriminate.
  - vm_compute. reflexivity.
Qed.

(** unique_geometry_types_agg. *)
Theorem C59_types : forall parse print_double junk wkt_state wkb_state s t text options batches fss, number_parser parse -> schema_of s t text ->
  Forall2 (features_array parse (type_id t)) batches fss ->
  exists a zs, session parse print_double junk wkt_state wkb_state $"unique_geometry_types_agg" true s options batches =
      Ok (init_from_type $"i", repeat None (length batches), Some a) /\
    int32_array a zs /\ StronglySorted Z.lt zs /\
    forall z, In z zs <-> exists g, In (Some g) (concat fss) /\ geom_coords g <> [] /\ iso_code g = z.
Proof. exact types_session. Qed.
Print Assumptions C59_types.

(** The void kernels: visit_void_agg accepts every array of features, void and void_agg everything. *)
Theorem C59_visit_void : forall parse print_double junk wkt_state wkb_state s t text options batches fss, number_parser parse -> schema_of s t text ->
  Forall2 (features_array parse (type_id t)) batches fss ->
  exists a, session parse print_double junk wkt_state wkb_state $"visit_void_agg" true s options batches =
      Ok (init_from_type $"n", repeat None (length batches), Some a) /\ nulls_array 1 a.
Proof. exact visit_void_session. Qed.
Print Assumptions C59_visit_void.
Theorem C59_void : forall parse print_double junk wkt_state wkb_state s options batches,
  (exists outs, session parse print_double junk wkt_state wkb_state $"void" false s options batches = Ok (init_from_type $"n", outs, None) /\
     Forall2 (fun a out => exists b, out = Some b /\ nulls_array (aa_length a) b) batches outs) /\
  (exists a, session parse print_double junk wkt_state wkb_state $"void_agg" true s options batches =
       Ok (init_from_type $"n", repeat None (length batches), Some a) /\ nulls_array 1 a).
Proof.
  intros. split; [exact (void_session parse print_double junk wkt_state wkb_state s options batches) |
    exact (void_agg_session parse print_double junk wkt_state wkb_state s options batches)].
Qed.
Print Assumptions C59_void.

(** An output is refused where there is none: at the end by the kernels that give one for every batch, and for a batch by void_agg.
    (Sessions that meet the hypotheses: C59_as_geoarrow_ex, C59_format_wkt_ex.) *)
Theorem C59_no_output : forall parse print_double junk wkt_state wkb_state,
  (forall name n s options k o j batches k' outs, In name [$"void"; $"format_wkt"; $"as_geoarrow"; $"box"] -> kernel_init name = Ok n ->
     kernel_start print_double junk n s options = Ok (k, o) -> push_all parse print_double junk wkt_state wkb_state j k batches true = Ok (k', outs) ->
     kernel_finish k' true = Some (EINVAL, None)) /\
  (forall s options a batches, session parse print_double junk wkt_state wkb_state $"void_agg" false s options (a :: batches) = Err EINVAL).
Proof. intros. split; [exact (no_output_at_end parse print_double junk wkt_state wkb_state) | exact (void_agg_output parse print_double junk wkt_state wkb_state)]. Qed.
Print Assumptions C59_no_output.

(** ** C60 *)

(** An option that is given as an integer: its value, whatever the other options are. A missing one is refused if it is needed. *)
Theorem C60_integer_partial : forall options os key required, holds options os ->
  match value_of key os with
  | Some text => forall z, integer text z -> (length text <= 15)%nat -> - 2147483648 <= z <= 2147483647 ->
      get_arg_long options key required = Ok (Some z)
  | None => get_arg_long options key required = if required then Err EINVAL else Ok None
  end.
Proof. exact arg_long. Qed.
Print Assumptions C60_integer_partial.
Example C60_integer_ex : let os := [($"precision", $"-12"); ($"type", $"0100001"); ($"precision", $"3")] in
  holds (ex_options os) os /\ integer $"-12" (-12) /\ get_arg_long (ex_options os) $"precision" true = Ok (Some (-12)) /\
  get_arg_long (ex_options os) $"type" true = Ok (Some 100001) /\ get_arg_long (ex_options os) $"max" false = Ok None.
Proof.
  split; [apply ex_holds; repeat constructor|]. split; [|vm_compute; repeat split; reflexivity].
  exists $"12". split; [discriminate|]. split; [repeat (constructor; [vm_compute; split; discriminate|]); constructor|]. right. right. split; reflexivity.
Qed.

(** The full property is false. A number that is not an int is undefined behaviour; one that is written with more than 15
    characters is read as another number; and a text that is no number is not refused but taken for zero. *)
Theorem C60_range_refuted : exists s options os, schema_of s (Serialized Wkb Regular) (Some ex_text) /\ holds options os /\
  (exists text, value_of $"precision" os = Some text /\ integer text 4294967296) /\
  forall print_double junk, kernel_start print_double junk NFormatWkt s options = UB.
Proof.
  exists ex_wkb_schema, (ex_options [($"precision", $"4294967296")]), [($"precision", $"4294967296")].
  split; [exact ex_schema_of|]. split; [apply ex_holds; repeat constructor|]. split; [|reflexivity].
  eexists. split; [reflexivity|]. exists $"4294967296". split; [discriminate|].
  split; [repeat (constructor; [vm_compute; split; discriminate|]); constructor|]. left. split; reflexivity.
Qed.
Print Assumptions C60_range_refuted.
Theorem C60_long_refuted : exists s options os r, schema_of s (Serialized Wkb Regular) (Some ex_text) /\ holds options os /\
  (exists text, value_of $"precision" os = Some text /\ integer text 7) /\
  forall print_double junk, kernel_start print_double junk NFormatWkt s options = Ok (StFormatWkt 0 (-1) r wkt_init, init_from_type $"u").
Proof.
  exists ex_wkb_schema, (ex_options [($"precision", $"0000000000000007")]), [($"precision", $"0000000000000007")]. eexists.
  split; [exact ex_schema_of|]. split; [apply ex_holds; repeat constructor|]. split; [|reflexivity].
  eexists. split; [reflexivity|]. exists $"0000000000000007". split; [discriminate|].
  split; [repeat (constructor; [vm_compute; split; discriminate|]); constructor|]. left. split; reflexivity.
Qed.
Print Assumptions C60_long_refuted.
Theorem C60_text_refuted : exists s options os r, schema_of s (Serialized Wkb Regular) (Some ex_text) /\ holds options os /\
  (exists text, value_of $"precision" os = Some text /\ forall z, ~ integer text z) /\
  forall print_double junk, kernel_start print_double junk NFormatWkt s options = Ok (StFormatWkt 0 (-1) r wkt_init, init_from_type $"u").
Proof.
  exists ex_wkb_schema, (ex_options [($"precision", $"high")]), [($"precision", $"high")]. eexists.
  split; [exact ex_schema_of|]. split; [apply ex_holds; repeat constructor|]. split; [|reflexivity].
  eexists. split; [reflexivity|]. intros z (ds & _ & Hd & [[E _]|[[E _]|[E _]]]); [|discriminate E|discriminate E].
  subst ds. inversion Hd as [|? ? H _]. cbn in H. lia.
Qed.
Print Assumptions C60_text_refuted.

