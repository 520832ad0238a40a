(** * C45, C22: converting arrays with the kernels *)
From Verif Require Import Base Text TypesModel GeomSpec WkbSpec WktSpec WktGrammar WktReadable ArrowModel NativeSpec WktReaderModel ArrayReaderModel SerialSpec KernelModel KernelSpec
  NativeWriterModel NativeWriterSpec NativeVisitorSpec WkbWriterSpec WktWriterModel WktWriterSpec ConversionModel ConversionSpec ConversionProofs
  PropertiesWktReader PropertiesWktWriter PropertiesKernel.
Local Open Scope Z_scope.

(** In all of these, [parse] is the number parser of the WKT reader, [print_double] the number printer of the WKT writer, [junk] the
    contents of newly allocated memory, and [t] the type of the arrays that are read, in any encoding. Batches have at most
    2^63 - 1 features. *)

(** ** C45 *)

(** To WKB: the same features, except that empty points become points of NaNs. Missing: geometries nested more deeply than 30
    levels, and batches whose encoding takes 2 GiB or more (both are refused). *)
Theorem C45_to_wkb_partial : forall parse print_double junk t fss, number_parser parse ->
  Forall (fun fs => Z.of_nat (length fs) < 2 ^ 63 /\ all_geoms (fun g => wf_geom g /\ (nesting g <= 30)%nat) fs /\ total_size fs < 2 ^ 31) fss ->
  converts parse print_double junk t TYPE_WKB fss (map (map (option_map nan_points)) fss).
Proof. exact converts_wkb. Qed.
Print Assumptions C45_to_wkb_partial.
Theorem C45_to_wkb_same_partial : forall parse print_double junk t fss, number_parser parse ->
  Forall (fun fs => Z.of_nat (length fs) < 2 ^ 63 /\ all_geoms (fun g => wf_geom g /\ (nesting g <= 30)%nat) fs /\ total_size fs < 2 ^ 31) fss ->
  Forall (all_geoms (fun g => no_empty_point g = true)) fss ->
  converts parse print_double junk t TYPE_WKB fss fss.
Proof. exact converts_wkb_same. Qed.
Print Assumptions C45_to_wkb_same_partial.

Example C45_to_wkb_ex :
  Forall (fun fs => Z.of_nat (length fs) < 2 ^ 63 /\ all_geoms (fun g => wf_geom g /\ (nesting g <= 30)%nat) fs /\ total_size fs < 2 ^ 31) [ex_batch1; ex_batch2] /\
  Forall (all_geoms (fun g => no_empty_point g = true)) [ex_batch1; ex_batch2] /\
  Forall2 (features_array ex_parse TYPE_WKB) [ex_array1; ex_array2] [ex_batch1; ex_batch2] /\ exists r0, reader_init TYPE_WKB = Ok r0.
Proof.
  split; [|split; [|split; [constructor; [apply ex_features1|constructor; [apply ex_features2|constructor]]|eexists; reflexivity]]].
  - constructor; [|constructor; [|constructor]]; (split; [vm_compute; reflexivity|]); (split; [|vm_compute; reflexivity]); intros g Hin; cbn in Hin.
    + destruct Hin as [E|[E|[E|[]]]]; [injection E as <-|discriminate|injection E as <-]; (split; [repeat constructor|cbn; lia]).
    + destruct Hin as [E|[]]. injection E as <-. split; [repeat constructor|cbn; lia].
  - constructor; [|constructor; [|constructor]]; intros g Hin; cbn in Hin.
    + destruct Hin as [E|[E|[E|[]]]]; [injection E as <-|discriminate|injection E as <-]; reflexivity.
    + destruct Hin as [E|[]]. injection E as <-. reflexivity.
Qed.

(** To WKT: the same features, if the printer and the parser agree on their numbers, the members of multi-geometries have the
    dimensions of the whole, and no multipoint mixes empty points with others. Missing: other features, geometries nested more
    deeply than 32 levels, and batches whose text takes 2 GiB or more. *)
Theorem C45_to_wkt_partial : forall print_double, short print_double -> forall parse, number_parser parse -> forall junk t fss,
  Forall (fun fs => Z.of_nat (length fs) < 2 ^ 63 /\
    all_geoms (fun g => typed g /\ wf_geom g /\ (nesting g <= 32)%nat /\ uniform g /\ readable true g /\
                        Forall (fun w => numeral parse w (print_double w 16)) (WktReadable.ordinates g)) fs /\
    text_size print_double (wkt_config 16 true (-1)) fs < 2 ^ 31) fss ->
  converts parse print_double junk t TYPE_WKT fss fss.
Proof. exact converts_wkt. Qed.
Print Assumptions C45_to_wkt_partial.

(** To native arrays: what C49 says an array of that kind keeps of the features. Missing: features the writer's visitor mixes up,
    and batches of 2^31 coordinates or more. *)
Theorem C45_to_native_partial : forall junk, (forall i j, is_byte (junk i j)) -> forall parse, number_parser parse -> forall k l d, k <> KBox ->
  forall print_double t fss elss,
  Forall2 (fun fs els => visited_as k d fs els /\ Forall (feature_for k) fs /\ has_room k d fs) fss elss ->
  converts parse print_double junk t (make_type (geometry_kind_code k) (dim_code d) (layout_code l)) fss (map (shown k d) elss).
Proof. exact converts_native. Qed.
Print Assumptions C45_to_native_partial.
(** Those of its own kind and dimensions it keeps as they are. *)
Theorem C45_to_native_same_partial : forall parse print_double junk t k l d fss, number_parser parse -> (forall i j, is_byte (junk i j)) ->
  Forall (fun fs => all_geoms (fun g => wf_geom g /\ of_kind k d g) fs /\ has_room k d fs) fss -> k <> KBox ->
  converts parse print_double junk t (make_type (geometry_kind_code k) (dim_code d) (layout_code l)) fss fss.
Proof. exact converts_native_same. Qed.
Print Assumptions C45_to_native_same_partial.

(** Through any number of encodings, one after the other, whatever the first one. *)
Theorem C45_chain_partial : forall parse print_double junk k d fss, number_parser parse -> short print_double -> (forall i j, is_byte (junk i j)) ->
  Forall (fun fs =>
    all_geoms (fun g => wf_geom g /\ of_kind k d g /\ Forall (fun w => numeral parse w (print_double w 16)) (WktReadable.ordinates g)) fs /\
    Z.of_nat (length fs) < 2 ^ 63 /\ total_size fs < 2 ^ 31 /\ text_size print_double (wkt_config 16 true (-1)) fs < 2 ^ 31 /\ has_room k d fs) fss ->
  forall ts t,
  Forall (fun t' => t' = TYPE_WKB \/ t' = TYPE_WKT \/ exists l, t' = make_type (geometry_kind_code k) (dim_code d) (layout_code l)) ts ->
  k <> KBox -> converts_through parse print_double junk t ts fss.
Proof. exact converts_chain. Qed.
Print Assumptions C45_chain_partial.

Definition ex_area : geom := GColl CMultipolygon XYM [GPoly XYM [[[1; 2; 3]; [4; 5; 6]]; [[7; 8; 9]]]; GPoly XYM [[[1; 1; 1]]]]%N.
Definition ex_areas : list (option geom) := [None; Some ex_area].
Definition ex_area_array : arrow_array := ex_serial [4]%N 1 [None; Some (iso_wkb ex_area)].

Example C45_chain_ex :
  features_array ex_parse TYPE_WKB ex_area_array ex_areas /\
  all_geoms (fun g => wf_geom g /\ of_kind KMultipolygon XYM g /\ Forall (fun w => numeral ex_parse w (ex_print w 16)) (WktReadable.ordinates g)) ex_areas /\
  total_size ex_areas < 2 ^ 31 /\ text_size ex_print (wkt_config 16 true (-1)) ex_areas < 2 ^ 31 /\ has_room KMultipolygon XYM ex_areas.
Proof.
  split; [|split; [|split; [vm_compute; reflexivity|split; [vm_compute; reflexivity|right; split; vm_compute; congruence]]]].
  - apply (fa_wkb ex_parse Offsets32 ex_area_array [None; Some (iso_wkb ex_area)]).
    + repeat (split; [vm_compute; congruence || reflexivity|]). eexists; eexists; eexists. split; [reflexivity|]. split; [discriminate|].
      split; [repeat constructor|reflexivity].
    + split; [reflexivity|]. intros [|[|i]] e E; [injection E as <-; reflexivity|injection E as <-|destruct i; discriminate].
      split; [reflexivity|]. eexists. split; [reflexivity|]. exists (nth 2 (aa_buffers ex_area_array) None), 2. split; [|split; [|split]]; vm_compute; reflexivity.
    + constructor; [exact I|constructor; [|constructor]]. split; [apply (WkbRoundTrip.iso_wkb_is_wkb ex_area); [repeat constructor|vm_compute; reflexivity]|].
      split; [repeat constructor|]. split; [cbn; lia|vm_compute; reflexivity].
  - intros g [E|[E|[]]]; [discriminate|]. injection E as <-. split; [repeat constructor|]. split.
    + exists [[[[1; 2; 3]; [4; 5; 6]]; [[7; 8; 9]]]; [[[1; 1; 1]]]]%N. split; [reflexivity|]. repeat constructor; discriminate.
    + repeat constructor; intros H; vm_compute in H; intuition discriminate.
Qed.

(** The types that there is no writer for are refused at the start. *)
Theorem C45_refused : forall print_double junk,
  as_geoarrow print_double junk TYPE_LARGE_WKB = Err ENOTSUP /\ as_geoarrow print_double junk TYPE_LARGE_WKT = Err ENOTSUP /\
  as_geoarrow print_double junk TYPE_WKB_VIEW = Err ENOTSUP /\ as_geoarrow print_double junk TYPE_WKT_VIEW = Err ENOTSUP /\
  forall d, as_geoarrow print_double junk (make_type (geometry_kind_code KBox) (dim_code d) (layout_code Separate)) = Err EINVAL.
Proof. repeat (split; [reflexivity|]). intros []; reflexivity. Qed.
Print Assumptions C45_refused.

(** ** C22 *)

(** The kernel that formats arrays as WKT: one text per feature, whole, or cut but not shorter than the limit, and exactly the
    first [max] bytes up to the first null. Missing: the limit for geometries after a null (see [C22_after_null_refuted]). *)
Theorem C22_format_wkt_partial : forall print_double, short print_double -> forall parse, number_parser parse -> forall precision max t r0 wkt_state wkb_state batches fss,
  let cfg := wkt_config precision true max in
  reader_init t = Ok r0 -> Forall2 (features_array parse t) batches fss ->
  Forall (fun fs => Z.of_nat (length fs) < 2 ^ 63 /\ Forall expressible fs /\ Forall shallow fs /\ text_size print_double cfg fs < 2 ^ 31) fss ->
  exists r s outs, push_batches (format_wkt print_double precision max) parse wkt_state wkb_state 0 r0 wkt_init batches = Ok (r, s, outs) /\
    Forall2 (fun fs out => exists a, out = Some a /\ serial_ok Offsets32 a /\ aa_null_count a = nulls fs /\
      exists els, serial_contents Offsets32 a els /\ formatted (wkt (fun w => print_double w (kc_precision cfg)) true) max fs els) fss outs.
Proof. exact format_batches. Qed.
Print Assumptions C22_format_wkt_partial.

Example C22_format_wkt_ex : Forall expressible ex_areas /\ Forall shallow ex_areas /\
  text_size ex_print (wkt_config 16 true 10) ex_areas = 53 /\
  match reader_init TYPE_WKB with
  | Ok r => match push_batches (format_wkt ex_print 16 10) ex_parse (fun _ _ => wkt_reader_init) (fun _ _ => false) 0 r wkt_init [ex_array2; ex_area_array] with
            | Ok (_, _, [Some a1; Some a2]) => nth_error (aa_buffers a1) 2 = Some (Some $"GEOMETRYCO") /\ aa_null_count a2 = 1
            | _ => False
            end
  | _ => False
  end.
Proof.
  split; [|split; [|split; [vm_compute; reflexivity|vm_compute; split; reflexivity]]].
  - constructor; [intros ? [=]|constructor; [|constructor]]. intros ? [= <-]. split; repeat constructor.
  - constructor; [intros ? [=]|constructor; [|constructor]]. intros ? [= <-]. cbn. lia.
Qed.
