From Coq Require Import Sorted.
From Verif Require Import Base BaseFacts Text TypesModel TypesSpec GeomSpec VisitorModel VisitorSpec BufferModel ArrowModel WkbWriterModel WktWriterModel
  BuilderModel NativeSpec SerialSpec WktSpec WktGrammar WktWriterSpec WktReadable WktReaderModel ArrayReaderModel ArrayReaderProofs KernelModel KernelSpec KernelProofs KernelBox KernelTypes ConversionModel ConversionSpec ConversionProofs NativeWriterModel NativeWriterProofs
  MetadataModel MetadataSpec MetadataWriting MetadataReread SchemaModel SchemaSpec SchemaMetadata SchemaProofs SchemaRecognised SchemaViews
  KernelStartModel KernelStartSpec.
From Verif Require Import SchemaModel SchemaSpec.
Local Open Scope Z_scope.

(** ** Schemas *)
Lemma schema_of_view s t text : schema_of s t text -> exists v, schema_view_init s = Ok v /\ gv_type v = type_id t /\ viewed (gv_metadata v) text.
Proof.
  intros (es & W & H & He & Hs & Hn & Hm). destruct (view_init_spec s es W H) as (_ & V & N).
  destruct (proj2 (V t)) as (v & E & [Et _]).
  { split; [exact He|]. split; [|exact Hs]. exists (type_name t). split; [exact Hn | apply taken_name]. }
  destruct (N v E) as (_ & _ & Hv). exists v. split; [exact E|]. split; [exact Et|].
  rewrite <- Hm. exact Hv.
Qed.
Lemma not_geoarrow_view s : not_geoarrow s -> schema_view_init s = Err EINVAL.
Proof.
  intros (es & W & H & Hw & Hn). destruct (view_init_spec s es W H) as (Q & V & N).
  destruct Q as [[v E]|E]; [|exact E]. exfalso. destruct (N v E) as ((t & He & Hs) & _).
  destruct (proj1 (V t) (ex_intro _ v (conj E Hs))) as (_ & (b & Hb & Ht) & Hst).
  apply (Hn t He); [|exact Hst]. refine (eq_trans Hb _). f_equal.
  destruct t as [k d l|[] w]; cbn [taken type_name] in *; try exact Ht. exact (Hw b Hb Ht).
Qed.
Lemma type_initialised t : (type_id t =? TYPE_UNINITIALIZED) = false.
Proof. destruct t as [k d l|[] []]; try reflexivity. destruct k, d, l; reflexivity. Qed.
Lemma reader_exists t : exists_type t -> exists r, ArrayReaderModel.reader_init (type_id t) = Ok r.
Proof. intros H. destruct t as [k d l|[] []]; try (eexists; reflexivity). destruct k, d, l; try (eexists; reflexivity); specialize (H eq_refl); discriminate H. Qed.

Lemma visitor_starts s t text : schema_of s t text -> exists r, visitor_start s = Ok r /\ ArrayReaderModel.reader_init (type_id t) = Ok r.
Proof.
  intros H. destruct (schema_of_view s t text H) as (v & E & Et & _). destruct H as (_ & _ & _ & He & _).
  destruct (reader_exists t He) as (r & Er). exists r. split; [|exact Er]. unfold visitor_start. rewrite E. cbn [obind].
  rewrite Et, type_initialised. exact Er.
Qed.

Lemma updated_schema s t es text s' : well_formed s -> holds (sc_metadata s) es -> exists_type t -> stored t s ->
  value_of name_key es = Some (type_name t) -> update s es text s' -> schema_of s' t (Some text).
Proof.
  intros W H He Hs Hn (es' & Es & Hh & Ho & Hk). exists es'. split; [rewrite Es; exact (wf_with_metadata s _ es' W Hh)|].
  split; [exact Hh|]. split; [exact He|]. split; [rewrite Es; apply stored_with_metadata; exact Hs|]. split.
  - change (value_of name_key es' = Some (type_name t)). rewrite <- Hn.
    rewrite <- (value_of_others metadata_key name_key es'), Ho by discriminate. apply value_of_others. discriminate.
  - change (value_of metadata_key es' = Some text). unfold value_of. rewrite find_filter, Hk. reflexivity.
Qed.

(** ** Options *)
Lemma until_nul_none b : ~ In 0%N b -> until_nul b = b.
Proof.
  induction b as [|c b IH]; intros H; cbn [until_nul]; [reflexivity|]. destruct (N.eqb_spec c 0) as [->|]; [destruct H; left; reflexivity|].
  rewrite IH; [reflexivity|]. intros Hi. apply H. right. exact Hi.
Qed.
Lemma digit_not_nul ds : Forall (fun c => 48 <= c <= 57)%N ds -> ~ In 0%N ds.
Proof. intros H Hi. pose proof (proj1 (Forall_forall _ _) H 0%N Hi). cbn in *. lia. Qed.
Lemma value_nonneg ds : Forall (fun c => 48 <= c <= 57)%N ds -> 0 <= numeral_value ds.
Proof. intros H. apply (numeral_nonneg ds H 0). lia. Qed.
Lemma atoi_integer text z : integer text z -> - 2147483648 <= z <= 2147483647 -> atoi text = Ok z.
Proof.
  intros (ds & Hn & Hd & H) Hz.
  pose proof (value_nonneg ds Hd) as Hp. pose proof (digits_all ds Hd 0) as Hv. fold (numeral_value ds) in Hv.
  destruct ds as [|c ds]; [contradiction|]. assert (Hc : (48 <= c <= 57)%N) by (inversion Hd; assumption).
  assert (Hg : is_digit c = true) by (unfold is_digit; lia).
  set (tl := c :: ds) in *.
  assert (C : char_at tl 0 = c) by reflexivity.
  unfold atoi, strtol. destruct H as [[-> Ez]|[[-> Ez]|[-> Ez]]].
  - assert (S : skip_spaces tl = tl).
    { unfold tl. cbn [skip_spaces]. assert (is_space c = false) as ->; [|reflexivity]. unfold is_space, one_of. cbn [existsb]. lia. }
    rewrite S. unfold tl at 1. assert (is_char c $"-" = false) as -> by (change ((c =? 45)%N = false); lia).
    assert (is_char c $"+" = false) as -> by (change ((c =? 43)%N = false); lia).
    rewrite C, Hg, Hv. unfold long_max. rewrite Z.min_l by lia. rewrite <- Ez.
    replace ((- 2147483648 <=? z) && (z <=? 2147483647)) with true by lia. reflexivity.
  - change (skip_spaces ($"+" ++ tl)) with ($"+" ++ tl). change ($"+" ++ tl) with (43%N :: tl). cbn iota.
    change (is_char 43%N $"-") with false. change (is_char 43%N $"+") with true. cbn iota.
    rewrite C, Hg, Hv. unfold long_max. rewrite Z.min_l by lia. rewrite <- Ez.
    replace ((- 2147483648 <=? z) && (z <=? 2147483647)) with true by lia. reflexivity.
  - change (skip_spaces ($"-" ++ tl)) with ($"-" ++ tl). change ($"-" ++ tl) with (45%N :: tl). cbn iota.
    change (is_char 45%N $"-") with true. cbn iota.
    rewrite C, Hg, Hv. unfold long_max. rewrite Z.max_l by lia. rewrite <- Ez.
    replace ((- 2147483648 <=? z) && (z <=? 2147483647)) with true by lia. reflexivity.
Qed.
Lemma integer_no_nul text z : integer text z -> ~ In 0%N text.
Proof.
  intros (ds & _ & Hd & [[-> _]|[[-> _]|[-> _]]]) Hi; pose proof (digit_not_nul ds Hd) as Hn.
  - exact (Hn Hi).
  - destruct Hi as [Hi|Hi]; [discriminate | exact (Hn Hi)].
  - destruct Hi as [Hi|Hi]; [discriminate | exact (Hn Hi)].
Qed.

Lemma arg_long options os key required : holds options os ->
  match value_of key os with
  | Some text => forall z, integer text z -> (length text <= 15)%nat -> - 2147483648 <= z <= 2147483647 ->
      get_arg_long options key required = Ok (Some z)
  | None => get_arg_long options key required = if required then Err EINVAL else Ok None
  end.
Proof.
  intros H. destruct (get_value_spec options os key H) as (r & E & Hr). unfold get_arg_long. rewrite E. cbn [obind].
  destruct (value_of key os) as [text|].
  - destruct Hr as (w & -> & Hb & _). intros z Hi Hl Hz. rewrite Hb. cbn [or_ub obind].
    rewrite until_nul_none by exact (integer_no_nul text z Hi). rewrite firstn_all2 by exact Hl.
    rewrite (atoi_integer text z Hi Hz). reflexivity.
  - rewrite Hr. reflexivity.
Qed.
Lemma arg_default options os key d z : holds options os -> option_is os key (Some d) z -> arg_or options key d = Ok z.
Proof.
  intros H Ho. unfold option_is in Ho. pose proof (arg_long options os key false H) as A. unfold arg_or.
  destruct (value_of key os) as [text|].
  - destruct Ho as (Hi & Hl & Hz). rewrite (A z Hi Hl Hz). reflexivity.
  - rewrite A. injection Ho as ->. reflexivity.
Qed.
Lemma arg_required options os key z : holds options os -> option_is os key None z -> get_arg_long options key true = Ok (Some z).
Proof.
  intros H Ho. unfold option_is in Ho. pose proof (arg_long options os key true H) as A.
  destruct (value_of key os) as [text|]; [|discriminate]. destruct Ho as (Hi & Hl & Hz). exact (A z Hi Hl Hz).
Qed.

(** ** Names *)
Definition names : list (bytes * kernel_name) :=
  [($"void", NVoid); ($"void_agg", NVoidAgg); ($"visit_void_agg", NVisitVoidAgg); ($"format_wkt", NFormatWkt);
   ($"as_geoarrow", NAsGeoarrow); ($"unique_geometry_types_agg", NUniqueTypes); ($"box", NBox); ($"box_agg", NBoxAgg)].
Lemma kernel_names name : kernel_init name = Err ENOTSUP /\ ~ In name (map fst names) \/
  exists n, kernel_init name = Ok n /\ In (name, n) names.
Proof.
  unfold kernel_init, names.
  repeat match goal with |- context [same_bytes name ?t] =>
    let E := fresh "E" in
    destruct (same_bytes name t) eqn:E; [right; eexists; split; [reflexivity|]; apply same_bytes_eq in E; rewrite E; cbn [In]; auto 10|] end.
  left. split; [reflexivity|]. cbn [map fst In]. intros H.
  repeat match goal with H : _ \/ _ |- _ => destruct H as [H|H] end; try contradiction; subst name; vm_compute in *; discriminate.
Qed.

(** ** Start *)
Lemma native_id k d l : supported k d l -> type_id (Native k d l) = make_type (geometry_kind_code k) (dim_code d) (layout_code l).
Proof. intros H. destruct k, d, l; try reflexivity; specialize (H eq_refl); discriminate H. Qed.
Section Start.
  Variable print_double : N -> Z -> bytes.
  Variable junk : nat -> nat -> N.

  Lemma start_refused n s options : not_geoarrow s -> n <> NVoid -> n <> NVoidAgg -> kernel_start print_double junk n s options = Err EINVAL.
  Proof.
    intros H H1 H2. assert (E : visitor_start s = Err EINVAL) by (unfold visitor_start; rewrite (not_geoarrow_view s H); reflexivity).
    destruct n; try contradiction; unfold kernel_start; rewrite E; reflexivity.
  Qed.

  Lemma writable_type t : (forall i j, is_byte (junk i j)) -> exists_type t -> writable t ->
    exists k w, as_geoarrow print_double junk (type_id t) = Ok (k, w).
  Proof.
    intros Hj He Hw. destruct t as [k d l|[] []]; cbn [writable] in Hw; try contradiction; try (eexists; eexists; reflexivity).
    rewrite native_id by exact He. destruct (writer_init_ok junk Hj k l d Hw) as (w & E & _).
    unfold as_geoarrow. rewrite (native_init_writer junk k l d Hw), E. cbn [obind]. unfold array_visitor. rewrite (native_type k l d Hw).
    destruct k; try contradiction; eexists; eexists; reflexivity.
  Qed.
  Lemma unwritable_type t : exists_type t -> ~ writable t -> exists c, as_geoarrow print_double junk (type_id t) = Err c /\ (c = EINVAL \/ c = ENOTSUP).
  Proof.
    intros He Hw. destruct t as [k d l|[] []]; cbn [writable] in Hw; try (exfalso; apply Hw; exact I); try (exists ENOTSUP; split; [reflexivity | auto]; fail).
    destruct k; try (exfalso; apply Hw; discriminate). assert (l = Separate) as -> by exact (He eq_refl).
    exists EINVAL. split; [destruct d; reflexivity | auto].
  Qed.

  Theorem start_as_geoarrow s t text options os t' : (forall i j, is_byte (junk i j)) -> schema_of s t text -> holds options os ->
    exists_type t' -> option_is os $"type" None (type_id t') -> writable t' ->
    exists k r w out, kernel_start print_double junk NAsGeoarrow s options = Ok (StAsGeoarrow k r w, out) /\
      ArrayReaderModel.reader_init (type_id t) = Ok r /\ as_geoarrow print_double junk (type_id t') = Ok (k, w) /\
      schema_of out t' (Some (text_of text)).
  Proof.
    intros Hj Hs Ho He Ht Hw. destruct (visitor_starts s t text Hs) as (r & Er & Ei). destruct (writable_type t' Hj He Hw) as (k & w & Ek).
    destruct (created t' He) as (tmp & Etmp & Wt & St & Ht0).
    destruct (schema_of_view s t text Hs) as (v & Ev & _). destruct Hs as (es & W & H & _ & _ & _ & Hm).
    assert (L : Z.of_nat (length [(name_key, type_name t'); (metadata_key, $"{}")]) < 2147483647) by (cbn; lia).
    destruct (set_geoarrow_from tmp _ s es Ht0 L W H) as [E|(out & E & U)].
    { destruct (set_from_succeeds tmp _ s v Ht0 L W Ev) as (s' & E'). congruence. }
    exists k, r, w, out. split; [|split; [exact Ei | split; [exact Ek|]]].
    - unfold kernel_start. rewrite Er. cbn [obind]. unfold finish_start_as_geoarrow.
      rewrite (arg_required options os _ _ Ho Ht). cbn [obind or_ub]. rewrite Ek. cbn [obind]. rewrite Etmp. cbn [obind]. rewrite E. reflexivity.
    - change metadata_key with $"ARROW:extension:metadata" in U. rewrite Hm in U. change (match text with Some t => t | None => [] end) with (text_of text) in U.
      apply (updated_schema tmp t' _ _ out Wt Ht0 He St); [reflexivity | exact U].
  Qed.
  (** Without the option, or with a number that is no type, or is one that cannot be written. *)
  Lemma start_as_geoarrow_missing s t text options os : schema_of s t text -> holds options os -> value_of $"type" os = None ->
    kernel_start print_double junk NAsGeoarrow s options = Err EINVAL.
  Proof.
    intros Hs Ho Hn. destruct (visitor_starts s t text Hs) as (r & Er & _). unfold kernel_start. rewrite Er. cbn [obind]. unfold finish_start_as_geoarrow.
    pose proof (arg_long options os $"type" true Ho) as A. rewrite Hn in A. rewrite A. reflexivity.
  Qed.
  Lemma start_as_geoarrow_unwritable s t text options os t' : schema_of s t text -> holds options os ->
    exists_type t' -> option_is os $"type" None (type_id t') -> ~ writable t' ->
    exists c, kernel_start print_double junk NAsGeoarrow s options = Err c /\ (c = EINVAL \/ c = ENOTSUP).
  Proof.
    intros Hs Ho He Ht Hw. destruct (visitor_starts s t text Hs) as (r & Er & _). destruct (unwritable_type t' He Hw) as (c & E & Hc).
    exists c. split; [|exact Hc]. unfold kernel_start. rewrite Er. cbn [obind]. unfold finish_start_as_geoarrow.
    rewrite (arg_required options os _ _ Ho Ht). cbn [obind or_ub]. rewrite E. reflexivity.
  Qed.

  Theorem start_format_wkt s t text options os precision max : schema_of s t text -> holds options os ->
    option_is os $"precision" (Some 16) precision -> option_is os $"max_element_size_bytes" (Some (-1)) max ->
    exists r, kernel_start print_double junk NFormatWkt s options = Ok (StFormatWkt precision max r wkt_init, init_from_type $"u") /\
      ArrayReaderModel.reader_init (type_id t) = Ok r.
  Proof.
    intros Hs Ho Hp Hm. destruct (visitor_starts s t text Hs) as (r & Er & Ei). exists r. split; [|exact Ei].
    unfold kernel_start. rewrite Er. cbn [obind]. rewrite (arg_default _ _ _ _ _ Ho Hp). cbn [obind]. rewrite (arg_default _ _ _ _ _ Ho Hm). reflexivity.
  Qed.

  (** *** Boxes *)
  Lemma text_short s t text : schema_of s t text -> short (text_of text).
  Proof.
    intros (es & _ & [[_ Hf] _] & _ & _ & _ & Hm). destruct text as [b|]; [|reflexivity]. unfold value_of in Hm.
    destruct (find _ es) as [e|] eqn:E; [|discriminate]. injection Hm as <-. apply find_some in E as [Hi _].
    exact (proj2 (proj1 (Forall_forall _ _) Hf e Hi)).
  Qed.
  Lemma view_text v text : viewed v text -> exists past, metadata_text v = Ok (text_of text, past).
  Proof.
    destruct text as [b|]; cbn [viewed].
    - intros (w & -> & Hw). cbn [metadata_text]. rewrite Hw. eexists. reflexivity.
    - intros ->. eexists. reflexivity.
  Qed.
  (** The metadata that the output schema of the box kernels says: what the input says, with no CRS when its type is none. *)
  Definition box_metadata (m : metadata) : metadata :=
    Metadata (m_edges m) (m_crs_type m) (if m_crs_type m =? CRS_NONE then [] else m_crs m).

  Lemma box_out_says s t text m : schema_of s t text -> says (text_of text) m -> m_edges m = EDGE_PLANAR ->
    Z.of_nat (length (m_crs m)) <= 1000000000 ->
    exists out text', box_out s = Ok out /\ schema_of out (Native KBox XY Separate) (Some text') /\ says text' (box_metadata m).
  Proof.
    intros Hs Hm He Hl. destruct (schema_of_view s t text Hs) as (v & Ev & _ & Vm). destruct (view_text _ _ Vm) as (past & Et).
    assert (Hr : metadata_view_init past (S (length (text_of text))) (text_of text) = Ok m) by (apply Hm; lia).
    destruct (view_init_sound _ _ _ _ Hr) as (Hk & Hc).
    assert (Hx : exists_type (Native KBox XY Separate)) by (intros _; reflexivity).
    destruct (created (Native KBox XY Separate) Hx) as (b & Eb & Wb & Sb & Hb).
    change (type_id (Native KBox XY Separate)) with TYPE_BOX in Eb.
    assert (L : Z.of_nat (length [(name_key, type_name (Native KBox XY Separate)); (metadata_key, $"{}")]) < 2147483647) by (cbn; lia).
    destruct (set_value b _ (serialized m) Hb L (serialized_short m Hl)) as (out & Eo & U).
    exists out, (serialized m). split; [|split].
    - unfold box_out. rewrite Ev. cbn [obind]. unfold schema_box. rewrite Et. cbn [obind]. rewrite Hr. cbn [obind].
      rewrite He, Z.eqb_refl. cbn [negb]. rewrite Eb. cbn [obind]. unfold schema_set_geoarrow_metadata.
      rewrite loose_size by exact Hc. rewrite Z.eqb_refl. cbn [negb]. exact Eo.
    - apply (updated_schema b _ _ _ out Wb Hb Hx Sb); [reflexivity | exact U].
    - intros past' fuel Hf. exact (read_back_loose past' fuel m Hk Hc Hf).
  Qed.
  Lemma box_out_not_planar s t text m : schema_of s t text -> says (text_of text) m -> m_edges m <> EDGE_PLANAR -> box_out s = Err EINVAL.
  Proof.
    intros Hs Hm He. destruct (schema_of_view s t text Hs) as (v & Ev & _ & Vm). destruct (view_text _ _ Vm) as (past & Et).
    unfold box_out. rewrite Ev. cbn [obind]. unfold schema_box. rewrite Et. cbn [obind]. rewrite Hm by lia. cbn [obind].
    apply Z.eqb_neq in He. rewrite He. reflexivity.
  Qed.
  Lemma box_out_refused s t text : schema_of s t text ->
    (forall past fuel, (length (text_of text) < fuel)%nat -> metadata_view_init past fuel (text_of text) = Err EINVAL) -> box_out s = Err EINVAL.
  Proof.
    intros Hs Hm. destruct (schema_of_view s t text Hs) as (v & Ev & _ & Vm). destruct (view_text _ _ Vm) as (past & Et).
    unfold box_out. rewrite Ev. cbn [obind]. unfold schema_box. rewrite Et. cbn [obind]. rewrite Hm by lia. reflexivity.
  Qed.

  Definition box_kernels (n : kernel_name) : Prop := n = NBox \/ n = NBoxAgg.
  Theorem start_box_refused n s t text options : box_kernels n -> schema_of s t text ->
    (exists m, says (text_of text) m /\ m_edges m <> EDGE_PLANAR) \/
    (forall past fuel, (length (text_of text) < fuel)%nat -> metadata_view_init past fuel (text_of text) = Err EINVAL) ->
    kernel_start print_double junk n s options = Err EINVAL.
  Proof.
    intros Hn Hs Hm. assert (E : box_out s = Err EINVAL).
    { destruct Hm as [(m & Hm & He)|Hm]; [exact (box_out_not_planar s t text m Hs Hm He) | exact (box_out_refused s t text Hs Hm)]. }
    destruct (visitor_starts s t text Hs) as (r & Er & _).
    destruct Hn as [->| ->]; unfold kernel_start; rewrite Er; cbn [obind]; rewrite E; reflexivity.
  Qed.
  Theorem start_box n s t text options m : box_kernels n -> schema_of s t text -> says (text_of text) m -> m_edges m = EDGE_PLANAR ->
    Z.of_nat (length (m_crs m)) <= 1000000000 ->
    exists r out text', ArrayReaderModel.reader_init (type_id t) = Ok r /\
      kernel_start print_double junk n s options =
        Ok (match n with NBox => StBox r box_init | _ => StBoxAgg r box_agg_init end, out) /\
      schema_of out (Native KBox XY Separate) (Some text') /\ says text' (box_metadata m).
  Proof.
    intros Hn Hs Hm He Hl. destruct (box_out_says s t text m Hs Hm He Hl) as (out & text' & E & H1 & H2).
    destruct (visitor_starts s t text Hs) as (r & Er & Ei). exists r, out, text'. split; [exact Ei|]. split; [|auto].
    destruct Hn as [->| ->]; unfold kernel_start; rewrite Er; cbn [obind]; rewrite E; reflexivity.
  Qed.
End Start.

(** ** Sessions *)
Section Push.
  Variable parse : bytes -> option N.
  Variable print_double : N -> Z -> bytes.
  Variable junk : nat -> nat -> N.
  Variable wkt_state : nat -> Z -> rst.
  Variable wkb_state : nat -> Z -> bool.
  Notation push_all := (push_all parse print_double junk wkt_state wkb_state).
  Notation session := (session parse print_double junk wkt_state wkb_state).

  Lemma push_all_ok {St} (make : areader -> St -> started) (k : kernel St arrow_array) out :
    (forall j r s a r' s' c o, push_batch k parse (wkt_state j) (wkb_state j) r s a = KRet r' s' c o ->
       kernel_push parse print_double junk (wkt_state j) (wkb_state j) (make r s) a out = PRet (make r' s') c o) ->
    forall batches j r s r' s' outs, push_batches k parse wkt_state wkb_state j r s batches = Ok (r', s', outs) ->
    push_all j (make r s) batches out = Ok (make r' s', outs).
  Proof.
    intros Hk. induction batches as [|a batches IH]; intros j r s r' s' outs; cbn [push_batches KernelStartSpec.push_all].
    - intros [= -> -> ->]. reflexivity.
    - destruct (push_batch k parse (wkt_state j) (wkb_state j) r s a) as [r1 s1 c o| |] eqn:E; try discriminate.
      rewrite (Hk _ _ _ _ _ _ _ _ E). destruct (c =? 0); [|discriminate].
      destruct (push_batches k parse wkt_state wkb_state (S j) r1 s1 batches) as [[[r2 s2] outs2]| | |] eqn:E2; cbn [obind]; try discriminate.
      intros [= -> -> <-]. rewrite (IH _ _ _ _ _ _ E2). reflexivity.
  Qed.

  Lemma no_output_outs {St} (k : kernel St arrow_array) : (forall s, kn_finish_push k s = Some (s, 0, None)) ->
    forall batches j r s r' s' outs, push_batches k parse wkt_state wkb_state j r s batches = Ok (r', s', outs) ->
    outs = repeat None (length batches).
  Proof.
    intros Hk. assert (F : forall r s, kfinish_push k r s = KRet r s 0 None) by (intros; unfold kfinish_push; rewrite Hk; reflexivity).
    assert (P : forall ws wb n i r s r' s' c o, push_features k parse ws wb n i r s = KRet r' s' c o -> o = None).
    { intros ws wb n. induction n as [|n IH]; intros i r s r' s' c o; cbn [push_features].
      - rewrite F. congruence.
      - destruct (run _ _ _) as [[s1 [u|e| |]]|]; try congruence.
        + apply IH.
        + destruct (e =? EAGAIN); [|congruence]. destruct (kn_visitor k s1 EFeatEnd) as [s2 e2|]; [|congruence]. destruct (e2 =? 0); [apply IH | congruence]. }
    assert (B : forall ws wb r s a r' s' c o, push_batch k parse ws wb r s a = KRet r' s' c o -> o = None).
    { intros ws wb r s a r' s' c o. unfold push_batch. destruct (reader_set_array r a); try congruence.
      destruct (kn_by_feature k); [apply P|]. destruct (run _ _ _) as [[s1 [u|e| |]]|]; try rewrite F; congruence. }
    induction batches as [|a batches IH]; intros j r s r' s' outs; cbn [push_batches length repeat]; [congruence|].
    destruct (push_batch k parse (wkt_state j) (wkb_state j) r s a) as [r1 s1 c o| |] eqn:E; try congruence.
    destruct (c =? 0); [|congruence].
    destruct (push_batches k parse wkt_state wkb_state (S j) r1 s1 batches) as [[[r2 s2] outs2]| | |] eqn:E2; cbn [obind]; try congruence.
    intros [= -> -> <-]. rewrite (B _ _ _ _ _ _ _ _ _ E). rewrite (IH _ _ _ _ _ _ E2). reflexivity.
  Qed.

  Theorem as_geoarrow_session s t text options os t' batches fss fss' : (forall i j, is_byte (junk i j)) -> schema_of s t text -> holds options os ->
    exists_type t' -> option_is os $"type" None (type_id t') -> writable t' ->
    Forall2 (features_array parse (type_id t)) batches fss -> converts parse print_double junk (type_id t) (type_id t') fss fss' ->
    exists out outs, session $"as_geoarrow" false s options batches = Ok (out, outs, None) /\
      schema_of out t' (Some (text_of text)) /\ arrays_of parse (type_id t') fss' outs.
  Proof.
    intros Hj Hs Ho He Ht Hw Hb Hc.
    destruct (start_as_geoarrow print_double junk s t text options os t' Hj Hs Ho He Ht Hw) as (k & r & w & out & Es & Er & Ek & Hout).
    destruct (Hc r wkt_state wkb_state batches Er Hb) as (k' & w' & r' & s' & outs & Ek' & Ep & Ha).
    rewrite Ek in Ek'. injection Ek' as <- <-. exists out, outs. split; [|split; assumption].
    unfold KernelStartSpec.session. change (kernel_init $"as_geoarrow") with (Ok NAsGeoarrow). cbn [obind]. rewrite Es. cbn [obind negb].
    rewrite (push_all_ok (StAsGeoarrow k) k true ltac:(intros; cbn [kernel_push]; rewrite H; reflexivity) batches 0 r w r' s' outs Ep).
    reflexivity.
  Qed.


  Theorem format_wkt_session s t text options os precision max batches fss : (forall w p, 0 <= p <= 16 -> (length (print_double w p) <= 40)%nat) -> number_parser parse ->
    let cfg := wkt_config precision true max in
    schema_of s t text -> holds options os ->
    option_is os $"precision" (Some 16) precision -> option_is os $"max_element_size_bytes" (Some (-1)) max ->
    Forall2 (features_array parse (type_id t)) batches fss ->
    Forall (fun fs => Z.of_nat (length fs) < 2 ^ 63 /\ Forall expressible fs /\ Forall shallow fs /\ text_size print_double cfg fs < 2 ^ 31) fss ->
    exists outs, session $"format_wkt" false s options batches = Ok (init_from_type $"u", outs, None) /\
      Forall2 (fun fs out => exists a, out = Some a /\ serial_ok Offsets32 a /\ aa_null_count a = KernelSpec.nulls fs /\
        exists els, serial_contents Offsets32 a els /\ formatted (wkt (fun w => print_double w (kc_precision cfg)) true) max fs els) fss outs.
  Proof.
    intros Hd Hp cfg Hs Ho H1 H2 Hb Hf.
    destruct (start_format_wkt print_double junk s t text options os precision max Hs Ho H1 H2) as (r & Es & Er).
    destruct (format_batches print_double Hd parse Hp precision max (type_id t) r wkt_state wkb_state batches fss Er Hb Hf) as (r' & s' & outs & Ep & Ha).
    exists outs. split; [|exact Ha].
    unfold KernelStartSpec.session. change (kernel_init $"format_wkt") with (Ok NFormatWkt). cbn [obind]. rewrite Es. cbn [obind negb].
    rewrite (push_all_ok (StFormatWkt precision max) _ true ltac:(intros; cbn [kernel_push]; rewrite H; reflexivity) batches 0 r wkt_init r' s' outs Ep).
    reflexivity.
  Qed.

  Theorem box_session s t text options m batches fss : number_parser parse ->
    schema_of s t text -> says (text_of text) m -> m_edges m = EDGE_PLANAR -> Z.of_nat (length (m_crs m)) <= 1000000000 ->
    Forall2 (features_array parse (type_id t)) batches fss -> Forall (Forall wf_feature) fss ->
    exists out text' outs, session $"box" false s options batches = Ok (out, outs, None) /\
      schema_of out (Native KBox XY Separate) (Some text') /\ says text' (box_metadata m) /\
      Forall2 (fun fs out => exists a, out = Some a /\ boxes a fs) fss outs.
  Proof.
    intros Hp Hs Hm He Hl Hb Hw.
    destruct (start_box print_double junk NBox s t text options m ltac:(left; reflexivity) Hs Hm He Hl) as (r & out & text' & Er & Es & H1 & H2).
    destruct (box_batches (junk 0%nat) parse (type_id t) r wkt_state wkb_state batches fss Hp Er Hb Hw) as (r' & s' & outs & Ep & Ha).
    exists out, text', outs. split; [|auto].
    unfold KernelStartSpec.session. change (kernel_init $"box") with (Ok NBox). cbn [obind]. rewrite Es. cbn [obind negb].
    rewrite (push_all_ok StBox _ true ltac:(intros; cbn [kernel_push]; rewrite H; reflexivity) batches 0 r box_init r' s' outs Ep).
    reflexivity.
  Qed.

  (** An aggregate that starts with the reader and is finished. *)
  Lemma aggregate_session {St} (make : areader -> St -> started) (k : kernel St arrow_array) name n s options out t r s0 batches a :
    kernel_init name = Ok n -> kernel_start print_double junk n s options = Ok (make r s0, out) ->
    ArrayReaderModel.reader_init t = Ok r -> (forall s, kn_finish_push k s = Some (s, 0, None)) ->
    (forall ws wb r s a, kernel_push parse print_double junk ws wb (make r s) a false = of_kres make (push_batch k parse ws wb r s a)) ->
    (forall r s, kernel_finish (make r s) true = Some (let '(_, c, o) := kn_finish k s in (c, o))) ->
    aggregate k parse wkt_state wkb_state t s0 batches = Ok a ->
    session name true s options batches = Ok (out, repeat None (length batches), Some a).
  Proof.
    intros En Es Er Hn Hk Hf H. unfold KernelStartSpec.session. rewrite En. cbn [obind]. rewrite Es. cbn [obind negb].
    unfold aggregate in H. rewrite Er in H. cbn [obind] in H.
    destruct (push_batches k parse wkt_state wkb_state 0 r s0 batches) as [[[r' s'] outs]| | |] eqn:E; cbn [obind] in H; try discriminate.
    rewrite (push_all_ok make k false ltac:(intros; rewrite Hk, H0; reflexivity) batches 0 r s0 r' s' outs E). cbn [obind].
    rewrite Hf. destruct (kn_finish k s') as [[s2 c] o]. destruct (c =? 0); [|discriminate].
    rewrite (no_output_outs k Hn _ _ _ _ _ _ _ E). destruct o as [o|]; cbn [or_ub] in H; [|discriminate]. congruence.
  Qed.

  Theorem box_agg_session s t text options m batches fss : number_parser parse ->
    schema_of s t text -> says (text_of text) m -> m_edges m = EDGE_PLANAR -> Z.of_nat (length (m_crs m)) <= 1000000000 ->
    Forall2 (features_array parse (type_id t)) batches fss -> Forall (Forall wf_feature) fss ->
    exists out text' a x0 y0 x1 y1, session $"box_agg" true s options batches = Ok (out, repeat None (length batches), Some a) /\
      schema_of out (Native KBox XY Separate) (Some text') /\ says text' (box_metadata m) /\
      native_ok KBox Separate XY a /\ aa_length a = 1 /\ aa_null_count a = 0 /\ valid_at a 0 = Some true /\ box_at a 0 x0 y0 x1 y1 /\
      tight (feature_ordinates 0 (concat fss)) (feature_ordinates 1 (concat fss)) x0 y0 x1 y1.
  Proof.
    intros Hp Hs Hm He Hl Hb Hw.
    destruct (start_box print_double junk NBoxAgg s t text options m ltac:(right; reflexivity) Hs Hm He Hl) as (r & out & text' & Er & Es & H1 & H2).
    destruct (box_agg_ok parse (type_id t) r wkt_state wkb_state batches fss Hp Er Hb Hw) as (a & x0 & y0 & x1 & y1 & Ea & Ha).
    exists out, text', a, x0, y0, x1, y1. split; [|auto].
    refine (aggregate_session StBoxAgg box_agg $"box_agg" NBoxAgg s options out _ r box_agg_init batches a eq_refl Es Er _ _ _ Ea); intros; try reflexivity.
    cbn [kernel_finish]. destruct (kn_finish _ _) as [[? ?] ?]. reflexivity.
  Qed.

  Theorem types_session s t text options batches fss : number_parser parse -> schema_of s t text ->
    Forall2 (features_array parse (type_id t)) batches fss ->
    exists a zs, session $"unique_geometry_types_agg" true s options batches = Ok (init_from_type $"i", repeat None (length batches), Some a) /\
      int32_array a zs /\ StronglySorted Z.lt zs /\
      forall z, In z zs <-> exists g, In (Some g) (concat fss) /\ geom_coords g <> [] /\ iso_code g = z.
  Proof.
    intros Hp Hs Hb. destruct (visitor_starts s t text Hs) as (r & Ev & Er).
    destruct (types_agg parse (type_id t) r wkt_state wkb_state batches fss Hp Er Hb) as (a & zs & Ea & Ha).
    exists a, zs. split; [|exact Ha].
    refine (aggregate_session StUniqueTypes unique_geometry_types_agg $"unique_geometry_types_agg" NUniqueTypes s options _ _ r gtypes_init batches a eq_refl _ Er _ _ _ Ea); intros; try reflexivity.
    all: try (unfold kernel_start; rewrite Ev; reflexivity).
  Qed.

  (** *** The void kernels *)
  Lemma void_features evs : feed (fun (s : unit) (_ : event) => void s) tt evs = Some (tt, 0).
  Proof. induction evs as [|e evs IH]; [reflexivity | exact IH]. Qed.
  Lemma push_void t : number_parser parse -> forall batches fss j r, reader_history t r -> Forall2 (features_array parse t) batches fss ->
    exists r' outs, push_batches visit_void_agg parse wkt_state wkb_state j r tt batches = Ok (r', tt, outs).
  Proof.
    intros Hp. induction batches as [|a batches IH]; intros fss j r Hr H; inversion H as [|? fs ? fss' Ha Hrest]; subst.
    - exists r, []. reflexivity.
    - destruct (push_whole visit_void_agg parse Hp t r a fs eq_refl Ha Hr) as (r1 & Hr1 & Hpush).
      destruct (Hpush (wkt_state j) (wkb_state j)) as (evs & He & E). cbn [push_batches]. rewrite (E tt). cbn [kn_visitor visit_void_agg].
      rewrite void_features. change (0 =? 0) with true. cbn iota.
      change (kfinish_push visit_void_agg r1 tt) with (@KRet unit arrow_array r1 tt 0 None). cbn iota. change (0 =? 0) with true. cbn iota.
      destruct (IH fss' (S j) r1 Hr1 Hrest) as (r2 & outs & E2). rewrite E2. cbn [obind]. eexists; eexists. reflexivity.
  Qed.
  Theorem visit_void_session s t text options batches fss : number_parser parse -> schema_of s t text ->
    Forall2 (features_array parse (type_id t)) batches fss ->
    exists a, session $"visit_void_agg" true s options batches = Ok (init_from_type $"n", repeat None (length batches), Some a) /\ nulls_array 1 a.
  Proof.
    intros Hp Hs Hb. destruct (visitor_starts s t text Hs) as (r & Ev & Er).
    assert (Hr : reader_history (type_id t) r) by (constructor; exact Er).
    destruct (push_void (type_id t) Hp batches fss 0 r Hr Hb) as (r' & outs & E).
    exists (null_array 1). split; [|repeat split].
    refine (aggregate_session StVisitVoidAgg visit_void_agg $"visit_void_agg" NVisitVoidAgg s options _ _ r tt batches _ eq_refl _ Er _ _ _ _); intros; try reflexivity.
    - unfold kernel_start. rewrite Ev. reflexivity.
    - unfold aggregate. rewrite Er. cbn [obind]. rewrite E. reflexivity.
  Qed.

  Theorem void_session s options batches :
    exists outs, session $"void" false s options batches = Ok (init_from_type $"n", outs, None) /\
      Forall2 (fun a out => exists b, out = Some b /\ nulls_array (aa_length a) b) batches outs.
  Proof.
    assert (P : forall j, exists outs, push_all j StVoid batches true = Ok (StVoid, outs) /\
      Forall2 (fun a out => exists b, out = Some b /\ nulls_array (aa_length a) b) batches outs).
    { induction batches as [|a l IH]; intros j; cbn [KernelStartSpec.push_all].
      - exists []. split; [reflexivity | constructor].
      - destruct (IH (S j)) as (outs & E & H). cbn [kernel_push]. change (0 =? 0) with true. cbn iota. rewrite E. cbn [obind].
        eexists. split; [reflexivity|]. constructor; [|exact H]. eexists. split; [reflexivity | repeat split]. }
    destruct (P 0%nat) as (outs & E & H). exists outs. split; [|exact H].
    unfold KernelStartSpec.session. change (kernel_init $"void") with (Ok NVoid). cbn [obind kernel_start negb]. rewrite E. reflexivity.
  Qed.
  Theorem void_agg_session s options batches :
    exists a, session $"void_agg" true s options batches = Ok (init_from_type $"n", repeat None (length batches), Some a) /\ nulls_array 1 a.
  Proof.
    assert (P : forall j, push_all j StVoidAgg batches false = Ok (StVoidAgg, repeat None (length batches))).
    { induction batches as [|a l IH]; intros j; cbn [KernelStartSpec.push_all length repeat]; [reflexivity|].
      cbn [kernel_push]. change (0 =? 0) with true. cbn iota. rewrite IH. reflexivity. }
    exists (null_array 1). split; [|repeat split].
    unfold KernelStartSpec.session. change (kernel_init $"void_agg") with (Ok NVoidAgg). cbn [obind kernel_start negb]. rewrite P. reflexivity.
  Qed.

  (** Kernels that give an output for every batch have none at the end. *)
  Definition element_wise (k : started) : bool :=
    match k with StVoid | StFormatWkt _ _ _ _ | StAsGeoarrow _ _ _ | StBox _ _ => true | _ => false end.
  Lemma start_element_wise name n s options k o : In name [$"void"; $"format_wkt"; $"as_geoarrow"; $"box"] -> kernel_init name = Ok n ->
    kernel_start print_double junk n s options = Ok (k, o) -> element_wise k = true.
  Proof.
    intros [<-|[<-|[<-|[<-|[]]]]] En; vm_compute in En; injection En as <-; unfold kernel_start; intros H;
      repeat match type of H with
      | obind ?m _ = _ => let x := fresh "x" in destruct m as [x| | |]; [|discriminate H ..]; cbn [obind] in H; try destruct x as [? ?]
      end; try (injection H as <- _; reflexivity).
    match goal with p : kernel awriter arrow_array * awriter |- _ => destruct p end. injection H as <- _. reflexivity.
  Qed.
  Lemma push_element_wise ws wb k a k' c o : element_wise k = true ->
    kernel_push parse print_double junk ws wb k a true = PRet k' c o -> element_wise k' = true.
  Proof.
    destruct k; intros E H; try discriminate E; cbn [kernel_push] in H;
      repeat match type of H with of_kres _ ?p = _ => destruct p; cbn [of_kres] in H end; try discriminate H; injection H as <- _ _; reflexivity.
  Qed.
  Lemma no_output_at_end name n s options k o j batches k' outs : In name [$"void"; $"format_wkt"; $"as_geoarrow"; $"box"] -> kernel_init name = Ok n ->
    kernel_start print_double junk n s options = Ok (k, o) -> push_all j k batches true = Ok (k', outs) -> kernel_finish k' true = Some (EINVAL, None).
  Proof.
    intros Hn En Es Hp. pose proof (start_element_wise _ _ _ _ _ _ Hn En Es) as E. clear - E Hp. revert j k outs E Hp.
    induction batches as [|a l IH]; intros j k outs E Hp; cbn [KernelStartSpec.push_all] in Hp.
    - injection Hp as <- _. destruct k; try discriminate E; reflexivity.
    - destruct (kernel_push _ _ _ _ _ k a true) as [k1 c o1| |] eqn:P; try discriminate Hp.
      destruct (c =? 0); [|discriminate Hp].
      destruct (push_all (S j) k1 l true) as [[k2 outs2]| | |] eqn:Q; try discriminate Hp.
      cbn [obind] in Hp. injection Hp as <- _. exact (IH _ _ _ (push_element_wise _ _ _ _ _ _ _ E P) Q).
  Qed.
  Lemma void_agg_output s options a batches : session $"void_agg" false s options (a :: batches) = Err EINVAL.
  Proof. reflexivity. Qed.
End Push.
