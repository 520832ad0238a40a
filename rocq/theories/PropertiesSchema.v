(** * C36 and C52: schemas *)
From Verif Require Import Base Text TypesSpec MetadataModel MetadataSpec MetadataWriting SchemaModel SchemaSpec SchemaMetadata SchemaProofs SchemaRecognised SchemaViews.
Local Open Scope Z_scope.

(** ** C36 *)

(** Every existing type: the schema that is created has the storage of the type and exactly two entries of metadata, the
    extension name and empty extension metadata; the view of that schema shows the type, its parts, the name and the
    metadata. *)
Theorem C36_created : forall t, exists_type t -> exists s v,
  schema_init_extension (type_id t) = Ok s /\ stored t s /\
  holds (sc_metadata s) [($"ARROW:extension:name", type_name t); ($"ARROW:extension:metadata", $"{}")] /\
  schema_view_init s = Ok v /\ shows v t /\ viewed (gv_name v) (Some (type_name t)) /\ viewed (gv_metadata v) (Some $"{}").
Proof. exact created_view. Qed.
Print Assumptions C36_created.
Example C36_created_ex : exists_type (Native KBox XYZ Separate) /\ type_id (Native KBox XYZ Separate) = 1990 /\
  exists_type (Native KMultipolygon XYM Interleaved) /\ type_id (Native KMultipolygon XYM Interleaved) = 12006 /\
  exists_type (Serialized Wkt View).
Proof. repeat split; discriminate. Qed.

(** No schema is created for an integer that is not the id of an existing type. *)
Theorem C36_unsupported : forall z, (forall t, exists_type t -> type_id t <> z) -> schema_init_extension z = Err EINVAL.
Proof. exact unsupported. Qed.
Print Assumptions C36_unsupported.
Example C36_unsupported_ex : forall t, exists_type t -> type_id t <> 10990.
Proof. intros t He. destruct t as [k d l|[] []]; try discriminate. destruct k, d, l; try discriminate. specialize (He eq_refl). discriminate. Qed.

(** A view made from the type alone agrees. *)
Theorem C36_from_type : forall t, exists_type t -> exists v,
  schema_view_init_from_type (type_id t) = Ok v /\ shows v t /\ viewed (gv_name v) (Some (type_name t)) /\ gv_metadata v = None.
Proof. exact from_type. Qed.
Print Assumptions C36_from_type.

(** Every well-formed schema, whose key-value metadata hold the entries [es]: viewing it succeeds or fails with EINVAL; it
    is recognised as a type exactly when its extension name is the name of the type and its storage is the storage of the
    type; the view shows the extension name and the extension metadata of the entries.
    Missing: names that only begin with "geoarrow.wkb", for which the claim is false. *)
Theorem C36_recognised_partial : forall s es, well_formed s -> holds (sc_metadata s) es ->
  (forall name, value_of $"ARROW:extension:name" es = Some name -> firstn 12 name = $"geoarrow.wkb" -> name = $"geoarrow.wkb") ->
  (schema_view_init s = Err EINVAL \/ exists v, schema_view_init s = Ok v) /\
  (forall t, (exists v, schema_view_init s = Ok v /\ shows v t) <->
     exists_type t /\ value_of $"ARROW:extension:name" es = Some (type_name t) /\ stored t s) /\
  (forall v, schema_view_init s = Ok v ->
     (exists t, exists_type t /\ shows v t) /\
     viewed (gv_name v) (value_of $"ARROW:extension:name" es) /\
     viewed (gv_metadata v) (value_of $"ARROW:extension:metadata" es)).
Proof.
  intros s es W H N. destruct (view_init_spec s es W H) as (Q & V1 & V2). split; [destruct Q; auto|]. split; [|exact V2].
  intros t. rewrite V1. split.
  - intros (He & (b & Hb & Ht) & Hs). split; [exact He|]. split; [|exact Hs]. refine (eq_trans Hb _). f_equal.
    destruct t as [k d l|[] w]; cbn [taken type_name] in *; try exact Ht. exact (N b Hb Ht).
  - intros (He & Hb & Hs). split; [exact He|]. split; [|exact Hs]. exists (type_name t). split; [exact Hb | apply taken_name].
Qed.
Print Assumptions C36_recognised_partial.
Example C36_recognised_ex : exists s es, well_formed s /\ holds (sc_metadata s) es /\
  (forall name, value_of $"ARROW:extension:name" es = Some name -> firstn 12 name = $"geoarrow.wkb" -> name = $"geoarrow.wkb") /\
  stored (Native KPolygon XYZM Interleaved) s.
Proof.
  destruct (created (Native KPolygon XYZM Interleaved)) as (s & _ & W & S & H); [discriminate|]. exists s. eexists.
  split; [exact W|]. split; [exact H|]. split; [|exact S]. intros name [= <-] E. vm_compute in E. discriminate.
Qed.

(** The same when the extension name is given beside the schema. *)
Theorem C36_from_storage_partial : forall s view name, well_formed s ->
  sv_bytes view = Some name -> sv_size view = Z.of_nat (length name) ->
  (firstn 12 name = $"geoarrow.wkb" -> name = $"geoarrow.wkb") ->
  (schema_view_init_from_storage s view = Err EINVAL \/ exists v, schema_view_init_from_storage s view = Ok v) /\
  (forall t, (exists v, schema_view_init_from_storage s view = Ok v /\ shows v t) <->
     exists_type t /\ name = type_name t /\ stored t s).
Proof.
  intros s view name W H1 H2 N. destruct (from_storage_spec s view name W (conj H1 H2)) as (Q & V1 & _). split; [destruct Q; auto|].
  intros t. rewrite V1. split; intros (He & Ht & Hs); (split; [exact He | split; [|exact Hs]]).
  - destruct t as [k d l|[] w]; cbn [taken type_name] in *; try exact Ht. exact (N Ht).
  - rewrite Ht. apply taken_name.
Qed.
Print Assumptions C36_from_storage_partial.
Example C36_from_storage_ex : exists view, sv_bytes view = Some $"geoarrow.wkb" /\ sv_size view = Z.of_nat (length $"geoarrow.wkb").
Proof. exists (StrView $"a geoarrow.wkb b" 2 12). split; vm_compute; reflexivity. Qed.

(** Another extension name is recognised as WKB. *)
Theorem C36_refuted : exists s es v, well_formed s /\ holds (sc_metadata s) es /\
  value_of $"ARROW:extension:name" es = Some $"geoarrow.wkbx" /\ schema_view_init s = Ok v /\ shows v (Serialized Wkb Regular).
Proof.
  destruct wkbx_recognised as (v & E & S). exists wkbx, [(name_key, $"geoarrow.wkbx")], v.
  split; [exact wkbx_well_formed|]. split; [|auto].
  split; [|exists []; rewrite app_nil_r; reflexivity]. split; [reflexivity|]. constructor; [split; reflexivity | constructor].
Qed.
Print Assumptions C36_refuted.
(** A fixed-size list whose size does not fit 32 bits is recognised by the lower bits of its size. *)
Theorem C36_size_refuted : exists s v, sc_format s = Some $"+w:4294967298" /\ schema_view_init s = Ok v /\
  shows v (Native KPoint XY Interleaved).
Proof. destruct huge_recognised as (v & E & S). exists huge, v. split; [reflexivity | auto]. Qed.
Print Assumptions C36_size_refuted.

(** ** C52 *)

(** Setting the extension metadata of a schema: only the key-value metadata of the schema change; afterwards they hold
    exactly one entry of extension metadata and, in the same order, all the other entries they held before; the new entry is
    text that reads back as the given metadata; and if the schema was recognised as a type, it is recognised as the same
    type. Missing: a CRS that is neither JSON text nor free of backslashes, for which the claim is false. *)
Theorem C52_set_partial : forall s es m, holds (sc_metadata s) es -> Z.of_nat (length es) < 2147483647 ->
  0 <= m_edges m <= 5 -> 0 <= m_crs_type m <= 5 ->
  (m_crs_type m = CRS_NONE \/ carried_crs (m_crs m)) -> Z.of_nat (length (m_crs m)) <= 1000000000 ->
  exists md es' text,
    schema_set_geoarrow_metadata s m = Ok (with_metadata s (Some md)) /\ holds (Some md) es' /\
    others $"ARROW:extension:metadata" es' = others $"ARROW:extension:metadata" es /\
    filter (fun e => same_text (fst e) $"ARROW:extension:metadata") es' = [($"ARROW:extension:metadata", text)] /\
    (forall past fuel, (length text < fuel)%nat -> exists crs,
      metadata_view_init past fuel text = Ok (Metadata (m_edges m) (m_crs_type m) crs) /\
      (m_crs_type m <> CRS_NONE ->
         if starts 34 (m_crs m) || starts 123 (m_crs m) then crs = m_crs m
         else forall o k, 0 <= k <= Z.of_nat (length o) ->
                exists o', unescape_crs crs (Some o) k = Ok (Z.of_nat (length (m_crs m)), Some o') /\ filled o k (m_crs m) o')) /\
    (forall t v, well_formed s -> schema_view_init s = Ok v -> shows v t ->
      exists v', schema_view_init (with_metadata s (Some md)) = Ok v' /\ shows v' t /\
        viewed (gv_name v') (value_of $"ARROW:extension:name" es) /\ viewed (gv_metadata v') (Some text)).
Proof. exact set_spec. Qed.
Print Assumptions C52_set_partial.
Example C52_set_ex : exists s, holds (sc_metadata s) [($"a", $"b"); ($"ARROW:extension:metadata", $"c")] /\
  (CRS_PROJJSON = CRS_NONE \/ carried_crs $"EPSG:4326").
Proof.
  exists (Schema false (Some $"z") None (Some (metadata_bytes [($"a", $"b"); ($"ARROW:extension:metadata", $"c")] ++ [7%N])) 2 [] None).
  split; [split; [split; [reflexivity | repeat constructor] | eexists; reflexivity]|]. right. right.
  split; [vm_compute; intuition discriminate | reflexivity].
Qed.

(** The same when the metadata come from another schema: the entry is the extension metadata of the source, or empty when it
    has none. A source that is not a valid schema is refused. *)
Theorem C52_set_from : forall s es source es0, holds (sc_metadata s) es -> Z.of_nat (length es) < 2147483647 ->
  well_formed source -> holds (sc_metadata source) es0 ->
  let text := match value_of $"ARROW:extension:metadata" es0 with Some t => t | None => [] end in
  schema_set_geoarrow_metadata_from s source = Err EINVAL \/
  exists md es',
    schema_set_geoarrow_metadata_from s source = Ok (with_metadata s (Some md)) /\ holds (Some md) es' /\
    others $"ARROW:extension:metadata" es' = others $"ARROW:extension:metadata" es /\
    filter (fun e => same_text (fst e) $"ARROW:extension:metadata") es' = [($"ARROW:extension:metadata", text)] /\
    (forall t v, well_formed s -> schema_view_init s = Ok v -> shows v t ->
      exists v', schema_view_init (with_metadata s (Some md)) = Ok v' /\ shows v' t /\
        viewed (gv_name v') (value_of $"ARROW:extension:name" es) /\ viewed (gv_metadata v') (Some text)).
Proof. exact set_from_spec. Qed.
Print Assumptions C52_set_from.
(** It succeeds for every source that is recognised as a GeoArrow type. *)
Theorem C52_set_from_succeeds : forall s es source v, holds (sc_metadata s) es -> Z.of_nat (length es) < 2147483647 ->
  well_formed source -> schema_view_init source = Ok v ->
  exists s', schema_set_geoarrow_metadata_from s source = Ok s'.
Proof. exact set_from_succeeds. Qed.
Print Assumptions C52_set_from_succeeds.
Example C52_set_from_ex : exists source v, well_formed source /\ schema_view_init source = Ok v /\
  holds (sc_metadata source) [($"ARROW:extension:name", $"geoarrow.multipoint"); ($"ARROW:extension:metadata", $"{}")].
Proof.
  destruct (created (Native KMultipoint XYM Separate)) as (s & E & W & S & H); [discriminate|].
  destruct (created_view (Native KMultipoint XYM Separate)) as (s' & v & E' & _ & _ & V & _); [discriminate|].
  rewrite E in E'. injection E' as <-. exists s, v. auto.
Qed.

(** With a backslash in the CRS, bytes that were never written become part of the metadata. *)
Theorem C52_refuted : exists s m, well_formed s /\ 0 <= m_edges m <= 5 /\ 0 <= m_crs_type m <= 5 /\
  schema_set_geoarrow_metadata s m = UB.
Proof.
  exists wkbx, (Metadata 0 1 [97; 92; 98]%N). split; [exact wkbx_well_formed|]. repeat split; try discriminate.
Qed.
Print Assumptions C52_refuted.
