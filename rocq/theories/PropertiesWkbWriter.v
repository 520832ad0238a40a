(** * C07 to C12: the WKB writer *)
From Verif Require Import Base TypesModel GeomSpec WkbSpec NodesModel NodesSpec VisitorModel VisitorSpec WkbReaderModel
  BufferModel BufferFacts ArraySpec WkbWriterModel WkbWriterSpec WkbWriterProofs WkbWriterHistory WkbWriterSafety
  WkbRoundTrip WkbWriterRefuted PropertiesVisit.
Local Open Scope Z_scope.

(** ** C07 *)

(** The full property is false: appending a linestring of 2^31 coordinates (which fit in sixteen bytes, because strides may
    be 0) writes outside the output buffer. *)
Theorem C07_huge_sequence_refuted : exists m nodes g, repr_geom m 0 nodes g /\ wf_geom g /\
  wkb_append m nodes wkb_init = VUB.
Proof. exact (ex_intro _ shared_mem (ex_intro _ [shared_node] (ex_intro _ shared_line
  (conj shared_repr (conj shared_wf shared_append_ub))))). Qed.
Print Assumptions C07_huge_sequence_refuted.

(** What holds: geometries whose sequences have fewer than 2^32 ordinates each, appended to a writer in any state whose
    buffer has [size <= capacity]. *)
Theorem C07_append_partial : forall m lvl nodes g s,
  repr_geom m lvl nodes g -> wf_geom g -> small_geom g -> buf_ok (w_values s) ->
  exists s', wkb_append m nodes s = VRet s' 0 /\
    b_data (w_values s') = b_data (w_values s) ++ iso_wkb g /\
    w_offsets s' = w_offsets s ++ [to_int32 (b_size (w_values s))] /\ w_length s' = w_length s + 1.
Proof.
  exact (fun m lvl nodes g s Hr Hwf Hs Hok =>
    match append_ok m lvl nodes g s Hr Hwf Hs Hok with
    | ex_intro _ s' (conj E A) => ex_intro _ s' (conj E (conj (ad_data _ _ _ A) (conj (ad_offsets _ _ _ A) (ad_length _ _ _ A))))
    end).
Qed.
Print Assumptions C07_append_partial.

Example C07_ex : repr_geom C13_mem 0 C13_nodes C13_geom /\ wf_geom C13_geom /\ small_geom C13_geom /\
  exists s', wkb_append C13_mem C13_nodes wkb_init = VRet s' 0 /\ length (b_data (w_values s')) = 79%nat.
Proof.
  split; [apply C13_ex|]. split; [apply C13_ex|]. split; [repeat constructor|]. eexists. split; vm_compute; reflexivity.
Qed.

(** ** C08 *)

Theorem C08_visitor : forall g evs s,
  geom_events g evs -> wf_geom g -> (nesting g <= 30)%nat -> b_size (w_values s) < 2 ^ 31 -> buf_ok (w_values s) ->
  exists s', feed wkb_step s ([EFeatStart] ++ evs ++ [EFeatEnd]) = Some (s', 0) /\
    b_data (w_values s') = b_data (w_values s) ++ iso_wkb g /\
    w_offsets s' = w_offsets s ++ [to_int32 (b_size (w_values s))] /\ w_length s' = w_length s + 1.
Proof.
  exact (fun g evs s He Hwf Hn Hsz Hok =>
    match visit_feature_ok s (Some g) _ (fe_geom g evs He)
      (fun g' E => match E in (_ = o) return (match o with Some h => wf_geom h /\ (nesting h <= 30)%nat | None => True end)
                   with eq_refl => conj Hwf Hn end) (proj1 (Z.lt_succ_r _ 2147483647) Hsz) Hok with
    | ex_intro _ s' (conj E A) => ex_intro _ s' (conj E (conj (ad_data _ _ _ A) (conj (ad_offsets _ _ _ A) (ad_length _ _ _ A))))
    end).
Qed.
Print Assumptions C08_visitor.

(** Deeper geometries, and features that start beyond the reach of 32-bit offsets, are refused. *)
Theorem C08_too_deep : forall g evs s,
  geom_events g evs -> wf_geom g -> (30 < nesting g)%nat -> b_size (w_values s) < 2 ^ 31 -> buf_ok (w_values s) ->
  exists s', feed wkb_step s ([EFeatStart] ++ evs ++ [EFeatEnd]) = Some (s', EINVAL).
Proof.
  exact (fun g evs s He Hwf Hn Hsz Hok =>
    visit_too_deep s g _ (fe_geom g evs He) Hwf Hn (proj1 (Z.lt_succ_r _ 2147483647) Hsz) Hok).
Qed.
Print Assumptions C08_too_deep.

Theorem C08_too_big : forall f evs s, feature_events f evs -> 2 ^ 31 <= b_size (w_values s) ->
  exists s', feed wkb_step s evs = Some (s', EOVERFLOW).
Proof. exact (fun f evs s He Hsz => visit_overflow s f evs He (proj1 (Z.le_succ_l 2147483647 _) Hsz)). Qed.
Print Assumptions C08_too_big.

(** The three coordinates of a ring in two batches and an empty one. *)
Definition C08_events : list event :=
  [EGeomStart 7 1; EGeomStart 3 1; ERingStart; ECoords 2 [[1; 2]]%N; ECoords 2 []; ECoords 2 [[3; 4]; [1; 2]]%N; ERingEnd;
   EGeomEnd; EGeomStart 2 2; EGeomEnd; EGeomEnd].
Example C08_ex : geom_events C13_geom C08_events /\ wf_geom C13_geom /\ (nesting C13_geom <= 30)%nat /\
  b_size (w_values wkb_init) < 2 ^ 31 /\ buf_ok (w_values wkb_init).
Proof.
  split; [|split; [apply C13_ex|split; [cbn; lia|split; [reflexivity|vm_compute; discriminate]]]].
  apply (ge_coll CCollection XY _ (firstn 9 (skipn 1 C08_events))).
  apply (pe_cons _ _ (firstn 7 (skipn 1 C08_events)) (firstn 2 (skipn 8 C08_events))).
  - apply (ge_poly XY _ (firstn 5 (skipn 2 C08_events))).
    apply (re_ring XY _ [] (firstn 3 (skipn 3 C08_events)) []); [|constructor].
    apply (se_batch XY [[1; 2]%N]), (se_batch XY []), (se_batch XY [[3; 4]; [1; 2]]%N []). constructor.
  - apply (pe_cons _ _ (firstn 2 (skipn 8 C08_events)) []); [|constructor]. apply (ge_line XYZ [] []). constructor.
Qed.
(** Thirty-one nested collections. *)
Fixpoint C08_tower (n : nat) : geom := match n with O => GPoint XY [] | S n => GColl CCollection XY [C08_tower n] end.
Example C08_deep_ex : geom_events (C08_tower 30) (canon_events (C08_tower 30)) /\ wf_geom (C08_tower 30) /\
  (30 < nesting (C08_tower 30))%nat /\
  exists s', feed wkb_step wkb_init ([EFeatStart] ++ canon_events (C08_tower 30) ++ [EFeatEnd]) = Some (s', EINVAL).
Proof.
  split; [apply GeomFacts.canon_events_ok|]. split; [repeat constructor|]. split; [vm_compute; lia|]. eexists. vm_compute. reflexivity.
Qed.

(** ** C09 *)

(** Whatever was written before, the bytes that an operation (visitor calls or append) adds for [g] read back as [g], an
    empty point having become a point of NaNs. *)
Theorem C09_write_read : forall op g s s' rest swap0,
  writes op (Some g) -> buf_ok (w_values s) -> run_op s op = Some (s', 0) ->
  (levels g <= 256)%nat -> b_size (w_values s') < 2 ^ 31 ->
  exists b nodes, b_data (w_values s') = b_data (w_values s) ++ b /\ b = iso_wkb g /\
    wkb_read_from (b ++ rest) swap0 = Ok nodes /\ repr_geom (wkb_mem (b ++ rest)) 0 nodes (nan_points g).
Proof. exact written_reads_back. Qed.
Print Assumptions C09_write_read.

Example C09_ex : writes (OpAppend C13_mem C13_nodes) (Some C13_geom) /\
  writes (OpVisit ([EFeatStart] ++ C08_events ++ [EFeatEnd])) (Some C13_geom) /\ (levels C13_geom <= 256)%nat.
Proof.
  split; [|split; [|cbn; lia]].
  - apply (wr_append _ 0%N); [apply C13_ex|apply C13_ex|repeat constructor].
  - apply wr_visit; [apply fe_geom, C08_ex|]. intros g E. injection E as <-. apply C13_ex.
Qed.

(** ** C10 *)

(** From a new or just finished writer, after any successful operations delivering the features [fs], Finish gives the
    array of their encodings (and a writer that again holds nothing), or EOVERFLOW when they do not fit. *)
Theorem C10_history : forall ops fs s s', clean s -> Forall2 writes ops fs -> run_ops s ops = Some (s', 0) ->
  (total_size fs < 2 ^ 31 -> exists s'' a, wkb_finish s' = (s'', 0, Some a) /\ array_holds a (map feature_wkb fs) /\ clean s'') /\
  (2 ^ 31 <= total_size fs -> wkb_finish s' = (s', EOVERFLOW, None)).
Proof. exact wkb_history. Qed.
Print Assumptions C10_history.

Definition C10_ops : list wkb_op :=
  [OpVisit ([EFeatStart] ++ C08_events ++ [EFeatEnd]); OpAppendNull; OpVisit [EFeatStart; ENullFeat; EFeatEnd];
   OpAppend C13_mem C13_nodes].
Example C10_ex : clean wkb_init /\ Forall2 writes C10_ops [Some C13_geom; None; None; Some C13_geom] /\
  (exists s', run_ops wkb_init C10_ops = Some (s', 0)) /\ total_size [Some C13_geom; None; None; Some C13_geom] = 158.
Proof.
  split; [split; reflexivity|]. split; [|split; [eexists; vm_compute; reflexivity|reflexivity]].
  constructor; [apply C09_ex|]. constructor; [constructor|]. constructor; [apply wr_visit; [constructor|discriminate]|].
  constructor; [apply C09_ex|constructor].
Qed.

(** ** C11 *)

(** The full property is false. After a failed append, the next feature's element is empty: its bytes are outside the
    array's elements ... *)
Theorem C11_append_refuted : exists m bad nodes g s1 s2 s3 a, repr_geom m 0 nodes g /\ wf_geom g /\
  run_op wkb_init (OpAppend m bad) = Some (s1, EINVAL) /\ run_op s1 (OpAppend m nodes) = Some (s2, 0) /\
  wkb_finish s2 = (s3, 0, Some a) /\ ba_length a = 1 /\ element a 0 = Some [] /\ iso_wkb g <> [].
Proof.
  destruct failed_append_shifts as (s1 & s2 & s3 & a & H1 & H2 & H3 & H4 & H5).
  exists nan_mem, [bad_node], [line_node], (GLine XY []), s1, s2, s3, a.
  split; [exact line_repr|]. split; [repeat constructor|]. do 5 (split; [assumption|]). discriminate.
Qed.
Print Assumptions C11_append_refuted.

(** ... and after a visit that stopped part-way (its reader failed), later validity bits are missing. *)
Theorem C11_visit_refuted : exists m nodes g s1 s2 s3 s4 a, repr_geom m 0 nodes g /\ wf_geom g /\
  run_op wkb_init OpAppendNull = Some (s1, 0) /\ run_op s1 (OpVisit [EFeatStart; EGeomStart 2 1]) = Some (s2, 0) /\
  run_op s2 (OpAppend m nodes) = Some (s3, 0) /\ wkb_finish s3 = (s4, 0, Some a) /\
  ba_length a = 3 /\ element a 2 = Some (iso_wkb g) /\ is_valid a 2 = None.
Proof.
  destruct failed_visit_shifts as (s1 & s2 & s3 & s4 & a & H1 & H2 & H3 & H4 & H5 & H6 & H7).
  exists nan_mem, [line_node], (GLine XY []), s1, s2, s3, s4, a.
  split; [exact line_repr|]. split; [repeat constructor|]. repeat (split; [assumption|]). assumption.
Qed.
Print Assumptions C11_visit_refuted.

(** What holds: whatever operations follow, failing or not (visitor calls being properly nested as far as they go), the
    features written before keep their elements. Missing: the features after a failed operation. *)
Theorem C11_earlier_features_partial : forall ops1 fs s s1 ops2 s2 s3 a,
  clean s -> Forall2 writes ops1 fs -> run_ops s ops1 = Some (s1, 0) ->
  Forall obeys ops2 -> run_all s1 ops2 = Some s2 -> wkb_finish s2 = (s3, 0, Some a) ->
  forall i f, nth_error fs i = Some f ->
    element a i = Some (match feature_wkb f with Some b => b | None => [] end) /\
    is_valid a i = Some (match f with Some _ => true | None => false end).
Proof. exact earlier_features. Qed.
Print Assumptions C11_earlier_features_partial.

Definition C11_later : list wkb_op :=
  [OpAppend nan_mem [bad_node]; OpVisit [EFeatStart; EGeomStart 2 1]; OpAppendNull].
Example C11_ex : Forall obeys C11_later /\
  match run_ops wkb_init C10_ops with
  | Some (s1, c) => c = 0 /\
      match run_all s1 C11_later with
      | Some s2 => match wkb_finish s2 with (_, code, Some a) => code = 0 /\ ba_length a = 6 | _ => False end
      | None => False
      end
  | None => False
  end.
Proof.
  split; [|vm_compute; auto]. repeat constructor. exists [EGeomEnd; EFeatEnd]. reflexivity.
Qed.

(** ** C12 *)

(** The full property is false: one geom_end too many reads an entry that was never written. *)
Theorem C12_unbalanced_refuted : feed wkb_step wkb_init [EFeatStart; EGeomStart 1 1; EGeomEnd; EGeomEnd] = None.
Proof. exact extra_geom_end_ub. Qed.
Print Assumptions C12_unbalanced_refuted.

(** What holds: in any state, calls that are properly nested as far as they go never touch memory they should not.
    Missing: improperly nested calls. *)
Theorem C12_nested_partial : forall s evs, nested_prefix evs -> feed wkb_step s evs <> None.
Proof. exact wkb_nested_safe. Qed.
Print Assumptions C12_nested_partial.

Example C12_ex : nested_prefix [EFeatStart; EGeomStart 9 77; ERingStart; EGeomStart 1 5] -> False.
Proof. intros [rest H]. discriminate. Qed.
Example C12_ex2 : nested_prefix [EFeatStart; EGeomStart 9 77; ERingStart; ERingEnd; EGeomStart 1 5; EGeomEnd].
Proof. exists [EGeomEnd; EFeatEnd]. reflexivity. Qed.
