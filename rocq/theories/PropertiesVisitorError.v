(** * C79: the messages of the visitors that write *)
From Verif Require Import Base Text TypesModel TypesSpec GeomSpec VisitorModel VisitorSpec GeomFacts BuilderSpec BufferModel NativeSpec
  NativeWriterModel NativeWriterSpec NativeVisitorSpec NativeRoundTrip WktWriterModel VisitorErrorModel VisitorErrorSpec VisitorErrorProofs.
Local Open Scope Z_scope.

(** [junk] is the contents of newly allocated memory, [print_double] the number printer of the WKT writer, [before] the message before. *)
Notation native_type k l d := (make_type (geometry_kind_code k) (dim_code d) (layout_code l)).

(** ** C79 *)

(** After any features [gs] that an array holds, a feature that it cannot hold is refused with EINVAL, and the message is true of it.
    Missing: arrays of multipoints (C79_multipoint_refuted); too many coordinates (C79_exact: nothing is said). *)
Theorem C79_message_partial : forall junk k l d v w gs els evs g e before, (forall i j, is_byte (junk i j)) -> k <> KBox -> k <> KMultipoint ->
  native_visitor junk (geometry_kind_code k) = Some v -> writer_init junk (native_type k l d) = Ok w ->
  features_events gs evs -> visited_as k d gs els -> Forall (feature_for k) gs -> has_room k d gs ->
  deliverable k g -> wf_geom g -> feature_events (Some g) e -> visited k d g = None ->
  (k = KPoint \/ Z.of_nat (length (feature_coords d (gs ++ [Some g]))) <= 2147483647) ->
  exists w' text r, feed v w (evs ++ e) = Some (w', EINVAL) /\
    feed_message v (native_message (geometry_kind_code k)) w (evs ++ e) before = text ++ [0%N] ++ r /\ feature_complaint k d g text.
Proof. exact (fun junk k l d v w gs els evs g e before Hj Hk Hm H1 H2 H3 H4 H5 H6 H7 H8 H9 Hn Hr =>
  refused_said junk Hj k l d Hk v w gs els evs g e before H1 H2 H3 H4 H5 H6 H7 H8 H9 Hn Hr Hm). Qed.
Print Assumptions C79_message_partial.

(** Two linestrings for an array of linestrings, after a null and a linestring; a linestring for an array of points. *)
Example C79_ex :
  let gs := [None; Some (GLine XYZ [[1; 2; 3]; [4; 5; 6]])]%N in
  let two := (GColl CMultilinestring XY [GLine XY [[1; 2]]; GLine XY [[3; 4]; [5; 6]]])%N in
  features_events gs (flat_map canon_feature gs) /\ visited_as KLinestring XY gs [None; Some [[1; 2]; [4; 5]]]%N /\
  Forall (feature_for KLinestring) gs /\ has_room KLinestring XY gs /\ deliverable KLinestring two /\ wf_geom two /\
  feature_events (Some two) (canon_feature (Some two)) /\ visited KLinestring XY two = None /\ visited KMultipoint XY two = None /\
  Z.of_nat (length (feature_coords XY (gs ++ [Some two]))) <= 2147483647 /\
  visited KPoint XY (GLine XY [[1; 2]; [3; 4]])%N = None.
Proof.
  cbv zeta. split; [repeat first [apply fes_nil|apply fes_cons]; first [apply fe_null|apply (fe_geom _ (canon_events _)); apply canon_events_ok]|].
  split; [repeat constructor|]. split.
  { constructor; [exact I|]. constructor; [|constructor]. split; [right; apply mo_leaf; left; exact I | repeat constructor]. }
  split; [right; split; vm_compute; (discriminate || reflexivity)|]. split.
  { right. apply mo_coll; [discriminate|]. intros p [<-|[<-|[]]]; apply mo_leaf; left; exact I. }
  split; [repeat constructor|]. split; [apply (fe_geom _ (canon_events _)); apply canon_events_ok|].
  repeat split; vm_compute; discriminate.
Qed.

(** A feature with more than one sequence is refused in an array of multipoints as well, and the message speaks of another type. *)
Theorem C79_multipoint_refuted : forall junk l d v w gs els evs g e before, (forall i j, is_byte (junk i j)) ->
  native_visitor junk (geometry_kind_code KMultipoint) = Some v -> writer_init junk (native_type KMultipoint l d) = Ok w ->
  features_events gs evs -> visited_as KMultipoint d gs els -> Forall (feature_for KMultipoint) gs -> has_room KMultipoint d gs ->
  deliverable KMultipoint g -> wf_geom g -> feature_events (Some g) e -> visited KMultipoint d g = None ->
  Z.of_nat (length (feature_coords d (gs ++ [Some g]))) <= 2147483647 ->
  exists w' r, feed v w (evs ++ e) = Some (w', EINVAL) /\
    feed_message v (native_message (geometry_kind_code KMultipoint)) w (evs ++ e) before = $"Can't convert feature with >1 sequence to LINESTRING" ++ [0%N] ++ r.
Proof. exact (fun junk l d v w gs els evs g e before Hj => multipoint_said junk Hj KMultipoint l d ltac:(discriminate) v w gs els evs g e before eq_refl). Qed.
Print Assumptions C79_multipoint_refuted.

(** Whatever is fed to a visitor of the writer of native arrays: the message changes exactly when it returns EINVAL, which only those for
    points, linestrings and multipoints do. *)
Theorem C79_exact : forall junk g v evs w w' c before, native_visitor junk g = Some v -> feed v w evs = Some (w', c) ->
  (c = EINVAL -> g = GT_POINT /\ (exists r, feed_message v (native_message g) w evs before = $"Can't convert feature with >1 coordinate to POINT" ++ [0%N] ++ r) \/
    (g = GT_LINESTRING \/ g = GT_MULTIPOINT) /\
    (exists r, feed_message v (native_message g) w evs before = $"Can't convert feature with >1 sequence to LINESTRING" ++ [0%N] ++ r)) /\
  (c <> EINVAL -> feed_message v (native_message g) w evs before = before).
Proof. exact native_exact. Qed.
Print Assumptions C79_exact.
Example C79_exact_ex : exists w w1 w2, writer_init (fun _ _ => 0%N) (native_type KPoint Separate XY) = Ok w /\
  feed (point_visitor (fun _ _ => 0%N)) w (canon_feature (Some (GPoint XY [[1; 2]]%N))) = Some (w1, 0) /\
  feed (point_visitor (fun _ _ => 0%N)) w (canon_feature (Some (GLine XY [[1; 2]; [3; 4]]%N))) = Some (w2, EINVAL).
Proof.
  let r := eval vm_compute in (writer_init (fun _ _ => 0%N) (native_type KPoint Separate XY)) in match r with Ok ?w => exists w end.
  eexists. eexists. split; [vm_compute; reflexivity|]. split; vm_compute; reflexivity.
Qed.

(** Whatever is fed to the WKT writer, in any state: the message is what it was, or the start of a geometry has been refused with EINVAL
    and the message is true of its type or its dimensions. *)
Theorem C79_wkt : forall print_double cfg evs s s' c before, feed (wkt_step print_double cfg) s evs = Some (s', c) ->
  feed_message (wkt_step print_double cfg) wkt_message s evs before = before \/
  exists evs1 s1 t d evs2 text r, evs = evs1 ++ EGeomStart t d :: evs2 /\ feed (wkt_step print_double cfg) s evs1 = Some (s1, 0) /\ c = EINVAL /\
    start_of_geometry t d text /\ feed_message (wkt_step print_double cfg) wkt_message s evs before = text ++ [0%N] ++ r.
Proof. exact wkt_said. Qed.
Print Assumptions C79_wkt.

(** A feature whose geometry is of no type or has no dimensions is refused, and the message says so. *)
Theorem C79_wkt_told : forall print_double cfg s t d before, b_size (k_values s) <= 2147483647 -> (t < 1 \/ 7 < t)%N \/ (d < 1 \/ 4 < d)%N ->
  exists s' text r, feed (wkt_step print_double cfg) s [EFeatStart; EGeomStart t d] = Some (s', EINVAL) /\
    feed_message (wkt_step print_double cfg) wkt_message s [EFeatStart; EGeomStart t d] before = text ++ [0%N] ++ r /\ start_of_geometry t d text.
Proof. exact wkt_top. Qed.
Print Assumptions C79_wkt_told.
Example C79_wkt_ex : b_size (k_values wkt_init) <= 2147483647 /\ (7 < 8)%N /\ ~ start_of_geometry 7 4 $"WKTWriter::geom_start(): Unexpected `dimensions`".
Proof. split; [discriminate|]. split; [reflexivity|]. intros H. inversion H as [|[H1|H1]]; discriminate H1. Qed.

(** Geometries that are nested too deeply are refused without a word. *)
Theorem C79_deep_refuted : forall print_double cfg before, exists s',
  feed (wkt_step print_double cfg) wkt_init (EFeatStart :: repeat (EGeomStart 7 1) 33) = Some (s', EINVAL) /\
  feed_message (wkt_step print_double cfg) wkt_message wkt_init (EFeatStart :: repeat (EGeomStart 7 1) 33) before = before.
Proof. intros print_double cfg before. eexists. split; vm_compute; reflexivity. Qed.
Print Assumptions C79_deep_refuted.
