(** * C73: geometries that a native array does not take *)
From Verif Require Import Base Text TypesModel GeomSpec VisitorModel ArrowModel NativeSpec NodesModel NodesSpec CopyCoordsModel CopyCoordsSpec
  BuilderModel BuilderSpec NativeWriterModel NativeWriterSpec NativeWriterRun NativeRoundTripSpec NativeOfferModel NativeOfferSpec NativeOfferProofs.
Local Open Scope Z_scope.

Notation native_type k l d := (make_type (geometry_kind_code k) (dim_code d) (layout_code l)).

(** Whatever geometries and nulls are offered to a writer with GeoArrowNativeWriterAppend, in any order, for any number of arrays:
    each that the array takes is answered with 0, and each that it does not take with EINVAL and a message that says truthfully why
    not; and each array is that of the ones that it took. Missing: lists of 2^31 entries and more, for which it is false. *)
Theorem C73_offers_partial : forall junk k l d batches gss, (forall i j, is_byte (junk i j)) -> k <> KBox ->
  Forall2 (Forall2 (denotes d)) batches gss -> Forall (Forall (fun g => match g with Some g => proper g | None => True end)) gss ->
  Forall (fun gs => total_small (n_lists k) (map (element k d) (left_of k d gs))) gss ->
  exists w results, writer_init junk (native_type k l d) = Ok w /\ offer_arrays junk w batches = Ok results /\
    Forall2 (fun gs r => all_answered k d gs (fst r) (left_of k d gs) /\ reads_as k l d (shown k d (left_of k d gs)) (snd r)) gss results.
Proof. exact (fun junk k l d batches gss Hj Hk => offers_ok junk Hj k l d Hk batches gss). Qed.
Print Assumptions C73_offers_partial.

(** To an array of linestrings: a polygon, which is refused, and a null. *)
Example C73_ex :
  Forall2 (denotes XY) [Some (one_coord, [poly_node; ring_node 3]); None] [Some (still 3); None] /\ proper (still 3) /\
  left_of KLinestring XY [Some (still 3); None] = [None] /\
  reason KLinestring (still 3) $"Can't append POLYGON to array of type LINESTRING" /\
  reason KPolygon (GColl CMultipolygon XY [still 1; still 2]) $"Can't append MULTIPOLYGON with size >1 to array of type POLYGON".
Proof.
  split; [constructor; [apply (still_ok 3); reflexivity|constructor; [exact I|constructor]]|]. split; [exact I|]. split; [reflexivity|]. split.
  - refine (another_kind KLinestring $"LINESTRING" _ (still 3) lines _). vm_compute. intuition discriminate.
  - constructor. cbn. lia.
Qed.

(** A polygon with a ring of 2^31 coordinates (in memory, the same one again and again) is refused, but its number of rings stays
    behind: the array cannot be finished, and the polygon that it had taken before is lost. *)
Theorem C73_offers_refuted : forall n, Z.of_nat n = 2 ^ 31 -> exists m nodes g m' nodes' g' w w' text,
  item_ok XY m nodes g /\ proper g /\ store KPolygon XY g <> None /\ item_ok XY m' nodes' g' /\ proper g' /\
  writer_init (fun _ _ => 0%N) (native_type KPolygon Separate XY) = Ok w /\
  offer_items (fun _ _ => 0%N) w [Some (m, nodes); Some (m', nodes')] = Ok (w', [(0, None); (EOVERFLOW, Some text)]) /\
  writer_finish (fun _ _ => 0%N) w' = Err EINVAL.
Proof.
  intros n Hn. destruct (overflow_spoils n Hn) as (w & w' & text & E1 & E2 & E3).
  exists one_coord, [poly_node; ring_node 1], (still 1), one_coord, [poly_node; ring_node (N.of_nat n)], (still n), w, w', text.
  split; [exact (still_ok 1 eq_refl)|]. split; [exact I|]. split; [discriminate|].
  split; [apply still_ok; rewrite Hn; reflexivity|]. split; [exact I|]. auto.
Qed.
Print Assumptions C73_offers_refuted.
