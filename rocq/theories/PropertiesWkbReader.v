(** * C05, C06: the WKB reader *)
From Verif Require Import Base TypesModel GeomSpec NodesModel NodesSpec WkbSpec WkbReaderModel WkbReaderProofs WkbReaderSafety.
Local Open Scope Z_scope.

(** ** C05 *)

(** [b] is any encoding of [g] (any byte orders, ISO or EWKB, with or without SRIDs), [rest] any bytes after it, and
    [swap0] whatever byte order the reader was left in by its previous call. *)
Theorem C05_wkb_read : forall g b rest swap0,
  wkb g b -> wf_geom g -> (levels g <= 256)%nat -> (N.of_nat (length b) < 2 ^ 35)%N ->
  exists nodes, wkb_read_from (b ++ rest) swap0 = Ok nodes /\ repr_geom (wkb_mem (b ++ rest)) 0 nodes g.
Proof. exact wkb_read_ok. Qed.
Print Assumptions C05_wkb_read.

(** A big-endian EWKB collection with SRID holding a little-endian ISO polygon Z and an empty linestring. *)
Definition C05_ring : list coord := [[1; 2; 3]; [4; 5; 6]; [1; 2; 3]]%N.
Definition C05_geom : geom := GColl CCollection XY [GPoly XYZ [C05_ring]; GLine XYM []].
Definition C05_bytes : bytes :=
  enc_header BE Ewkb (Some 4326%N) XY 7 ++ enc32 BE 2 ++
  ((enc_header LE Iso None XYZ 3 ++ enc32 LE 1 ++ flat_map (enc_ring LE) [C05_ring]) ++
   (enc_header BE Ewkb None XYM 2 ++ enc32 BE 0 ++ enc_coords BE []) ++ []).

Example C05_ex : wkb C05_geom C05_bytes /\ wf_geom C05_geom /\ (levels C05_geom <= 256)%nat /\
  (N.of_nat (length C05_bytes) < 2 ^ 35)%N.
Proof.
  split; [|split; [|split]].
  - apply (wkb_coll BE Ewkb (Some 4326%N) CCollection XY); [reflexivity|reflexivity|].
    apply wkb_cons; [|apply wkb_cons; [|constructor]].
    + apply (wkb_poly LE Iso None XYZ [C05_ring]); [exact I|reflexivity|repeat constructor].
    + apply (wkb_line BE Ewkb None XYM []); [exact I|reflexivity].
  - repeat constructor.
  - cbn; lia.
  - reflexivity.
Qed.

(** ** C06 *)

(** The reader terminates on every byte string. *)
Theorem C06_wkb_read_terminates : forall src swap0, wkb_read_from src swap0 <> NoFuel.
Proof. exact wkb_read_terminates. Qed.
Print Assumptions C06_wkb_read_terminates.

(** The full property is false: a 30 byte blob makes the reader look beyond the end of its input ... *)
Theorem C06_read_in_bounds_refuted : exists src, wf_bytes src /\ length src = 30%nat /\ wkb_read src = UB.
Proof. exact (ex_intro _ short_collection (conj short_collection_wf (conj eq_refl short_collection_ub))). Qed.
Print Assumptions C06_read_in_bounds_refuted.

(** ... and a nine byte blob is accepted as a linestring of 2^31 coordinates, none of which is inside the input. *)
Theorem C06_sequences_in_bounds_refuted : exists src nd, wf_bytes src /\ length src = 9%nat /\
  wkb_read src = Ok [nd] /\ nd_type nd = 2%N /\ nd_size nd = 2147483648%N /\
  forall i j, 0 <= i -> (j < 2)%nat -> node_ordinate (wkb_mem src) nd i j = None.
Proof. exact huge_linestring_accepted. Qed.
Print Assumptions C06_sequences_in_bounds_refuted.

(** What holds. Missing with respect to C06: blobs that announce a polygon or a collection, and sequences of 2^32 and more
    ordinates. *)
Theorem C06_wkb_read_in_bounds_partial : forall src, wf_bytes src ->
  (forall g, announced_type src = Some g -> g < 3 \/ 7 < g)%N ->
  wkb_read src <> UB /\
  forall nodes, wkb_read src = Ok nodes ->
    exists nd n, nodes = [nd] /\ num_dimensions (Z.of_N (nd_dims nd)) = Some (Z.of_nat n) /\ (2 <= n <= 4)%nat /\
      ((nd_size nd * N.of_nat n < 2 ^ 32)%N ->
       forall i j, 0 <= i < Z.of_N (nd_size nd) -> (j < n)%nat -> node_ordinate (wkb_mem src) nd i j <> None).
Proof. exact first_sequence_in_bounds. Qed.
Print Assumptions C06_wkb_read_in_bounds_partial.

Example C06_ex : let src := ([0; 0; 0; 0; 2; 0; 0; 0; 2] ++ repeat 9 32)%N in
  wf_bytes src /\ announced_type src = Some 2%N /\ exists nd, wkb_read src = Ok [nd] /\ nd_size nd = 2%N.
Proof. split; [|split]; [repeat constructor|reflexivity|eexists; vm_compute; auto]. Qed.
