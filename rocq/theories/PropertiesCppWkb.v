(** * Properties of the C++ WKB parser *)
From Verif Require Import Base BaseFacts TypesSpec GeomSpec WkbSpec CppWkbSpec CppWkbModel CppWkbTells
  CppWkbReads CppWkbAccepts CppWkbPrefix CppWkbVisit CppWkbWitness.
Local Open Scope Z_scope.

(** ** C39 *)

(** Whatever the bytes, whatever an earlier call left in the parser [s0] and in the output [out]: Parse returns (it
    reads nothing outside the blob, which would be [UB]), every sequence and member reachable in the output lies inside
    the blob, and the cursor is set exactly when a geometry was read, to the end of its encoding. *)
Theorem C39_safe blob s0 out : wf_bytes blob ->
  exists st cur s' out', parse blob s0 out = Ok (st, cur, s', out') /\ inside blob out' /\
    match cur with
    | Some c => exists t rest, tree_ok t /\ blob = tree_bytes t ++ rest /\ c = Z.of_nat (length (tree_bytes t)) /\
                  st = match rest with [] => OK | _ => TOO_MANY_BYTES end /\ tells blob out' t
    | None => st = TOO_FEW_BYTES \/ st = INVALID_ENDIAN \/ st = INVALID_GEOMETRY_TYPE
    end.
Proof. exact (parse_any blob s0 out). Qed.
Print Assumptions C39_safe.

(** After every call of Parse, also one that failed, iterating over the output reads nothing outside the blob and
    throws nothing. *)
Theorem C39_visits blob dst s0 out st cur s' out' : wf_bytes blob -> parse blob s0 out = Ok (st, cur, s', out') ->
  (exists vs, geometry_vertices blob dst out' = Ok vs) /\ (exists es, geometry_edges blob dst out' = Ok es).
Proof. exact (visits_after blob dst s0 out st cur s' out'). Qed.
Print Assumptions C39_visits.

Example C39_case : wf_bytes (tree_bytes sample ++ [7; 7]%N) /\
  (exists s' out', parse (tree_bytes sample ++ [7; 7]%N) dirty_parser dirty_output =
     Ok (TOO_MANY_BYTES, Some 87, s', out')) /\
  (exists s' out', parse (firstn 70 (tree_bytes sample)) dirty_parser dirty_output = Ok (TOO_FEW_BYTES, None, s', out') /\
     wg_num_geometries out' = 2%N).
Proof. exact safe_case. Qed.

(** ** C40 *)

(** Every encoding is read as the geometry it encodes, with its SRIDs. *)
Theorem C40_decodes t s0 out : tree_ok t ->
  exists s' out', parse (tree_bytes t) s0 out = Ok (OK, Some (Z.of_nat (length (tree_bytes t))), s', out') /\
    tells (tree_bytes t) out' t.
Proof. exact (parse_exact t s0 out). Qed.
Print Assumptions C40_decodes.

(** With extra bytes the status is TOO_MANY_BYTES, the geometry is there and the cursor is its end. *)
Theorem C40_extra t rest s0 out : tree_ok t -> rest <> [] ->
  exists s' out', parse (tree_bytes t ++ rest) s0 out =
      Ok (TOO_MANY_BYTES, Some (Z.of_nat (length (tree_bytes t))), s', out') /\
    tells (tree_bytes t ++ rest) out' t.
Proof. exact (parse_extra t rest s0 out). Qed.
Print Assumptions C40_extra.

(** With any bytes missing the status is TOO_FEW_BYTES. *)
Theorem C40_truncated t p s0 out : tree_ok t -> strict_prefix p (tree_bytes t) ->
  exists s' out', parse p s0 out = Ok (TOO_FEW_BYTES, None, s', out').
Proof. exact (parse_short t p s0 out). Qed.
Print Assumptions C40_truncated.

(** What is accepted is the encoding of the geometry that is reported. *)
Theorem C40_accepted blob s0 out cur s' out' : wf_bytes blob -> parse blob s0 out = Ok (OK, cur, s', out') ->
  exists t, tree_ok t /\ blob = tree_bytes t /\ cur = Some (Z.of_nat (length blob)) /\ tells blob out' t.
Proof. exact (parse_accepted blob s0 out cur s' out'). Qed.
Print Assumptions C40_accepted.

(** What is refused as invalid does not begin with an encoding, and neither does it after bytes have been added. *)
Theorem C40_invalid blob s0 out st cur s' out' : wf_bytes blob -> parse blob s0 out = Ok (st, cur, s', out') ->
  st = INVALID_ENDIAN \/ st = INVALID_GEOMETRY_TYPE ->
  forall more t rest, tree_ok t -> blob ++ more <> tree_bytes t ++ rest.
Proof. exact (parse_invalid blob s0 out st cur s' out'). Qed.
Print Assumptions C40_invalid.

(** ISO WKB and EWKB, as the C reader of this library takes them (C01), are among the encodings. *)
Theorem C40_standard g b s0 out : wkb g b -> wf_geom g ->
  exists t s' out', tree_ok t /\ tree_bytes t = b /\ tree_geom t = g /\
    parse b s0 out = Ok (OK, Some (Z.of_nat (length b)), s', out') /\ tells b out' t.
Proof. exact (parse_standard g b s0 out). Qed.
Print Assumptions C40_standard.

(** The overload that takes a buffer view is the other one for blobs below 4 GiB (missing: larger ones, for which the
    claim is false, see below). *)
Theorem C40_view_partial blob s0 out : (N.of_nat (length blob) < 2 ^ 32)%N ->
  parse_view blob s0 out = parse blob s0 out.
Proof. exact (view_small blob s0 out). Qed.
Print Assumptions C40_view_partial.

(** It keeps only the low 32 bits of the size: 4 GiB of extra bytes are not noticed. *)
Theorem C40_view_refuted : exists t rest, tree_ok t /\ rest <> [] /\ wf_bytes (tree_bytes t ++ rest) /\
  forall s0 out, exists cur s' out', parse_view (tree_bytes t ++ rest) s0 out = Ok (OK, cur, s', out').
Proof. exact view_wraps. Qed.
Print Assumptions C40_view_refuted.

Example C40_case : tree_ok sample /\ length (tree_bytes sample) = 87%nat /\
  tree_geom sample = GColl CCollection XYZ [GPoint XYZ [[1; 2; 3]]; GPoly XY [[[4; 5]; [6; 7]]]]%N /\
  strict_prefix (firstn 20 (tree_bytes sample)) (tree_bytes sample) /\
  (exists s' out', parse (tree_bytes sample) dirty_parser dirty_output = Ok (OK, Some 87, s', out') /\
     wg_srid out' = 4326%N /\ wg_num_geometries out' = 2%N).
Proof. exact decode_case. Qed.

Example C40_invalid_case : wf_bytes [2; 0; 0; 0; 0]%N /\ wf_bytes [1; 8; 0; 0; 0]%N /\
  (exists s' out', parse [2; 0; 0; 0; 0]%N dirty_parser dirty_output = Ok (INVALID_ENDIAN, None, s', out')) /\
  (exists s' out', parse [1; 8; 0; 0; 0]%N dirty_parser dirty_output = Ok (INVALID_GEOMETRY_TYPE, None, s', out')).
Proof. exact invalid_case. Qed.

(** ** C53 *)

(** VisitVertices calls back with every vertex of the geometry, in order, in the dimensions that were asked for. *)
Theorem C53_vertices blob dst t g : tree_ok t -> tells blob g t ->
  geometry_vertices blob dst g = Ok (map (as_dims dst) (tree_vertices t)).
Proof. exact (geometry_vertices_ok blob dst t g). Qed.
Print Assumptions C53_vertices.

(** VisitEdges calls back with every edge. *)
Theorem C53_edges blob dst t g : tree_ok t -> tells blob g t ->
  geometry_edges blob dst g = Ok (map (both (as_dims dst)) (tree_edges t)).
Proof. exact (geometry_edges_ok blob dst t g). Qed.
Print Assumptions C53_edges.

Example C53_case : exists s' g, parse (tree_bytes sample) dirty_parser dirty_output = Ok (OK, Some 87, s', g) /\
  tells (tree_bytes sample) g sample /\
  geometry_vertices (tree_bytes sample) XYZ g = Ok [[1; 2; 3]; [4; 5; qnan]; [6; 7; qnan]]%N /\
  geometry_edges (tree_bytes sample) XY g = Ok [([1; 2], [1; 2]); ([4; 5], [6; 7])]%N.
Proof. exact visit_case. Qed.
