(** * What a parsed WKBGeometry says about the blob *)
From Verif Require Import Base TypesSpec GeomSpec WkbSpec CppWkbSpec CppWkbModel.

(** The sequence [q] is the coordinates [cs], of dimensions [d] and in byte order [e], at its place in the blob. *)
Record tells_sequence (blob : bytes) (e : endian) (d : dim) (cs : list coord) (q : wseq) : Prop := {
  ts_length : sq_length q = N.of_nat (length cs);
  ts_stride : sq_stride q = N.of_nat (ndim d);
  ts_dims : sq_dims q = dimN d;
  ts_endian : sq_endian q = endian_byte e;
  ts_data : located blob (sq_data q) e cs
}.

(** The parsed geometry [g] is the tree [t]: type, dimensions and SRID, and through the accessors Sequence(i) and
    Geometry(i) its coordinate sequences and members. *)
Inductive tells (blob : bytes) : wgeom -> tree -> Prop :=
| tells_intro g t :
    wg_type g = tree_code t ->
    wg_dims g = dimN (tree_dim t) ->
    wg_srid g = reported_srid (h_srid (tree_header t)) ->
    wg_num_sequences g = N.of_nat (length (tree_sequences t)) ->
    (forall i cs, nth_error (tree_sequences t) i = Some cs ->
       exists q, wg_sequence g (N.of_nat i) = Some q /\
         tells_sequence blob (h_endian (tree_header t)) (tree_dim t) cs q) ->
    wg_num_geometries g = N.of_nat (length (tree_parts t)) ->
    (forall i p, nth_error (tree_parts t) i = Some p ->
       exists c, wg_geometry g (N.of_nat i) = Some c /\ tells blob c p) ->
    tells blob g t.

(** Every sequence the accessors can reach lies inside the blob: [length] coordinates of [stride] doubles, where
    [stride] is the number of the sequence's dimensions. *)
Definition sequence_inside (blob : bytes) (q : wseq) : Prop :=
  (exists d, sq_dims q = dimN d /\ sq_stride q = N.of_nat (ndim d)) /\
  (0 <= sq_data q /\
   sq_data q + 8 * Z.of_N (sq_length q) * Z.of_N (sq_stride q) <= Z.of_nat (length blob))%Z.
Inductive inside (blob : bytes) : wgeom -> Prop :=
| inside_intro g :
    (forall i, (i < wg_num_sequences g)%N -> exists q, wg_sequence g i = Some q /\ sequence_inside blob q) ->
    (forall i, (i < wg_num_geometries g)%N -> exists c, wg_geometry g i = Some c /\ inside blob c) ->
    inside blob g.
