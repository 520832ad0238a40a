(** * When a node list denotes a geometry *)
From Verif Require Import Base TypesModel NodesModel GeomSpec.

(** [seq_node m ty lvl d cs nd]: [nd] is a node of type [ty] at level [lvl] whose memory holds the sequence [cs]. *)
Record seq_node (m : mem) (ty lvl : N) (d : dim) (cs : list coord) (nd : node) : Prop := {
  sn_type : nd_type nd = ty;
  sn_dims : nd_dims nd = dimN d;
  sn_level : nd_level nd = lvl;
  sn_size : nd_size nd = N.of_nat (length cs);
  sn_ords : forall i j c, nth_error cs i = Some c -> (j < ndim d)%nat ->
            node_ordinate m nd (Z.of_nat i) j = nth_error c j
}.

(** [nd] is an inner node with [n] parts. *)
Record inner_node (ty lvl : N) (d : dim) (n : nat) (nd : node) : Prop := {
  in_type : nd_type nd = ty;
  in_dims : nd_dims nd = dimN d;
  in_level : nd_level nd = lvl;
  in_size : nd_size nd = N.of_nat n
}.

(** [repr_geom m lvl nodes g]: [nodes] is the depth-first node list of [g], the root being at level [lvl]. *)
Inductive repr_geom (m : mem) : N -> list node -> geom -> Prop :=
| rg_point lvl d cs nd : seq_node m 1 lvl d cs nd -> repr_geom m lvl [nd] (GPoint d cs)
| rg_line lvl d cs nd : seq_node m 2 lvl d cs nd -> repr_geom m lvl [nd] (GLine d cs)
| rg_poly lvl d rings nd ring_nodes :
    inner_node 3 lvl d (length rings) nd ->
    Forall2 (fun cs rn => seq_node m 2 (lvl + 1) d cs rn) rings ring_nodes ->
    repr_geom m lvl (nd :: ring_nodes) (GPoly d rings)
| rg_coll lvl k d parts nd rest :
    inner_node (coll_code k) lvl d (length parts) nd ->
    repr_parts m (lvl + 1) rest parts ->
    repr_geom m lvl (nd :: rest) (GColl k d parts)
with repr_parts (m : mem) : N -> list node -> list geom -> Prop :=
| rp_nil lvl : repr_parts m lvl [] []
| rp_cons lvl g gs n1 n2 : repr_geom m lvl n1 g -> repr_parts m lvl n2 gs -> repr_parts m lvl (n1 ++ n2) (g :: gs).
