(** * Where the copied coordinates of a geometry belong *)
From Verif Require Import Base TypesModel GeomSpec NodesModel CoordsModel.
Local Open Scope Z_scope.

(** The place of ordinate [col] of the [k]-th coordinate in an output given by a base address and a stride per column. *)
Definition out_cell (out : quad daddr) (os : quad Z) (k : nat) (col : nat) : daddr :=
  match qget out col, qget os col with
  | Some a, Some s => (fst a, snd a + Z.of_nat k * s)
  | _, _ => (0%nat, 0)
  end.
Global Arguments out_cell : simpl never.

(** [n] coordinates of dimensions [d] fit in the output: every cell exists and no two coincide. *)
Record room (dm : dmem) (out : quad daddr) (os : quad Z) (d : dim) (n : nat) : Prop := {
  rm_exists : forall k col, (k < n)%nat -> (col < ndim d)%nat -> dm (out_cell out os k col) <> None;
  rm_distinct : forall k col k' col', (k < n)%nat -> (col < ndim d)%nat -> (k' < n)%nat -> (col' < ndim d)%nat ->
    out_cell out os k col = out_cell out os k' col' -> k = k' /\ col = col'
}.

(** The output holds the coordinates [cs], each converted to dimensions [d], and nothing else has changed. *)
Record copied (dm dm' : dmem) (out : quad daddr) (os : quad Z) (d : dim) (cs : list (dim * coord)) : Prop := {
  cp_values : forall k s c col, nth_error cs k = Some (s, c) -> (col < ndim d)%nat ->
    dm' (out_cell out os k col) = nth_error (convert_coord s d c) col;
  cp_frame : forall a, (forall k col, (k < length cs)%nat -> (col < ndim d)%nat -> a <> out_cell out os k col) ->
    dm' a = dm a
}.

(** No byte-swapped node lacks a dimension of the output. *)
Definition swapped_nodes_complete (nodes : list node) (d : dim) : Prop :=
  forall nd s, In nd nodes -> nd_swap nd = true -> nd_dims nd = dimN s -> incl (ordinates d) (ordinates s).
