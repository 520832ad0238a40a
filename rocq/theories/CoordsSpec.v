(** * Reading coordinates through a coordinate view *)
From Verif Require Import Base TypesSpec CoordsModel.
Local Open Scope Z_scope.

Definition in_range (n i : Z) : Prop := 0 <= i < n.

(** Address of ordinate [col] of coordinate [row] of a view: the base of the column plus [row] strides. *)
Definition cell (v : cview) (row : Z) (col : nat) : daddr :=
  match qget (cv_values v) col with
  | Some a => (fst a, snd a + row * cv_stride v)
  | None => (0%nat, 0)
  end.
Global Arguments cell : simpl never.

(** Coordinate [row] of the view, in dimensions [d], has the ordinates [c]. *)
Definition read_coord (m : dmem) (v : cview) (d : dim) (row : Z) (c : list N) : Prop :=
  length c = ndim d /\
  forall j, (j < ndim d)%nat -> m (cell v row j) = nth_error c j.
