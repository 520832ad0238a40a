(** * Copying between coordinate views *)
From Verif Require Import Base TypesModel.
Local Open Scope Z_scope.

(** Memory holding doubles: an address is a block and an index in units of [sizeof(double)]; [None] means there is no
    object at that address. *)
Definition daddr := (nat * Z)%type.
Definition dmem := daddr -> option N.
Definition daddr_eqb (a b : daddr) : bool := Nat.eqb (fst a) (fst b) && (snd a =? snd b).

Definition dstore (m : dmem) (a : daddr) (v : N) : outcome dmem :=
  match m a with
  | None => UB
  | Some _ => Ok (fun b => if daddr_eqb b a then Some v else m b)
  end.
Definition dload (m : dmem) (a : daddr) : outcome N := or_ub (m a).

(** src/geoarrow/geoarrow_type.h lines 664-706: GeoArrowCoordView and GeoArrowWritableCoordView. Simplification: the
    array [values] has eight entries in C of which at most four are used. *)
Record cview := { cv_values : quad daddr; cv_n_values : Z; cv_stride : Z }.

(** src/geoarrow/geoarrow_type.h lines 709-710: the address of GEOARROW_COORD_VIEW_VALUE(coords, row, col). *)
Definition cv_cell (v : cview) (row : Z) (col : nat) : outcome daddr :=
  match qget (cv_values v) col with
  | Some a => Ok (fst a, snd a + row * cv_stride v)
  | None => UB
  end.

(** One assignment [dst(row, col) = src(row', col')]. *)
Definition copy_cell (m : dmem) (src : cview) (srow : Z) (scol : nat) (dst : cview) (drow : Z) (dcol : nat)
  : outcome dmem :=
  do a <- cv_cell src srow scol;
  do v <- dload m a;
  do b <- cv_cell dst drow dcol;
  dstore m b v.

(** memcpy of one NaN into [dst(row, col)]. *)
Definition nan_cell (m : dmem) (dst : cview) (drow : Z) (dcol : nat) : outcome dmem :=
  do b <- cv_cell dst drow dcol;
  dstore m b nan_word.

(** [for (int64_t i = 0; i < n; i++)] *)
Fixpoint for_loop {S} (k : nat) (i : Z) (body : Z -> S -> outcome S) (s : S) : outcome S :=
  match k with
  | O => Ok s
  | Datatypes.S k' => do s' <- body i s; for_loop k' (i + 1) body s'
  end.

(** geoarrow_type_inline.h lines 599-609 and 615-625: fill column [col] of the destination *)
Definition copy_column (src : cview) (so : Z) (dst : cview) (dof : Z) (n : Z) (col : nat) (from : Z) (m : dmem)
  : outcome dmem :=
  if from =? -1
  then for_loop (Z.to_nat n) 0 (fun i m => nan_cell m dst (dof + i) col) m
  else for_loop (Z.to_nat n) 0 (fun i m => copy_cell m src (so + i) (Z.to_nat from) dst (dof + i) col) m.

(** geoarrow_type_inline.h lines 578-626: GeoArrowCoordViewCopy *)
Definition coord_view_copy (src : cview) (src_dim : Z) (so : Z) (dst : cview) (dst_dim : Z) (dof n : Z) (m : dmem)
  : outcome dmem :=
  do m <- for_loop (Z.to_nat n) 0 (fun i m =>
            do m <- copy_cell m src (so + i) 0 dst (dof + i) 0;
            copy_cell m src (so + i) 1 dst (dof + i) 1) m;
  if cv_n_values dst =? 2 then Ok m
  else
    let map := map_dimensions src_dim dst_dim in
    do m <- copy_column src so dst dof n 2 (q2 map) m;
    if cv_n_values dst =? 3 then Ok m
    else copy_column src so dst dof n 3 (q3 map) m.
