(** * What type identifiers, byte swapping and dimension maps should mean *)
From Verif Require Import Base.
Local Open Scope Z_scope.

(** Names of the parts of a type. *)
Inductive geometry_kind := KPoint | KLinestring | KPolygon | KMultipoint | KMultilinestring | KMultipolygon | KBox.
Inductive dim := XY | XYZ | XYM | XYZM.
Inductive layout := Separate | Interleaved.

Definition geometry_kind_code (k : geometry_kind) : Z :=
  match k with
  | KPoint => 1 | KLinestring => 2 | KPolygon => 3 | KMultipoint => 4
  | KMultilinestring => 5 | KMultipolygon => 6 | KBox => 990
  end.
Definition dim_code (d : dim) : Z := match d with XY => 1 | XYZ => 2 | XYM => 3 | XYZM => 4 end.
Definition layout_code (l : layout) : Z := match l with Separate => 1 | Interleaved => 2 end.

(** Boxes exist only with separate coordinates. *)
Definition supported (k : geometry_kind) (d : dim) (l : layout) : Prop := k = KBox -> l = Separate.

(** The native enumerators in the order of src/geoarrow/geoarrow_type.h lines 327-383. *)
Definition native_type_ids : list Z :=
  [990; 1990; 2990; 3990;
   1; 2; 3; 4; 5; 6; 1001; 1002; 1003; 1004; 1005; 1006;
   2001; 2002; 2003; 2004; 2005; 2006; 3001; 3002; 3003; 3004; 3005; 3006;
   10001; 10002; 10003; 10004; 10005; 10006; 11001; 11002; 11003; 11004; 11005; 11006;
   12001; 12002; 12003; 12004; 12005; 12006; 13001; 13002; 13003; 13004; 13005; 13006].

(** Meaning of ordinates. *)
Inductive ordinate := OX | OY | OZ | OM.
Definition ordinates (d : dim) : list ordinate :=
  match d with
  | XY => [OX; OY] | XYZ => [OX; OY; OZ] | XYM => [OX; OY; OM] | XYZM => [OX; OY; OZ; OM]
  end.
Definition ndim (d : dim) : nat := length (ordinates d).
Definition ordinate_eqb (a b : ordinate) : bool :=
  match a, b with OX, OX | OY, OY | OZ, OZ | OM, OM => true | _, _ => false end.

(** Position of an ordinate in coordinates of the given dimensions. *)
Fixpoint position (o : ordinate) (l : list ordinate) : option nat :=
  match l with
  | [] => None
  | x :: r => if ordinate_eqb o x then Some 0%nat else option_map S (position o r)
  end.

(** A quiet NaN. *)
Definition qnan : N := 0x7ff8000000000000%N.

(** The coordinate [c] (given in dimensions [s]) expressed in dimensions [d]: each ordinate of [d] is the ordinate of
    the same meaning in [c], or NaN when [s] does not have it. *)
Definition convert_coord (s d : dim) (c : list N) : list N :=
  map (fun o => match position o (ordinates s) with
                | Some i => nth i c qnan
                | None => qnan
                end) (ordinates d).
