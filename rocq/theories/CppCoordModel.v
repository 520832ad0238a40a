(** * C++ coordinates: src/geoarrow/hpp/array_util.hpp, the coordinate and box types

    A coordinate type is a template argument of the C++ code: XY, XYZ, XYM or XYZM. A coordinate is the list of its
    ordinates, bit patterns of doubles. *)
From Verif Require Import Base TypesSpec GeomSpec.

(** array_util.hpp lines 272-275, 301-304, 329-332, 357-360: [dimensions] and the element count of std::array *)
Definition coord_size (d : dim) : nat := match d with XY => 2 | XYZ => 3 | XYM => 3 | XYZM => 4 end.

(** array_util.hpp lines 277-280, 306-309, 334-337, 362-365: x(), y(), z() and m(). at(i) is inside the array of every
    type, so that the default of [nth] is never taken for a coordinate of the right size. *)
Definition coord_x (c : coord) : N := nth 0 c 0%N.
Definition coord_y (c : coord) : N := nth 1 c 0%N.
Definition coord_z (d : dim) (c : coord) : N := match d with XYZ | XYZM => nth 2 c 0%N | XY | XYM => qnan end.
Definition coord_m (d : dim) (c : coord) : N :=
  match d with XYM => nth 2 c 0%N | XYZM => nth 3 c 0%N | XY | XYZ => qnan end.

(** array_util.hpp lines 293-297, 322-325, 350-353, 378: FromXYZM *)
Definition from_xyzm (d : dim) (x y z m : N) : coord :=
  match d with
  | XY => [x; y]
  | XYZ => [x; y; z]
  | XYM => [x; y; m]
  | XYZM => [x; y; z; m]
  end.

Definition dim_eqb (a b : dim) : bool :=
  match a, b with XY, XY | XYZ, XYZ | XYM, XYM | XYZM, XYZM => true | _, _ => false end.

(** array_util.hpp lines 386-399: CoordCast<CoordSrc, CoordDst>, both of doubles *)
Definition coord_cast (src dst : dim) (c : coord) : coord :=
  if dim_eqb src dst then c
  else match dst with
       | XY => [coord_x c; coord_y c]
       | _ => from_xyzm dst (coord_x c) (coord_y c) (coord_z src c) (coord_m src c)
       end.

(** Infinities (std::numeric_limits<double>::infinity()). *)
Definition pos_inf : N := 0x7FF0000000000000%N.
Definition neg_inf : N := 0xFFF0000000000000%N.

(** array_util.hpp lines 402-481: the box types are std::array of 4, 6, 6 and 8 doubles. An initializer list that is
    shorter than the array leaves zeros at its end. *)
Definition box_array (size : nat) (init : list N) : list N := init ++ repeat 0%N (size - length init).

(** lines 415-418, 435-438, 455-458, 475-480: Empty() *)
Definition box_empty (d : dim) : list N :=
  match d with
  | XY => box_array 4 [pos_inf; pos_inf; neg_inf; neg_inf]
  | XYZ => box_array 6 [pos_inf; pos_inf; neg_inf; neg_inf]
  | XYM => box_array 6 [pos_inf; pos_inf; neg_inf; neg_inf]
  | XYZM => box_array 8 [pos_inf; pos_inf; pos_inf; pos_inf; neg_inf; neg_inf; neg_inf; neg_inf]
  end.

(** lines 405-412, 425-432, 445-452, 465-472: the bounds in x, y, z and m: a box without a dimension reports an empty
    range in it. *)
Definition box_xmin (b : list N) : N := nth 0 b 0%N.
Definition box_ymin (b : list N) : N := nth 1 b 0%N.
Definition box_zmin (d : dim) (b : list N) : N := match d with XYZ | XYZM => nth 2 b 0%N | _ => pos_inf end.
Definition box_mmin (d : dim) (b : list N) : N :=
  match d with XYM => nth 2 b 0%N | XYZM => nth 3 b 0%N | _ => pos_inf end.
Definition box_xmax (d : dim) (b : list N) : N := nth (coord_size d) b 0%N.
Definition box_ymax (d : dim) (b : list N) : N := nth (coord_size d + 1) b 0%N.
Definition box_zmax (d : dim) (b : list N) : N :=
  match d with XYZ => nth 5 b 0%N | XYZM => nth 6 b 0%N | _ => neg_inf end.
Definition box_mmax (d : dim) (b : list N) : N :=
  match d with XYM => nth 5 b 0%N | XYZM => nth 7 b 0%N | _ => neg_inf end.

(** lines 413-414, 433-434, 453-454, 473-474: lower_bound() and upper_bound() *)
Definition box_lower (d : dim) (b : list N) : coord :=
  match d with
  | XY => [box_xmin b; box_ymin b]
  | XYZ => [box_xmin b; box_ymin b; box_zmin d b]
  | XYM => [box_xmin b; box_ymin b; box_mmin d b]
  | XYZM => [box_xmin b; box_ymin b; box_zmin d b; box_mmin d b]
  end.
Definition box_upper (d : dim) (b : list N) : coord :=
  match d with
  | XY => [box_xmax d b; box_ymax d b]
  | XYZ => [box_xmax d b; box_ymax d b; box_zmax d b]
  | XYM => [box_xmax d b; box_ymax d b; box_mmax d b]
  | XYZM => [box_xmax d b; box_ymax d b; box_zmax d b; box_mmax d b]
  end.
