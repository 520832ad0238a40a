(** * What the messages of exceptions of type objects say *)
From Verif Require Import Base Text TypesSpec GeomSpec.
Local Open Scope Z_scope.

(** The enumerators of geometry types, dimensions and coordinate types (geoarrow_type.h), and their names. *)
Definition geometry_names : list (Z * bytes) :=
  [(0, $"GEOMETRY"); (1, $"POINT"); (2, $"LINESTRING"); (3, $"POLYGON"); (4, $"MULTIPOINT"); (5, $"MULTILINESTRING"); (6, $"MULTIPOLYGON");
   (7, $"GEOMETRYCOLLECTION"); (990, $"BOX")].
Definition dimensions_names : list (Z * bytes) := [(0, $"unknown"); (1, $"xy"); (2, $"xyz"); (3, $"xym"); (4, $"xyzm")].
Definition coord_type_names : list (Z * bytes) := [(0, $"unknown"); (1, $"separate"); (2, $"interleaved")].

(** There is a type with these parts. *)
Definition is_combination (g d c : Z) : Prop :=
  exists k dd l, supported k dd l /\ g = geometry_kind_code k /\ d = dim_code dd /\ c = layout_code l.

(** The message that names the parts. *)
Definition combination_text (gn dn cn : bytes) : bytes :=
  $"Combination of geometry type/dimensions/coord type not valid: " ++ gn ++ $"/" ++ dn ++ $"/" ++ cn.
