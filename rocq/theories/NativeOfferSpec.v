(** * Why a native array does not take a geometry *)
From Verif Require Import Base Text TypesModel GeomSpec ArrowModel NativeSpec BuilderSpec NativeWriterSpec.
Local Open Scope Z_scope.

Definition name_of (g : geom) : bytes :=
  match g with
  | GPoint _ _ => $"POINT"
  | GLine _ _ => $"LINESTRING"
  | GPoly _ _ => $"POLYGON"
  | GColl CMultipoint _ _ => $"MULTIPOINT"
  | GColl CMultilinestring _ _ => $"MULTILINESTRING"
  | GColl CMultipolygon _ _ => $"MULTIPOLYGON"
  | GColl CCollection _ _ => $"GEOMETRYCOLLECTION"
  end.
(** The kinds of arrays other than those of points, and what they may take. *)
Inductive takes : geometry_kind -> bytes -> list bytes -> Prop :=
| lines : takes KLinestring $"LINESTRING" [$"LINESTRING"; $"MULTILINESTRING"]
| polygons : takes KPolygon $"POLYGON" [$"POLYGON"; $"MULTIPOLYGON"]
| multipoints : takes KMultipoint $"MULTIPOINT" [$"POINT"; $"MULTIPOINT"]
| multilines : takes KMultilinestring $"MULTILINESTRING" [$"LINESTRING"; $"MULTILINESTRING"]
| multipolygons : takes KMultipolygon $"MULTIPOLYGON" [$"POLYGON"; $"MULTIPOLYGON"].

(** A message about a geometry that was offered to an array of a kind, if it is true. *)
Inductive reason : geometry_kind -> geom -> bytes -> Prop :=
| several_coordinates g : (1 < length (geom_coords g))%nat -> reason KPoint g $"Can't append geometry with coord count >1 to array of type POINT"
| several_lines d parts : (1 < length parts)%nat ->
    reason KLinestring (GColl CMultilinestring d parts) $"Can't append MULTILINESTRING with size >1 to array of type LINESTRING"
| several_polygons d parts : (1 < length parts)%nat ->
    reason KPolygon (GColl CMultipolygon d parts) $"Can't append MULTIPOLYGON with size >1 to array of type POLYGON"
| another_kind k array names g : takes k array names -> ~ In (name_of g) names ->
    reason k g ($"Can't append " ++ name_of g ++ $" to array of type " ++ array).

(** The answer to an offer, and the elements that result from it. *)
Inductive answered (k : geometry_kind) (d : dim) : option geom -> Z * option bytes -> list (option (nest (n_lists k))) -> Prop :=
| null_taken : answered k d None (0, None) [None]
| taken g x : store k d g = Some x -> answered k d (Some g) (0, None) [Some x]
| refused g text : store k d g = None -> reason k g text -> answered k d (Some g) (EINVAL, Some text) [].
(** The answers to all offers for an array, and its elements. *)
Inductive all_answered (k : geometry_kind) (d : dim) : list (option geom) -> list (Z * option bytes) -> list (option (nest (n_lists k))) -> Prop :=
| no_offers : all_answered k d [] [] []
| offers g gs a answers e els : answered k d g a e -> all_answered k d gs answers els -> all_answered k d (g :: gs) (a :: answers) (e ++ els).
(** What is left of the offers: the nulls, and the geometries that the array takes. *)
Definition left_of (k : geometry_kind) (d : dim) (gs : list (option geom)) : list (option (nest (n_lists k))) :=
  flat_map (fun g => match g with
                     | None => [None]
                     | Some g => match store k d g with Some x => [Some x] | None => [] end
                     end) gs.
