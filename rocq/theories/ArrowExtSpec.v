(** * What extension types of Arrow C++ are *)
From Verif Require Import Base Text TypesSpec MetadataModel MetadataSpec SchemaModel SchemaSpec CppDataTypeModel CppDataTypeSpec ArrowExtModel.
Local Open Scope Z_scope.

(** What is asked of Arrow C++: it imports the storage types of all GeoArrow types, exports them as it got them, and they are equal to
    themselves; types that are equal have the storage of the same GeoArrow types. *)
Definition arrow_ok {dtype} (import : schema -> option dtype) (export : dtype -> option schema) (equal : dtype -> dtype -> bool) : Prop :=
  (forall t s, exists_type t -> well_formed s -> stored t s ->
     exists d s', import s = Some d /\ export d = Some s' /\ well_formed s' /\ stored t s') /\
  (forall d, equal d d = true) /\
  (forall a b s s' t, equal a b = true -> export a = Some s -> export b = Some s' -> stored t s -> stored t s').

(** [amounts e v]: by the names of the methods, [e] has the value [v] ([makes] says which value a method of GeometryDataType gives;
    [value_of_metadata], [retyped] are those of C61). A type that is made from a GeometryDataType has the metadata that are given. *)
Inductive amounts : expr -> value -> Prop :=
| amounts_parts g d c text v : makes [] (FromParts g d c text) (Some v) -> amounts (MakeParts g d c text) v
| amounts_type z text v : makes [] (FromType z text) (Some v) -> amounts (MakeType z text) v
| amounts_of o text v : makes [] (FromType (o_type o) text) (Some v) -> amounts (MakeOf o text) v
| amounts_copied e v : amounts e v -> amounts (Copied e) v
| amounts_geometry e v g w : amounts e v -> makes [Some v] (WithGeometryType 0 g) (Some w) -> amounts (GeometryChanged e g) w
| amounts_coords e v c w : amounts e v -> makes [Some v] (WithCoordType 0 c) (Some w) -> amounts (CoordsChanged e c) w
| amounts_dims e v d w : amounts e v -> makes [Some v] (WithDimensions 0 d) (Some w) -> amounts (DimensionsChanged e d) w
| amounts_edges e v z w : amounts e v -> makes [Some v] (WithEdgeType 0 z) (Some w) -> amounts (EdgesChanged e z) w
| amounts_crs e v crs z w : amounts e v -> makes [Some v] (WithCrs 0 crs z) (Some w) -> amounts (CrsChanged e crs z) w
| amounts_back e v t : amounts e v -> v_type v = Some t -> amounts (ReadBack e) (retyped v t).

(** Arguments are enumerators and texts as in C61. *)
Fixpoint proper_expr (e : expr) : Prop :=
  match e with
  | MakeParts g d c text => proper_maker (FromParts g d c text)
  | MakeType z text => proper_maker (FromType z text)
  | MakeOf o text => proper_maker (FromType (o_type o) text)
  | Copied e | ReadBack e => proper_expr e
  | GeometryChanged e g => proper_expr e /\ proper_maker (WithGeometryType 0 g)
  | CoordsChanged e c => proper_expr e /\ proper_maker (WithCoordType 0 c)
  | DimensionsChanged e d => proper_expr e /\ proper_maker (WithDimensions 0 d)
  | EdgesChanged e z => proper_expr e /\ proper_maker (WithEdgeType 0 z)
  | CrsChanged e crs z => proper_expr e /\ proper_maker (WithCrs 0 crs z)
  end.

(** Every change of the geometry type, coordinate type or dimensions is to a type with the same storage: none at all, or between
    linestrings and multipoints, or between polygons and multilinestrings. *)
Definition same_storage (t t' : geo_type) : Prop :=
  t = t' \/ exists k k' d l, t = Native k d l /\ t' = Native k' d l /\
    In (k, k') [(KLinestring, KMultipoint); (KMultipoint, KLinestring); (KPolygon, KMultilinestring); (KMultilinestring, KPolygon)].
Definition keeps_storage (v w : value) : Prop := exists t t', v_type v = Some t /\ v_type w = Some t' /\ same_storage t t'.
Fixpoint storage_kept (e : expr) : Prop :=
  match e with
  | MakeParts _ _ _ _ | MakeType _ _ | MakeOf _ _ => True
  | Copied e | ReadBack e | EdgesChanged e _ | CrsChanged e _ _ => storage_kept e
  | GeometryChanged e' _ | CoordsChanged e' _ | DimensionsChanged e' _ => storage_kept e' /\ forall v w, amounts e' v -> amounts e w -> keeps_storage v w
  end.

(** The types whose names are not registered. *)
Definition unregistered_type (t : geo_type) : bool := match t with Native KBox _ _ | Serialized Wkt _ => true | _ => false end.

(** ** What can be observed of an extension type of value [v] *)
Section Observations.
  Context {dtype : Type} (null_type : dtype) (import : schema -> option dtype) (export : dtype -> option schema) (equal : dtype -> dtype -> bool).
  Variable junk : nat -> N.

  (** The storage type is that of its type, and so is the name; its GeometryDataType has the value. *)
  Definition shows (x : ext dtype) (v : value) : Prop :=
    exists t s, v_type v = Some t /\ exists_type t /\ export (x_storage x) = Some s /\ well_formed s /\ stored t s /\ x_name x = type_name t /\
      looks_like junk (alone (x_type x)) 0 v /\
      (exists text m, serialize_ext dtype junk x = Ok text /\ string_says text m /\ forall t, value_of_metadata t m = retyped v t) /\
      ext_to_string dtype junk x = Ok ($"GeometryExtensionType(" ++ CppDataTypeSpec.shown 40 v ++ $")").

  (** What is read back is an equal extension type, of the same value. *)
  Definition survives (x : ext dtype) (v : value) : Prop :=
    exists y t, v_type v = Some t /\ read_back dtype null_type export junk x = Ok (Got y) /\ shows y (retyped v t) /\
      extension_equals dtype equal junk x y = Ok true /\ extension_equals dtype equal junk y x = Ok true.
End Observations.
