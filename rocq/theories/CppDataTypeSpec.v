(** * What type objects are: values

    A type object is a value: a type, an edge type, and a CRS with its type. Every operation is a function of the values of the
    objects that it is given. *)
From Verif Require Import Base Text TypesSpec MetadataModel MetadataSpec CppDataTypeModel KernelStartSpec SchemaModel SchemaSpec.
Local Open Scope Z_scope.

(** No type is that of an object without one. *)
Record value := Value { v_type : option geo_type; v_edges : Z; v_crs_type : Z; v_crs : bytes }.
Definition no_value : value := Value None EDGE_PLANAR CRS_NONE [].

(** The text of a CRS: of a JSON string, what is between the quotes without the backslashes that escape something. *)
Fixpoint bare (s : bytes) : bytes :=
  match s with
  | [] => []
  | c :: s => if N.eqb c 92 then match s with e :: s => e :: bare s | [] => [] end else c :: bare s
  end.
Definition told (crs : bytes) : bytes :=
  match crs with c :: s => if N.eqb c 34 then bare (removelast s) else crs | [] => [] end.

Definition value_of_metadata (t : geo_type) (m : metadata) : value := Value (Some t) (m_edges m) (m_crs_type m) (told (m_crs m)).

(** The type of objects and what is at the places of the geometry type, the dimensions and the coordinate type. *)
Definition id_of (t : option geo_type) : Z := match t with Some t => type_id t | None => 0 end.
Definition parts_of (t : option geo_type) : Z * Z * Z := match t with Some t => parts t | None => (0, 0, 0) end.

(** The native type with these parts. *)
Definition composed (g d c : Z) (t : geo_type) : Prop :=
  exists k d' l, t = Native k d' l /\ exists_type t /\ parts t = (g, d, c).

(** What the extension metadata in a string say, or that they cannot be read. *)
Definition string_says (text : bytes) (m : metadata) : Prop := metadata_view_init (Some 0%N) (S (length text)) text = Ok m.
Definition string_refused (text : bytes) : Prop := metadata_view_init (Some 0%N) (S (length text)) text = Err EINVAL.
Definition refused (text : bytes) : Prop := forall past fuel, (length text < fuel)%nat -> metadata_view_init past fuel text = Err EINVAL.

(** Another type for the same edges and CRS. What is given as the CRS of no CRS type is not kept. *)
Definition retyped (v : value) (t : geo_type) : value :=
  Value (Some t) (v_edges v) (v_crs_type v) (if v_crs_type v =? CRS_NONE then [] else v_crs v).
(** The same with other parts, if there is such a type. *)
Inductive recomposed (v : value) (g d c : Z) : option value -> Prop :=
| recomposed_to t : composed g d c t -> recomposed v g d c (Some (retyped v t))
| recomposed_not : (forall t, ~ composed g d c t) -> recomposed v g d c None.

Definition simple_of (g : Z) : option Z :=
  if g =? 1 then Some 1 else if g =? 4 then Some 1 else if g =? 2 then Some 2 else if g =? 5 then Some 2
  else if g =? 3 then Some 3 else if g =? 6 then Some 3 else None.
Definition multi_of (g : Z) : option Z :=
  if g =? 1 then Some 4 else if g =? 4 then Some 4 else if g =? 2 then Some 5 else if g =? 5 then Some 5
  else if g =? 3 then Some 6 else if g =? 6 then Some 6 else None.

Definition value_at (vs : list (option value)) (i : nat) (v : value) : Prop := nth_error vs i = Some (Some v).

(** The value of a new object, or None: that an exception is thrown. *)
Inductive makes (vs : list (option value)) : maker -> option value -> Prop :=
| makes_default : makes vs Default (Some no_value)
| makes_parts g d c text t m : composed g d c t -> string_says text m -> makes vs (FromParts g d c text) (Some (value_of_metadata t m))
| makes_parts_not g d c text : (forall t, ~ composed g d c t) \/ string_refused text -> makes vs (FromParts g d c text) None
| makes_type t text m : exists_type t -> string_says text m -> makes vs (FromType (type_id t) text) (Some (value_of_metadata t m))
| makes_type_not z text : (forall t, exists_type t -> z <> type_id t) \/ string_refused text -> makes vs (FromType z text) None
| makes_schema s t text m : schema_of s t text -> says (text_of text) m -> makes vs (FromSchema s) (Some (value_of_metadata t m))
| makes_schema_not s : not_geoarrow s \/ (exists t text, schema_of s t text /\ refused (text_of text)) -> makes vs (FromSchema s) None
| makes_storage s t text m : well_formed s -> exists_type t -> stored t s -> string_says text m ->
    makes vs (FromStorage s (type_name t) text) (Some (value_of_metadata t m))
| makes_storage_not s name text : well_formed s -> (firstn 12 name = $"geoarrow.wkb" -> name = $"geoarrow.wkb") ->
    (forall t, exists_type t -> name = type_name t -> ~ stored t s) \/ string_refused text -> makes vs (FromStorage s name text) None
| makes_copy i v : value_at vs i v -> makes vs (CopyOf i) (Some v)
| makes_with_geometry i g v d c g0 o : value_at vs i v -> parts_of (v_type v) = (g0, d, c) -> recomposed v g d c o ->
    makes vs (WithGeometryType i g) o
| makes_with_coords i c v g d c0 o : value_at vs i v -> parts_of (v_type v) = (g, d, c0) -> recomposed v g d c o ->
    makes vs (WithCoordType i c) o
| makes_with_dims i d v g c d0 o : value_at vs i v -> parts_of (v_type v) = (g, d0, c) -> recomposed v g d c o ->
    makes vs (WithDimensions i d) o
| makes_with_edges i e v : value_at vs i v -> makes vs (WithEdgeType i e) (Some (Value (v_type v) e (v_crs_type v) (v_crs v)))
| makes_with_crs i crs z v : value_at vs i v -> makes vs (WithCrs i crs z) (Some (Value (v_type v) (v_edges v) z (told crs)))
| makes_lonlat i v : value_at vs i v -> makes vs (WithCrsLonLat i) (Some (Value (v_type v) (v_edges v) CRS_PROJJSON crs_wgs84))
| makes_simple i v g d c g' o : value_at vs i v -> parts_of (v_type v) = (g, d, c) -> simple_of g = Some g' -> recomposed v g' d c o ->
    makes vs (Simple i) o
| makes_simple_not i v g d c : value_at vs i v -> parts_of (v_type v) = (g, d, c) -> simple_of g = None -> makes vs (Simple i) None
| makes_multi i v g d c g' o : value_at vs i v -> parts_of (v_type v) = (g, d, c) -> multi_of g = Some g' -> recomposed v g' d c o ->
    makes vs (Multi i) o
| makes_multi_not i v g d c : value_at vs i v -> parts_of (v_type v) = (g, d, c) -> multi_of g = None -> makes vs (Multi i) None.

(** The values with another at one place. *)
Definition replaced {A} (vs : list A) (i : nat) (v : A) : list A := firstn i vs ++ [v] ++ skipn (S i) vs.

(** One step of a program, and whether it throws: the values before and after it. *)
Inductive steps : list (option value) -> op -> bool -> list (option value) -> Prop :=
| steps_create vs k v : makes vs k (Some v) -> steps vs (Create k) false (vs ++ [Some v])
| steps_throw vs k : makes vs k None -> steps vs (Create k) true vs
| steps_move vs i v : value_at vs i v -> steps vs (Move i) false (replaced (vs ++ [Some v]) i (Some no_value))
| steps_assign vs i j u v : value_at vs i u -> value_at vs j v -> steps vs (Assign i j) false (replaced vs i (Some v))
| steps_move_assign vs i j u v : value_at vs i u -> value_at vs j v ->
    steps vs (MoveAssign i j) false (replaced (replaced vs i (Some v)) j (Some no_value))
| steps_destroy vs i u : value_at vs i u -> steps vs (Destroy i) false (replaced vs i None).
Inductive history : list (option value) -> list op -> list bool -> list (option value) -> Prop :=
| history_nil vs : history vs [] [] vs
| history_cons vs p t vs1 ps ts vs2 : steps vs p t vs1 -> history vs1 ps ts vs2 -> history vs (p :: ps) (t :: ts) vs2.

(** ** Arguments *)

(** Texts of at most 10^9 bytes; enumerators; a CRS that metadata can carry: a JSON string or object (or what passes for one), or a
    text without backslashes that does not begin like one. *)
Definition moderate (b : bytes) : Prop := Z.of_nat (length b) <= 1000000000.
Definition carriable (crs : bytes) : Prop := carried_crs crs \/ (loose_value crs /\ starts 34 crs || starts 123 crs = true).
Definition geometry_enumerator (g : Z) : Prop := 0 <= g <= 7 \/ g = 990.
Definition proper_maker (k : maker) : Prop :=
  match k with
  | FromParts g d c text => geometry_enumerator g /\ 0 <= d <= 4 /\ 0 <= c <= 2 /\ moderate text
  | FromType z text => (z = 0 \/ exists t, exists_type t /\ z = type_id t) /\ moderate text
  | FromSchema s => forall t text, schema_of s t text -> moderate (text_of text)
  | FromStorage _ _ text => moderate text
  | WithGeometryType _ g => geometry_enumerator g
  | WithCoordType _ c => 0 <= c <= 2
  | WithDimensions _ d => 0 <= d <= 4
  | WithEdgeType _ e => 0 <= e <= 5
  | WithCrs _ crs z => 0 <= z <= 5 /\ (z = CRS_NONE \/ carriable crs) /\ moderate crs
  | _ => True
  end.
Definition proper (p : op) : Prop := match p with Create k => proper_maker k | _ => True end.

(** ** Texts that show a value *)
Definition modifiers (v : value) (t : geo_type) : list bytes :=
  match t with Serialized _ Large => [$"large"] | Serialized _ View => [$"view"] | _ => [] end ++
  (if v_edges v =? EDGE_PLANAR then [] else [edge_type_string (v_edges v)]) ++
  match t with Native _ _ Interleaved => [$"interleaved"] | _ => [] end.
Definition dim_suffix (t : geo_type) : bytes :=
  match t with Native _ XYZ _ => $"_z" | Native _ XYM _ => $"_m" | Native _ XYZM _ => $"_zm" | _ => [] end.
Definition crs_label (v : value) : bytes :=
  if v_crs_type v =? CRS_NONE then []
  else if v_crs_type v =? CRS_UNKNOWN then match v_crs v with [] => [] | _ => $"<" ++ v_crs v ++ $">" end
  else $"<" ++ crs_type_string (v_crs_type v) ++ $":" ++ v_crs v ++ $">".
(** No more than [max] bytes of a CRS are shown, if [max] is 4 at least. *)
Definition clipped (max : Z) (b : bytes) : bytes :=
  if Z.of_nat (length b) <? max then b else firstn (Z.to_nat (max - 4)) b ++ $"...>".
Definition shown (max : Z) (v : value) : bytes :=
  match v_type v with
  | None => $"<Uninitialized GeometryDataType>"
  | Some t => flat_map (fun m => m ++ $" ") (modifiers v t) ++ type_name t ++ dim_suffix t ++ clipped max (crs_label v)
  end.

(** ** What can be observed of an object of value [v] *)
Section Observations.
  Variable junk : nat -> N.
  Definition looks_like (st : store) (i : nat) (v : value) : Prop :=
    exists o, object_at st i = Ok o /\
      o_type o = id_of (v_type v) /\ (o_geometry o, o_dims o, o_coords o) = parts_of (v_type v) /\
      o_edges o = v_edges v /\ o_crs_type o = v_crs_type v /\ crs junk st o = Ok (v_crs v) /\
      num_dimensions o = match v_type v with Some (Native _ d _) => Z.of_nat (ndim d) | _ => -1 end /\
      (forall max, 4 <= max < 2 ^ 64 -> to_string junk st o max = Ok (shown max v)) /\
      (** the extension name and metadata, of which the latter say the value without the type *)
      extension_name o = match v_type v with Some t => Ok (type_name t) | None => Err CppWkbModel.THROWN end /\
      (exists text m, extension_metadata junk st o = Ok text /\ string_says text m /\
         forall t, value_of_metadata t m = retyped v t) /\
      (** the schema, from which the same object can be made; and the storage type *)
      match v_type v with
      | Some t => (exists s, init_schema st o = Ok s /\ forall vs, makes vs (FromSchema s) (Some (retyped v t))) /\
          (exists s, init_storage_schema o = Ok s /\ well_formed s /\ stored t s)
      | None => init_schema st o = Err CppWkbModel.THROWN /\ init_storage_schema o = Err CppWkbModel.THROWN
      end.
End Observations.
