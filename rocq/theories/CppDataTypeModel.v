(** * Type objects in C++: hpp/geometry_data_type.hpp

    Objects live in a store. An object owns a std::string and holds a view that points into some string: every string has a
    name, and whenever a string is assigned, moved or destroyed the views of its former content become invalid (they may
    stay valid in an implementation; here reading them is undefined). An object that is returned is constructed in its place
    (copies and moves that may be elided are). *)
From Verif Require Import Base Text TypesModel MetadataModel SchemaModel KernelStartModel CppWkbModel.
Local Open Scope Z_scope.

(** geometry_data_type.hpp lines 340-342: the members of GeometryDataType that are used. [o_data] is the string that
    metadata_view_.crs.data points into, or NULL, [o_size] is metadata_view_.crs.size_bytes; [o_buffer] and [o_string] are
    crs_. *)
Record object := Object
  { o_type : Z; o_geometry : Z; o_dims : Z; o_coords : Z; o_edges : Z; o_crs_type : Z;
    o_data : option nat; o_size : Z; o_buffer : nat; o_string : bytes }.

(** The objects, None when destroyed, and the next name of a string. *)
Record store := Store { st_objects : list (option object); st_fresh : nat }.
Definition empty_store : store := Store [] 0.

(** An object that is used must exist. *)
Definition object_at (st : store) (i : nat) : outcome object :=
  match nth_error (st_objects st) i with Some (Some o) => Ok o | _ => UB end.
Definition put_object (st : store) (i : nat) (o : option object) : store :=
  Store (firstn i (st_objects st) ++ [o] ++ skipn (S i) (st_objects st)) (st_fresh st).
Definition add_object (st : store) (o : object) : store := Store (st_objects st ++ [Some o]) (S (st_fresh st)).

(** The content of a string that exists. *)
Fixpoint string_named (os : list (option object)) (b : nat) : option bytes :=
  match os with
  | [] => None
  | Some o :: os => if Nat.eqb (o_buffer o) b then Some (o_string o) else string_named os b
  | None :: os => string_named os b
  end.
(** The bytes that metadata_view_.crs shows: a view of no bytes is not read. *)
Definition crs_view (st : store) (o : object) : outcome bytes :=
  if o_size o =? 0 then Ok []
  else match o_data o with
       | None => UB
       | Some b =>
           match string_named (st_objects st) b with
           | None => UB
           | Some s => if o_size o <=? Z.of_nat (length s) then Ok (firstn (Z.to_nat (o_size o)) s) else UB
           end
       end.
(** metadata_view_ *)
Definition metadata_of (st : store) (o : object) : outcome metadata :=
  do crs <- crs_view st o; Ok (Metadata (o_edges o) (o_crs_type o) crs).

(** metadata.c lines 590-617: kCrsWgs84 *)
Definition crs_wgs84 : bytes :=
  $"{""type"":""GeographicCRS"",""name"":""WGS 84 (CRS84)"",""datum_ensemble"":{""name"":""World Geodeti" ++
  $"c System 1984 ensemble"",""members"":[{""name"":""World Geodetic System 1984 (Transit)"",""id"":{""a" ++
  $"uthority"":""EPSG"",""code"":1166}},{""name"":""World Geodetic System 1984 (G730)"",""id"":{""author" ++
  $"ity"":""EPSG"",""code"":1152}},{""name"":""World Geodetic System 1984 (G873)"",""id"":{""authority""" ++
  $":""EPSG"",""code"":1153}},{""name"":""World Geodetic System 1984 (G1150)"",""id"":{""authority"":""E" ++
  $"PSG"",""code"":1154}},{""name"":""World Geodetic System 1984 (G1674)"",""id"":{""authority"":""EPSG""" ++
  $",""code"":1155}},{""name"":""World Geodetic System 1984 (G1762)"",""id"":{""authority"":""EPSG"",""c" ++
  $"ode"":1156}},{""name"":""World Geodetic System 1984 (G2139)"",""id"":{""authority"":""EPSG"",""code""" ++
  $":1309}}],""ellipsoid"":{""name"":""WGS 84"",""semi_major_axis"":6378137,""inverse_flattening"":298.2" ++
  $"57223563},""accuracy"":""2.0"",""id"":{""authority"":""EPSG"",""code"":6326}},""coordinate_system"":" ++
  $"{""subtype"":""ellipsoidal"",""axis"":[{""name"":""Geodetic longitude"",""abbreviation"":""Lon"",""d" ++
  $"irection"":""east"",""unit"":""degree""},{""name"":""Geodetic latitude"",""abbreviation"":""Lat"",""" ++
  $"direction"":""north"",""unit"":""degree""}]},""scope"":""Not known."",""area"":""World."",""bbox"":{" ++
  $"""south_latitude"":-90,""west_longitude"":-180,""north_latitude"":90,""east_longitude"":180},""id"":" ++
  $"{""authority"":""OGC"",""code"":""CRS84""}}".

Section DataType.
  (** The content of fresh memory. *)
  Variable junk : nat -> N.
  (** What a string with this name has after its content was moved away. *)
  Variable leftover : nat -> bytes.

  Definition malloc (n : Z) : bytes := map junk (seq 0 (Z.to_nat n)).

  (** lines 17, 340-342: the default constructor *)
  Definition default_object (b : nat) : object := Object TYPE_UNINITIALIZED 0 0 0 0 0 None 0 b [].

  (** lines 19-24 (copy construction) and 26-32 (copy assignment): the copy, whose string is called [b] *)
  Definition copy_object (o : object) (b : nat) : object :=
    Object (o_type o) (o_geometry o) (o_dims o) (o_coords o) (o_edges o) (o_crs_type o) (Some b) (o_size o) b (o_string o).

  (** lines 47-48: the object that was moved from; its string, now called [b], has an unspecified content *)
  Definition moved_object (b : nat) : object := Object 0 0 0 0 0 0 None 0 b (leftover b).

  (** lines 344-356: the private constructor *)
  Definition construct (t g d c : Z) (m : metadata) (b : nat) : object :=
    Object t g d c (m_edges m) (m_crs_type m) (Some b) (Z.of_nat (length (m_crs m))) b (m_crs m).

  (** exception.hpp: GEOARROW_THROW_NOT_OK *)
  Definition throw_not_ok {A} (o : outcome A) : outcome A :=
    match o with Err _ => Err THROWN | _ => o end.

  (** lines 85-90: reading metadata that a std::string holds (a NUL follows) *)
  Definition string_metadata (text : bytes) : outcome metadata :=
    throw_not_ok (metadata_view_init (Some 0%N) (S (length text)) text).

  (** lines 70-91: Make(type, metadata) *)
  Definition make_from_type (t : Z) (text : bytes) (b : nat) : outcome object :=
    if t =? TYPE_UNINITIALIZED then Err THROWN
    else
      do v <- throw_not_ok (schema_view_init_from_type t);
      do m <- string_metadata text;
      Ok (construct (gv_type v) (gv_geometry_type v) (gv_dimensions v) (gv_coord_type v) m b).

  (** lines 53-68: Make(geometry_type, dimensions, coord_type, metadata) *)
  Definition make_from_parts (g d c : Z) (text : bytes) (b : nat) : outcome object :=
    let t := make_type g d c in
    if t =? TYPE_UNINITIALIZED then Err THROWN else make_from_type t text b.

  (** lines 96-107: Make(schema) *)
  Definition make_from_schema (s : schema) (b : nat) : outcome object :=
    do v <- throw_not_ok (schema_view_init s);
    do (text, past) <- metadata_text (gv_metadata v);
    do m <- throw_not_ok (metadata_view_init past (S (length text)) text);
    Ok (construct (gv_type v) (gv_geometry_type v) (gv_dimensions v) (gv_coord_type v) m b).

  (** lines 113-131: Make(schema, extension_name, metadata) *)
  Definition make_from_storage (s : schema) (name text : bytes) (b : nat) : outcome object :=
    do v <- throw_not_ok (schema_view_init_from_storage s (StrView (name ++ [0%N]) 0 (Z.of_nat (length name))));
    do m <- string_metadata text;
    Ok (construct (gv_type v) (gv_geometry_type v) (gv_dimensions v) (gv_coord_type v) m b).

  (** lines 233-240: extension_metadata *)
  Definition extension_metadata (st : store) (o : object) : outcome bytes :=
    do m <- metadata_of st o;
    do (n, _) <- serialize m [] 0;
    do (_, out) <- serialize m (malloc n) n;
    Ok out.

  (** lines 267-274: crs *)
  Definition crs (st : store) (o : object) : outcome bytes :=
    do b <- crs_view st o;
    do (n, _) <- unescape_crs b None 0;
    do (_, out) <- unescape_crs b (Some (malloc n)) n;
    or_ub out.

  (** lines 222-231: extension_name *)
  Definition extension_name (o : object) : outcome bytes :=
    match extension_name_from_type (o_type o) with None => Err THROWN | Some name => Ok name end.

  (** lines 249-261: num_dimensions *)
  Definition num_dimensions (o : object) : Z :=
    if o_dims o =? DIM_XY then 2
    else if (o_dims o =? DIM_XYZ) || (o_dims o =? DIM_XYM) then 3
    else if o_dims o =? DIM_XYZM then 4
    else -1.

  (** geoarrow_type_inline.h lines 107-122: GeoArrowDimensionsString *)
  Definition dimensions_string (d : Z) : bytes :=
    if d =? DIM_UNKNOWN then $"unknown"
    else if d =? DIM_XY then $"xy"
    else if d =? DIM_XYZ then $"xyz"
    else if d =? DIM_XYM then $"xym"
    else if d =? DIM_XYZM then $"xyzm"
    else $"<not valid>".

  (** lines 332-334: max_crs_size is a size_t; substr(0, n) takes no more than there is *)
  Definition shortened (suffix : bytes) (max : Z) : bytes :=
    if max <=? Z.of_nat (length suffix)
    then firstn (Z.to_nat ((max - 4) mod 2 ^ 64)) suffix ++ $"...>"
    else suffix.

  (** lines 276-337: ToString *)
  Definition to_string (st : store) (o : object) (max : Z) : outcome bytes :=
    if o_type o =? TYPE_UNINITIALIZED then Ok $"<Uninitialized GeometryDataType>"
    else
      do name <- extension_name o;
      let dims :=
        if (o_dims o =? DIM_UNKNOWN) || (o_dims o =? DIM_XY) then []
        else $"_" ++ skipn 2 (dimensions_string (o_dims o)) in
      let modifiers :=
        (if (o_type o =? TYPE_LARGE_WKT) || (o_type o =? TYPE_LARGE_WKB) then [$"large"] else []) ++
        (if (o_type o =? TYPE_WKT_VIEW) || (o_type o =? TYPE_WKB_VIEW) then [$"view"] else []) ++
        (if negb (o_edges o =? EDGE_PLANAR) then [edge_type_string (o_edges o)] else []) ++
        (if o_coords o =? CT_INTERLEAVED then [$"interleaved"] else []) in
      let type_prefix := flat_map (fun modifier => modifier ++ $" ") modifiers in
      do suffix <-
        (if o_crs_type o =? CRS_NONE then Ok []
         else if o_crs_type o =? CRS_UNKNOWN then crs st o
         else do c <- crs st o; Ok (crs_type_string (o_crs_type o) ++ $":" ++ c));
      let suffix := match suffix with [] => [] | _ :: _ => $"<" ++ suffix ++ $">" end in
      Ok (type_prefix ++ name ++ dims ++ shortened suffix max).

  (** lines 211-216: InitSchema *)
  Definition init_schema (st : store) (o : object) : outcome schema :=
    do s <- throw_not_ok (schema_init_extension (o_type o));
    do m <- metadata_of st o;
    throw_not_ok (schema_set_geoarrow_metadata s m).

  (** lines 218-220: InitStorageSchema *)
  Definition init_storage_schema (o : object) : outcome schema := throw_not_ok (schema_init (o_type o)).

  (** ** New objects *)
  Inductive maker :=
  | Default
  | FromParts (g d c : Z) (text : bytes)
  | FromType (t : Z) (text : bytes)
  | FromSchema (s : schema)
  | FromStorage (s : schema) (name text : bytes)
  | CopyOf (i : nat)
  | WithGeometryType (i : nat) (g : Z)
  | WithCoordType (i : nat) (c : Z)
  | WithDimensions (i : nat) (d : Z)
  | WithEdgeType (i : nat) (e : Z)
  | WithCrs (i : nat) (crs : bytes) (crs_type : Z)
  | WithCrsLonLat (i : nat)
  | Simple (i : nat)
  | Multi (i : nat).

  (** lines 133-135: WithGeometryType *)
  Definition with_geometry_type (st : store) (o : object) (g : Z) (b : nat) : outcome object :=
    do text <- extension_metadata st o;
    make_from_parts g (o_dims o) (o_coords o) text b.

  (** The object that is made, with the name [b] for its string. *)
  Definition make (st : store) (k : maker) (b : nat) : outcome object :=
    match k with
    | Default => Ok (default_object b)
    | FromParts g d c text => make_from_parts g d c text b
    | FromType t text => make_from_type t text b
    | FromSchema s => make_from_schema s b
    | FromStorage s name text => make_from_storage s name text b
    | CopyOf i => do o <- object_at st i; Ok (copy_object o b)
    | WithGeometryType i g => do o <- object_at st i; with_geometry_type st o g b
    | WithCoordType i c =>  (** lines 137-139 *)
        do o <- object_at st i; do text <- extension_metadata st o; make_from_parts (o_geometry o) (o_dims o) c text b
    | WithDimensions i d =>  (** lines 141-143, 167-173 *)
        do o <- object_at st i; do text <- extension_metadata st o; make_from_parts (o_geometry o) d (o_coords o) text b
    | WithEdgeType i e =>  (** lines 145-149 *)
        do o <- object_at st i;
        let n := copy_object o b in
        Ok (Object (o_type n) (o_geometry n) (o_dims n) (o_coords n) e (o_crs_type n) (o_data n) (o_size n) (o_buffer n) (o_string n))
    | WithCrs i crs crs_type =>  (** lines 151-159 *)
        do o <- object_at st i;
        Ok (construct (o_type o) (o_geometry o) (o_dims o) (o_coords o) (Metadata (o_edges o) crs_type crs) b)
    | WithCrsLonLat i =>  (** lines 161-165; metadata.c lines 619-623: GeoArrowMetadataSetLonLat *)
        do o <- object_at st i;
        Ok (construct (o_type o) (o_geometry o) (o_dims o) (o_coords o) (Metadata (o_edges o) CRS_PROJJSON crs_wgs84) b)
    | Simple i =>  (** lines 175-191 *)
        do o <- object_at st i;
        if (o_geometry o =? GT_POINT) || (o_geometry o =? GT_MULTIPOINT) then with_geometry_type st o GT_POINT b
        else if (o_geometry o =? GT_LINESTRING) || (o_geometry o =? GT_MULTILINESTRING) then with_geometry_type st o GT_LINESTRING b
        else if (o_geometry o =? GT_POLYGON) || (o_geometry o =? GT_MULTIPOLYGON) then with_geometry_type st o GT_POLYGON b
        else Err THROWN
    | Multi i =>  (** lines 193-209 *)
        do o <- object_at st i;
        if (o_geometry o =? GT_POINT) || (o_geometry o =? GT_MULTIPOINT) then with_geometry_type st o GT_MULTIPOINT b
        else if (o_geometry o =? GT_LINESTRING) || (o_geometry o =? GT_MULTILINESTRING) then with_geometry_type st o GT_MULTILINESTRING b
        else if (o_geometry o =? GT_POLYGON) || (o_geometry o =? GT_MULTIPOLYGON) then with_geometry_type st o GT_MULTIPOLYGON b
        else Err THROWN
    end.

  (** ** Programs *)
  Inductive op :=
  | Create (k : maker)
  | Move (i : nat)
  | Assign (i j : nat)
  | MoveAssign (i j : nat)
  | Destroy (i : nat).

  Definition next (st : store) : store := Store (st_objects st) (S (st_fresh st)).

  (** A step, and whether it throws: then nothing has changed. *)
  Definition step (st : store) (p : op) : outcome (store * bool) :=
    match p with
    | Create k =>
        match make st k (st_fresh st) with
        | Ok o => Ok (add_object st o, false)
        | Err _ => Ok (st, true)
        | UB => UB
        | NoFuel => NoFuel
        end
    | Move j =>  (** lines 34, 41-49: a new object, made from the object [j] *)
        do o <- object_at st j;
        let st := add_object st (copy_object o (st_fresh st)) in
        Ok (next (put_object st j (Some (moved_object (st_fresh st)))), false)
    | Assign i j =>  (** lines 26-32 *)
        do _ <- object_at st i;
        do o <- object_at st j;
        Ok (next (put_object st i (Some (copy_object o (st_fresh st)))), false)
    | MoveAssign i j =>  (** lines 36-49 *)
        do _ <- object_at st i;
        do o <- object_at st j;
        let st := next (put_object st i (Some (copy_object o (st_fresh st)))) in
        Ok (next (put_object st j (Some (moved_object (st_fresh st)))), false)
    | Destroy i =>
        do _ <- object_at st i;
        Ok (put_object st i None, false)
    end.

  Fixpoint run (st : store) (ps : list op) : outcome (store * list bool) :=
    match ps with
    | [] => Ok (st, [])
    | p :: ps => do (st, t) <- step st p; do (st, ts) <- run st ps; Ok (st, t :: ts)
    end.
End DataType.
