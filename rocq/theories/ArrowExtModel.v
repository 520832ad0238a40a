(** * The extension type for Arrow C++: hpp/arrow_extension_type.hpp

    The types of Arrow C++ are a parameter, with what the code uses of them: import from a schema and export to one, which may fail, and
    Equals. *)
From Verif Require Import Base Text MetadataModel SchemaModel KernelStartModel CppWkbModel CppDataTypeModel.
Local Open Scope Z_scope.

Section Extension.
  Variable dtype : Type.
  Variable null_type : dtype.
  Variable import : schema -> option dtype.
  Variable export : dtype -> option schema.
  Variable equal : dtype -> dtype -> bool.
  (** The content of fresh memory. *)
  Variable junk : nat -> N.

  (** lines 135-136, and the storage type of the base class. The string of the GeometryDataType is called 0. *)
  Record ext := Ext { x_storage : dtype; x_type : object; x_name : bytes }.

  (** ::arrow::Result: the value, or Status::Invalid. Simplification: its text is left out. *)
  Inductive result := Got (e : ext) | Invalid.

  (** The only object that an extension type's GeometryDataType can refer to is itself. *)
  Definition alone (o : object) : store := Store [Some o] (S (o_buffer o)).

  (** lines 138-143 and 150-154: FromStorageAndType, and the constructor that it calls. *)
  Definition from_storage_and_type (d : dtype) (o : object) : outcome ext :=
    do name <- extension_name o;
    Ok (Ext d (copy_object o 0) name).

  (** lines 15-16: the copy constructor *)
  Definition copied (e : ext) : outcome result := do e <- from_storage_and_type (x_storage e) (x_type e); Ok (Got e).

  (** lines 145-148 and 156-159: DummyType *)
  Definition dummy (name : bytes) : ext := Ext null_type (default_object 0) name.

  (** [try { ... } catch (Exception& e) { return ::arrow::Status::Invalid(e.what()); }] *)
  Definition caught (r : outcome result) : outcome result := match r with Err _ => Ok Invalid | r => r end.

  (** lines 42-53: Make(type, metadata). Of the type only its identifier is used. *)
  Definition make_of (o : object) (text : bytes) : outcome result :=
    caught (do o <- make_from_type (o_type o) text 1;
            do s <- init_storage_schema o;
            match import s with
            | None => Ok Invalid
            | Some d => do e <- from_storage_and_type d o; Ok (Got e)
            end).

  (** lines 32-40: Make(type identifier, metadata) *)
  Definition make_type_id (z : Z) (text : bytes) : outcome result := caught (do o <- make_from_type z [] 1; make_of o text).

  (** lines 18-30: Make(geometry type, dimensions, coordinate type, metadata) *)
  Definition make_parts (g d c : Z) (text : bytes) : outcome result := caught (do o <- make_from_parts g d c text 1; make_of o text).

  (** lines 90-103: Deserialize *)
  Definition deserialize (e : ext) (storage : dtype) (text : bytes) : outcome result :=
    match export storage with
    | None => Ok Invalid
    | Some s =>
        caught (do o <- make_from_storage s (x_name e) text 1;
                do e <- from_storage_and_type storage o;
                Ok (Got e))
    end.

  (** line 105: Serialize *)
  Definition serialize_ext (e : ext) : outcome bytes := extension_metadata junk (alone (x_type e)) (x_type e).

  (** lines 74-78: ExtensionEquals *)
  Definition extension_equals (a b : ext) : outcome bool :=
    if same_bytes (x_name a) (x_name b) then
      do s <- serialize_ext a;
      do t <- serialize_ext b;
      Ok (if same_bytes s t then equal (x_storage a) (x_storage b) else false)
    else Ok false.

  (** lines 80-83: ToString; GeometryDataType::ToString has 40 for the size of the CRS. *)
  Definition ext_to_string (e : ext) : outcome bytes :=
    do s <- to_string junk (alone (x_type e)) (x_type e) 40;
    Ok ($"GeometryExtensionType(" ++ s ++ $")").

  (** What the methods below do with the storage type and an object made from the extension type's. *)
  Definition with_changed (e : ext) (k : maker) : outcome result :=
    do o <- make junk (alone (x_type e)) k 1;
    do e <- from_storage_and_type (x_storage e) o;
    Ok (Got e).

  (** How users get extension types: lines 18-53, 15-16, 109-132, and reading back what was written: the storage type, the name and what
      Serialize gives. *)
  Inductive expr :=
  | MakeParts (g d c : Z) (text : bytes)
  | MakeType (z : Z) (text : bytes)
  | MakeOf (o : object) (text : bytes)
  | Copied (e : expr)
  | GeometryChanged (e : expr) (g : Z)
  | CoordsChanged (e : expr) (c : Z)
  | DimensionsChanged (e : expr) (d : Z)
  | EdgesChanged (e : expr) (z : Z)
  | CrsChanged (e : expr) (crs : bytes) (crs_type : Z)
  | ReadBack (e : expr).

  Definition read_back (e : ext) : outcome result :=
    do text <- serialize_ext e;
    deserialize (dummy (x_name e)) (x_storage e) text.

  (** A result that is no value is passed on. *)
  Definition and_then (r : outcome result) (f : ext -> outcome result) : outcome result :=
    do r <- r;
    match r with Got e => f e | Invalid => Ok Invalid end.
  Fixpoint eval (e : expr) : outcome result :=
    match e with
    | MakeParts g d c text => make_parts g d c text
    | MakeType z text => make_type_id z text
    | MakeOf o text => make_of o text
    | Copied e => and_then (eval e) copied
    | GeometryChanged e g => and_then (eval e) (fun e => with_changed e (WithGeometryType 0 g))
    | CoordsChanged e c => and_then (eval e) (fun e => with_changed e (WithCoordType 0 c))
    | DimensionsChanged e d => and_then (eval e) (fun e => with_changed e (WithDimensions 0 d))
    | EdgesChanged e z => and_then (eval e) (fun e => with_changed e (WithEdgeType 0 z))
    | CrsChanged e crs z => and_then (eval e) (fun e => with_changed e (WithCrs 0 crs z))
    | ReadBack e => and_then (eval e) read_back
    end.

  (** lines 161-165: all_ext_names *)
  Definition all_ext_names : list bytes :=
    [$"geoarrow.wkb"; $"geoarrow.point"; $"geoarrow.linestring"; $"geoarrow.polygon"; $"geoarrow.multipoint"; $"geoarrow.multilinestring";
     $"geoarrow.multipolygon"].

  (** The registry of Arrow C++, as the list of the names in it: a name can be added once, and removed when it is there. *)
  Definition registered (names : list bytes) (name : bytes) : bool := existsb (same_bytes name) names.
  (** lines 55-62: RegisterAll, with the names that are left. The result says whether the status is OK. *)
  Fixpoint register_names (todo names : list bytes) : list bytes * bool :=
    match todo with
    | [] => (names, true)
    | n :: todo => if registered names n then (names, false) else register_names todo (n :: names)
    end.
  Definition register_all (names : list bytes) : list bytes * bool := register_names all_ext_names names.
  (** lines 64-70: UnregisterAll *)
  Fixpoint unregister_names (todo names : list bytes) : list bytes * bool :=
    match todo with
    | [] => (names, true)
    | n :: todo => if registered names n then unregister_names todo (filter (fun m => negb (same_bytes m n)) names) else (names, false)
    end.
  Definition unregister_all (names : list bytes) : list bytes * bool := unregister_names all_ext_names names.

  (** A type that is read where these names are registered: None is the storage type. *)
  Definition received (names : list bytes) (e : ext) : outcome (option result) :=
    if registered names (x_name e) then do r <- read_back e; Ok (Some r) else Ok None.
End Extension.
Arguments Ext {dtype}. Arguments x_storage {dtype}. Arguments x_type {dtype}. Arguments x_name {dtype}.
Arguments Got {dtype}. Arguments Invalid {dtype}.
