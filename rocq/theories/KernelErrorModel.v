(** * The messages of kernels that are not started, and scalar functions: src/geoarrow/kernel.c, scalar_udf.c *)
From Verif Require Import Base Text TypesModel GeomSpec VisitorModel BufferModel ArrowModel WkbWriterModel WktWriterModel
  BuilderModel WktReaderModel ArrayReaderModel KernelModel ConversionModel MetadataModel SchemaModel KernelStartModel
  WktErrorModel MetadataErrorModel SchemaErrorModel.
Local Open Scope Z_scope.

(** What a function does with the message in hand: it goes on, or it returns a code; or it does what is undefined ([Lost]). *)
Inductive spoken (A : Type) := Goes (a : A) (message : bytes) | Stops (code : Z) (message : bytes) | Lost.
Arguments Goes {A}. Arguments Stops {A}. Arguments Lost {A}.
Definition onward {A B} (x : spoken A) (k : A -> bytes -> spoken B) : spoken B :=
  match x with Goes a m => k a m | Stops c m => Stops c m | Lost => Lost end.
(** A call that is not given the message. *)
Definition quiet {A} (o : outcome A) (m : bytes) : spoken A :=
  match o with Ok a => Goes a m | Err c => Stops c m | UB | NoFuel => Lost end.
(** GeoArrowErrorSet and then a return. *)
Definition stops_with {A} (code : Z) (text : bytes) : spoken A := Stops code (snd (error_set text)).

Section Start.
  Variable print_double : N -> Z -> bytes.
  Variable junk : nat -> nat -> N.
  (** What nanoarrow says if it refuses the schema. *)
  Variable nano : bytes.

  (** schema_view.c lines 351-365: GeoArrowSchemaViewInit, as in SchemaErrorModel.v *)
  Definition s_view (s : schema) (m : bytes) : spoken schema_view :=
    match e_view_init s with
    | Accept v => Goes v m
    | Reject text => stops_with EINVAL text
    | Foreign c => Stops c nano
    | Broken => Lost
    end.

  (** array_reader.c lines 166-196: GeoArrowArrayReaderInitFromSchema *)
  Definition s_reader_init (s : schema) (m : bytes) : spoken areader :=
    onward (s_view s m) (fun v m =>
    match ArrayReaderModel.reader_init (gv_type v) with
    | Ok r => Goes r m
    | Err c => stops_with c $"GeoArrowArrayReaderInitInternal() failed"
    | UB | NoFuel => Lost
    end).

  (** kernel.c lines 229-253: kernel_visitor_start up to the call of finish_start *)
  Definition s_visitor_start (s : schema) (m : bytes) : spoken areader :=
    onward (s_view s m) (fun v m =>
    if gv_type v =? TYPE_UNINITIALIZED then Stops EINVAL m else s_reader_init s m).

  (** kernel.c lines 135-153: kernel_get_arg_long *)
  Definition s_arg_long (options : option bytes) (key : bytes) (required : bool) (m : bytes) : spoken (option Z) :=
    onward (quiet (get_value options key) m) (fun v m =>
    match v with
    | None => if required then stops_with EINVAL ($"Missing required parameter '" ++ key ++ $"'") else Goes None m
    | Some v =>
        onward (quiet (or_ub (sv_bytes v)) m) (fun b m =>
        onward (quiet (atoi (firstn 15 (until_nul b))) m) (fun z m => Goes (Some z) m))
    end).

  (** kernel.c lines 473-488: schema_box *)
  Definition s_schema_box (extension_metadata : option strview) (m : bytes) : spoken schema :=
    onward (quiet (metadata_text extension_metadata) m) (fun '(text, past) m =>
    match metadata_view_init past (S (length text)) text with
    | Ok md =>
        if negb (m_edges md =? EDGE_PLANAR) then stops_with EINVAL $"box kernel does not support non-planar edges"
        else
          onward (quiet (schema_init_extension TYPE_BOX) m) (fun s m =>
          quiet (schema_set_geoarrow_metadata s md) m)
    | Err c => onward (quiet (metadata_message past (S (length text)) text m) m) (fun message _ => Stops c message)
    | UB | NoFuel => Lost
    end).
  (** kernel.c lines 629-631 and 657-659 *)
  Definition s_box_out (s : schema) (m : bytes) : spoken schema :=
    onward (s_view s m) (fun v m => s_schema_box (gv_metadata v) m).

  (** kernel.c lines 311-341: finish_start_as_geoarrow. [again]: the kernel has been started before. *)
  Definition s_as_geoarrow (again : bool) (s : schema) (options : option bytes) (m : bytes) :
      spoken (kernel awriter arrow_array * awriter * schema) :=
    onward (s_arg_long options $"type" true m) (fun t m =>
    onward (quiet (or_ub t) m) (fun t m =>
    if again then stops_with EINVAL $"Expected exactly one call to start(as_geoarrow)"
    else
      onward (quiet (as_geoarrow print_double junk t) m) (fun '(k, w) m =>
      onward (quiet (schema_init_extension t) m) (fun tmp m =>
      match schema_set_geoarrow_metadata_from tmp s with
      | Ok out => Goes (k, w, out) m
      | Err c => stops_with c $"GeoArrowSchemaSetMetadataFrom() failed"
      | UB | NoFuel => Lost
      end)))).

  (** The start functions, as in KernelStartModel.v *)
  Definition s_start (again : bool) (name : kernel_name) (s : schema) (options : option bytes) (m : bytes) : spoken (started * schema) :=
    match name with
    | NVoid => Goes (StVoid, init_from_type $"n") m
    | NVoidAgg => Goes (StVoidAgg, init_from_type $"n") m
    | NVisitVoidAgg => onward (s_visitor_start s m) (fun r m => Goes (StVisitVoidAgg r tt, init_from_type $"n") m)
    | NFormatWkt =>
        onward (s_visitor_start s m) (fun r m =>
        onward (s_arg_long options $"precision" false m) (fun precision m =>
        onward (s_arg_long options $"max_element_size_bytes" false m) (fun max m =>
        let given o default := match o with Some z => z | None => default end in
        Goes (StFormatWkt (given precision 16) (given max (-1)) r wkt_init, init_from_type $"u") m)))
    | NAsGeoarrow =>
        onward (s_visitor_start s m) (fun r m =>
        onward (s_as_geoarrow again s options m) (fun '(k, w, out) m => Goes (StAsGeoarrow k r w, out) m))
    | NUniqueTypes => onward (s_visitor_start s m) (fun r m => Goes (StUniqueTypes r gtypes_init, init_from_type $"i") m)
    | NBox => onward (s_visitor_start s m) (fun r m => onward (s_box_out s m) (fun out m => Goes (StBox r box_init, out) m))
    | NBoxAgg => onward (s_visitor_start s m) (fun r m => onward (s_box_out s m) (fun out m => Goes (StBoxAgg r box_agg_init, out) m))
    end.

  (** The code and the message after the start; [before] is the message before it. *)
  Definition start_told (again : bool) (name : kernel_name) (s : schema) (options : option bytes) (before : bytes) : outcome (Z * bytes) :=
    match s_start again name s options before with
    | Goes _ m => Ok (0, m)
    | Stops c m => Ok (c, m)
    | Lost => UB
    end.
End Start.

(** ** Scalar functions *)

(** scalar_udf.c lines 12-31: GeoArrowScalarUdfFactoryInit; [name] has no NUL. The code and the message. *)
Definition scalar_factory_told (name before : bytes) : Z * bytes :=
  if same_bytes name $"void" then (0, before)
  else (ENOTSUP, snd (error_set ($"GeoArrow C scalar implementation with name '" ++ name ++ $"' does not exist"))).

(** scalar_udf.c lines 33-45 and 47-61: GeoArrowScalarUdfVoidInit and GeoArrowScalarUdfVoidExecute: the type and the array that
    are made for any arguments. Simplification: there is memory. nanoarrow.c: ArrowArrayInitFromType gives an array of the null
    type without buffers, and ArrowArrayFinishBuildingDefault has nothing to check in it. *)
Definition scalar_void_init (arg_types : list schema) : schema := init_from_type $"n".
Definition scalar_void_execute (args : list arrow_array) (n_rows : Z) : arrow_array :=
  ArrowArray n_rows 0 n_rows [] [].
