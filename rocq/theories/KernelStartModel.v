(** * Kernels as they are used: src/geoarrow/kernel.c, creating, starting, pushing batches and finishing *)
From Verif Require Import Base Text TypesModel GeomSpec VisitorModel BufferModel ArrowModel WkbWriterModel WktWriterModel
  BuilderModel WktReaderModel ArrayReaderModel KernelModel ConversionModel MetadataModel SchemaModel.
Local Open Scope Z_scope.

(** ** Options *)

(** atoi: 0 for a text that does not begin with a number; a number that is not an int is undefined behaviour. *)
Definition atoi (s : bytes) : outcome Z :=
  match strtol s with
  | None => Ok 0
  | Some (z, _) => if (- 2147483648 <=? z) && (z <=? 2147483647) then Ok z else UB
  end.

Fixpoint until_nul (s : bytes) : bytes :=
  match s with [] => [] | c :: s => if (c =? 0)%N then [] else c :: until_nul s end.

(** kernel.c lines 135-153: kernel_get_arg_long. [None]: the variable is left as it was. snprintf puts at most 15 characters and a NUL
    into the 16 bytes of type_str0. *)
Definition get_arg_long (options : option bytes) (key : bytes) (required : bool) : outcome (option Z) :=
  do v <- get_value options key;
  match v with
  | None => if required then Err EINVAL else Ok None
  | Some v =>
      do b <- or_ub (sv_bytes v);
      do z <- atoi (firstn 15 (until_nul b));
      Ok (Some z)
  end.
Definition arg_or (options : option bytes) (key : bytes) (default : Z) : outcome Z :=
  do z <- get_arg_long options key false; Ok (match z with Some z => z | None => default end).

(** ** Kernels *)

(** kernel.c lines 729-754 (GeoArrowKernelInit) and 690-714: the names *)
Inductive kernel_name := NVoid | NVoidAgg | NVisitVoidAgg | NFormatWkt | NAsGeoarrow | NUniqueTypes | NBox | NBoxAgg.
Definition kernel_init (name : bytes) : outcome kernel_name :=
  if same_bytes name $"void" then Ok NVoid
  else if same_bytes name $"void_agg" then Ok NVoidAgg
  else if same_bytes name $"visit_void_agg" then Ok NVisitVoidAgg
  else if same_bytes name $"format_wkt" then Ok NFormatWkt
  else if same_bytes name $"as_geoarrow" then Ok NAsGeoarrow
  else if same_bytes name $"unique_geometry_types_agg" then Ok NUniqueTypes
  else if same_bytes name $"box" then Ok NBox
  else if same_bytes name $"box_agg" then Ok NBoxAgg
  else Err ENOTSUP.

Section Kernels.
  Variable parse : bytes -> option N.
  Variable print_double : N -> Z -> bytes.
  Variable junk : nat -> nat -> N.

  (** A kernel after a successful start: its reader and the state of its visitor. Simplification: start is called once (a second
      call gives a new reader and the old one is not freed; as_geoarrow refuses it). *)
  Inductive started :=
  | StVoid
  | StVoidAgg
  | StVisitVoidAgg (r : areader) (s : unit)
  | StFormatWkt (precision max : Z) (r : areader) (s : kst)
  | StAsGeoarrow (k : kernel awriter arrow_array) (r : areader) (w : awriter)
  | StUniqueTypes (r : areader) (s : gtypes)
  | StBox (r : areader) (s : boxst)
  | StBoxAgg (r : areader) (s : boxst).

  (** kernel.c lines 229-253: kernel_visitor_start; array_reader.c lines 166-196: GeoArrowArrayReaderInitFromSchema *)
  Definition visitor_start (s : schema) : outcome areader :=
    do v <- schema_view_init s;
    if gv_type v =? TYPE_UNINITIALIZED then Err EINVAL
    else
      do v <- schema_view_init s;
      ArrayReaderModel.reader_init (gv_type v).

  (** The bytes of the extension metadata of a schema and the byte that follows them in memory, if there is one. *)
  Definition metadata_text (v : option strview) : outcome (bytes * option N) :=
    match v with
    | None => Ok ([], None)
    | Some v => do b <- or_ub (sv_bytes v); Ok (b, nth_error (sv_memory v) (Z.to_nat (sv_offset v + sv_size v)))
    end.

  (** kernel.c lines 473-488: schema_box; TYPE_BOX is 990. No more turns than there are bytes are taken to read metadata without
      NULs (C32); the fuel is enough for these. *)
  Definition TYPE_BOX : Z := 990.
  Definition schema_box (extension_metadata : option strview) : outcome schema :=
    do (text, past) <- metadata_text extension_metadata;
    do m <- metadata_view_init past (S (length text)) text;
    if negb (m_edges m =? EDGE_PLANAR) then Err EINVAL
    else
      do s <- schema_init_extension TYPE_BOX;
      schema_set_geoarrow_metadata s m.

  (** kernel.c lines 635-637 and 657-659 *)
  Definition box_out (s : schema) : outcome schema :=
    do v <- schema_view_init s;
    schema_box (gv_metadata v).

  (** kernel.c lines 311-341: finish_start_as_geoarrow *)
  Definition finish_start_as_geoarrow (s : schema) (options : option bytes) : outcome (kernel awriter arrow_array * awriter * schema) :=
    do t <- get_arg_long options $"type" true;
    do t <- or_ub t;
    do (k, w) <- as_geoarrow print_double junk t;
    do tmp <- schema_init_extension t;
    do out <- schema_set_geoarrow_metadata_from tmp s;
    Ok (k, w, out).

  (** The start functions: kernel.c lines 11-20 (kernel_start_void), 229-253 (kernel_visitor_start) and, in order, lines 261-271,
      278-298, 311-341, 409-421, 645-660, 614-632 (the finish_start functions). The options precision and max_element_size_bytes have the
      values of GeoArrowWKTWriterInit (wkt_writer.c lines 287-292) when they are not given. *)
  Definition kernel_start (name : kernel_name) (s : schema) (options : option bytes) : outcome (started * schema) :=
    match name with
    | NVoid => Ok (StVoid, init_from_type $"n")
    | NVoidAgg => Ok (StVoidAgg, init_from_type $"n")
    | NVisitVoidAgg => do r <- visitor_start s; Ok (StVisitVoidAgg r tt, init_from_type $"n")
    | NFormatWkt =>
        do r <- visitor_start s;
        do precision <- arg_or options $"precision" 16;
        do max <- arg_or options $"max_element_size_bytes" (-1);
        Ok (StFormatWkt precision max r wkt_init, init_from_type $"u")
    | NAsGeoarrow =>
        do r <- visitor_start s;
        do (kw, out) <- finish_start_as_geoarrow s options;
        Ok (let (k, w) := kw : kernel awriter arrow_array * awriter in StAsGeoarrow k r w, out)
    | NUniqueTypes => do r <- visitor_start s; Ok (StUniqueTypes r gtypes_init, init_from_type $"i")
    | NBox => do r <- visitor_start s; do out <- box_out s; Ok (StBox r box_init, out)
    | NBoxAgg => do r <- visitor_start s; do out <- box_out s; Ok (StBoxAgg r box_agg_init, out)
    end.

  (** How pushing a batch ends: the kernel, the code and the output. *)
  Inductive pushed := PRet (k : started) (code : Z) (out : option arrow_array) | PUB | PNoFuel.
  Definition of_kres {St} (make : areader -> St -> started) (r : kres St arrow_array) : pushed :=
    match r with KRet r s c out => PRet (make r s) c out | KUB => PUB | KNoFuel => PNoFuel end.

  Variable wkt_state : Z -> rst.
  Variable wkb_state : Z -> bool.

  (** push_batch. [out]: there is somewhere to put the output. kernel.c lines 22-35 (kernel_push_batch_void), 58-71
      (kernel_push_batch_void_agg), 190-227. The kernels that aggregate leave the output alone; the others write to it. *)
  Definition kernel_push (k : started) (a : arrow_array) (out : bool) : pushed :=
    let writes p := if out then p else match p with PRet _ 0 _ => PUB | p => p end in
    match k with
    | StVoid => if out then PRet StVoid 0 (Some (null_array (aa_length a))) else PUB
    | StVoidAgg => PRet StVoidAgg (if out then EINVAL else 0) None
    | StVisitVoidAgg r s => of_kres StVisitVoidAgg (push_batch visit_void_agg parse wkt_state wkb_state r s a)
    | StFormatWkt precision max r s =>
        writes (of_kres (StFormatWkt precision max) (push_batch (format_wkt print_double precision max) parse wkt_state wkb_state r s a))
    | StAsGeoarrow k r w => writes (of_kres (StAsGeoarrow k) (push_batch k parse wkt_state wkb_state r w a))
    | StUniqueTypes r s => of_kres StUniqueTypes (push_batch unique_geometry_types_agg parse wkt_state wkb_state r s a)
    | StBox r s => writes (of_kres StBox (push_batch (box_kernel (junk 0)) parse wkt_state wkb_state r s a))
    | StBoxAgg r s => of_kres StBoxAgg (push_batch box_agg parse wkt_state wkb_state r s a)
    end.

  (** finish, kernel.c lines 37-47 (kernel_finish_void), 73-86 (kernel_finish_void_agg), 423-466, 634-643. [None] is undefined
      behaviour: an aggregate without somewhere to put it. *)
  Definition kernel_finish (k : started) (out : bool) : option (Z * option arrow_array) :=
    let none := if out then (EINVAL, None) else (0, None) in
    let agg (p : Z * option arrow_array) := if out then Some p else None in
    match k with
    | StVoid | StFormatWkt _ _ _ _ | StAsGeoarrow _ _ _ | StBox _ _ => Some none
    | StVoidAgg | StVisitVoidAgg _ _ => agg (0, Some (null_array 1))
    | StUniqueTypes _ s => let '(_, c, a) := kn_finish unique_geometry_types_agg s in agg (c, a)
    | StBoxAgg _ s => let '(_, c, a) := kn_finish box_agg s in agg (c, a)
    end.
End Kernels.
