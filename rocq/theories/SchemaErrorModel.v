(** * The messages of GeoArrowSchemaViewInit: src/geoarrow/schema_view.c *)
From Verif Require Import Base Text BufferModel TypesModel MetadataModel SchemaModel WktErrorModel MetadataErrorModel.
Local Open Scope Z_scope.

(** What a function does: it goes on ([Accept]), or sets the message and returns EINVAL ([Reject]), or a function of nanoarrow
    sets the message and returns a code ([Foreign]), or a pointer that is not valid is read ([Broken]). The functions below are
    those of SchemaModel.v with the texts. *)
Inductive verdict (A : Type) := Accept (a : A) | Reject (text : bytes) | Foreign (code : Z) | Broken.
Arguments Accept {A}. Arguments Reject {A}. Arguments Foreign {A}. Arguments Broken {A}.
Definition next {A B} (m : verdict A) (k : A -> verdict B) : verdict B :=
  match m with Accept a => k a | Reject text => Reject text | Foreign code => Foreign code | Broken => Broken end.
(** Calls of nanoarrow, and pointers. *)
Definition asked {A} (o : outcome A) : verdict A :=
  match o with Ok a => Accept a | Err code => Foreign code | UB | NoFuel => Broken end.

(** [%d] of a number that is converted to int *)
Definition print_int (z : Z) : bytes :=
  let z := to_int32 z in if z <? 0 then $"-" ++ print_ld (Z.to_N (- z)) else print_ld (Z.to_N z).
(** The end of most messages. *)
Definition for_extension_and (ext_name rest : bytes) : bytes := $" for extension '" ++ ext_name ++ $"'" ++ rest.
Definition for_extension (ext_name : bytes) : bytes := for_extension_and ext_name [].

(** schema_view.c lines 8-68: GeoArrowParsePointFixedSizeList *)
Definition e_fixed_size_list (ext_name : bytes) (s : schema) : verdict (Z * Z) :=
  let not_double := Reject ($"Expected fixed-size list coordinate child 0 to have storage type of double" ++ for_extension ext_name) in
  if negb (n_children s =? 1) then not_double else
  next (asked (child s 0)) (fun c =>
  next (asked (format_of c)) (fun f =>
  if negb (same_bytes f $"g") then not_double else
  next (asked (arrow_view_init s)) (fun v =>
  let maybe_dims := match sc_name c with Some n => n | None => $"<NULL>" end in
  let guess := if av_fixed_size v =? 2 then Some DIM_XY
               else if av_fixed_size v =? 3 then Some DIM_XYZ
               else if av_fixed_size v =? 4 then Some DIM_XYZM
               else None in
  match match named_dimensions maybe_dims with Some d => Some d | None => guess end with
  | None =>
      Reject ($"Can't guess dimensions for fixed size list coord array with child name '" ++ maybe_dims ++
              $"' and fixed size " ++ print_int (av_fixed_size v) ++ for_extension ext_name)
  | Some d =>
      next (asked (or_ub (num_dimensions d))) (fun expected =>
      if negb (expected =? av_fixed_size v)
      then Reject ($"Expected fixed size list coord array with child name '" ++ maybe_dims ++ $"' to have fixed size " ++
                   print_int expected ++ $" but found fixed size " ++ print_int (av_fixed_size v) ++ for_extension ext_name)
      else Accept (d, CT_INTERLEAVED))
  end))).

(** schema_view.c lines 83-102: the loop over the children, from the [i]-th on *)
Fixpoint e_child_names (ext_name : bytes) (i : Z) (cs : list (option schema)) : verdict bytes :=
  match cs with
  | [] => Accept []
  | None :: _ => Broken
  | Some c :: cs =>
      match sc_name c with
      | Some [x] =>
          next (asked (format_of c)) (fun f =>
          if negb (same_bytes f $"g")
          then Reject ($"Expected coordinate child " ++ print_int i ++ $" to have storage type of double" ++ for_extension ext_name)
          else next (e_child_names ext_name (i + 1) cs) (fun r => Accept (x :: r)))
      | _ => Reject ($"Expected coordinate child " ++ print_int i ++ $" to have single character name" ++ for_extension ext_name)
      end
  end.

(** schema_view.c lines 70-122: GeoArrowParsePointStruct. In the last message [%s] shows dim up to its first NUL; the names of
    the children have none. *)
Definition e_struct (ext_name : bytes) (s : schema) : verdict (Z * Z) :=
  if (n_children s <? 2) || (4 <? n_children s)
  then Reject ($"Expected 2, 3, or 4 children for coord array" ++ for_extension_and ext_name ($" but got " ++ print_int (n_children s)))
  else
  next (e_child_names ext_name 0 (sc_children s)) (fun dim =>
  match named_dimensions dim with
  | Some d => Accept (d, CT_SEPARATE)
  | None => Reject ($"Expected dimensions 'xy', 'xyz', 'xym', or 'xyzm'" ++ for_extension_and ext_name ($" but found '" ++ dim ++ $"'"))
  end).

(** schema_view.c lines 124-152: GeoArrowParseNestedSchema *)
Fixpoint e_nested (ext_name : bytes) (n : nat) (s : schema) : verdict (Z * Z) :=
  next (asked (format_of s)) (fun f =>
  match n with
  | O =>
      if same_bytes f $"+s" then e_struct ext_name s
      else if same_bytes (firstn 3 f) $"+w:" then e_fixed_size_list ext_name s
      else Reject ($"Expected storage type fixed-size list or struct for coord array" ++ for_extension ext_name)
  | S n' =>
      if negb (same_bytes f $"+l") || negb (n_children s =? 1)
      then Reject ($"Expected valid list type for coord parent " ++ print_int (Z.of_nat n) ++ for_extension ext_name)
      else next (asked (child s 0)) (e_nested ext_name n')
  end).

(** schema_view.c lines 154-171: GeoArrowParseBoxChild *)
Definition e_box_child (i : Z) (s : schema) : verdict (N * bytes) :=
  match sc_name s with
  | Some [a; b; c; d] =>
      next (asked (format_of s)) (fun f =>
      if negb (same_bytes f $"g")
      then Reject ($"Expected box child " ++ print_int i ++ $" to have storage type of double")
      else Accept (a, [b; c; d]))
  | _ => Reject ($"Expected box child " ++ print_int i ++ $" to have exactly four characters")
  end.
Definition name_of_child (s : schema) : bytes := match sc_name s with Some n => n | None => [] end.

(** schema_view.c lines 198-206: the minima, from the [i]-th on *)
Fixpoint e_box_min (i : Z) (cs : list (option schema)) : verdict bytes :=
  match cs with
  | [] => Accept []
  | None :: _ => Broken
  | Some c :: cs =>
      next (e_box_child i c) (fun '(x, minmax) =>
      if negb (same_bytes minmax $"min")
      then Reject ($"Expected box child " ++ print_int i ++ $" to have suffix 'min' but got '" ++ name_of_child c ++ $"'")
      else next (e_box_min (i + 1) cs) (fun r => Accept (x :: r)))
  end.
(** schema_view.c lines 224-241: the maxima, from the [i]-th on; [mins] are the children with the minima *)
Fixpoint e_box_max (n_dims i : Z) (dim : bytes) (mins maxs : list (option schema)) : verdict unit :=
  match dim, mins, maxs with
  | d :: dim, Some m :: mins, Some c :: maxs =>
      next (e_box_child (n_dims + i) c) (fun '(x, minmax) =>
      if negb (same_bytes minmax $"max")
      then Reject ($"Expected box child " ++ print_int (n_dims + i) ++ $" to have suffix 'max' but got '" ++ name_of_child c ++ $"'")
      else if negb (x =? d)%N
      then Reject ($"Expected box child " ++ print_int i ++ $" name to match name for dimension '" ++ name_of_child m ++
                   $"' but got '" ++ name_of_child c ++ $"'")
      else e_box_max n_dims (i + 1) dim mins maxs)
  | [], _, _ => Accept tt
  | _, _, _ => Broken
  end.

(** schema_view.c lines 173-245: GeoArrowParseBox *)
Definition e_box (s : schema) : verdict (Z * Z) :=
  next (asked (format_of s)) (fun f =>
  if negb (same_bytes f $"+s") then Reject $"Expected struct storage for 'geoarrow.box'" else
  if negb ((n_children s =? 4) || (n_children s =? 6) || (n_children s =? 8))
  then Reject ($"Expected 4, 6, or 8 children for extension 'geoarrow.box' but got " ++ print_int (n_children s)) else
  let n_dims := Z.quot (n_children s) 2 in
  let mins := firstn (Z.to_nat n_dims) (sc_children s) in
  next (e_box_min 0 mins) (fun dim =>
  match named_dimensions dim with
  | None => Reject ($"Expected dimensions 'xy', 'xyz', 'xym', or 'xyzm' for extension 'geoarrow.box' but found '" ++ dim ++ $"'")
  | Some d =>
      next (e_box_max n_dims 0 dim mins (skipn (Z.to_nat n_dims) (sc_children s))) (fun _ => Accept (d, CT_SEPARATE))
  end)).

Definition e_native (g : Z) (v : arrow_view) (name : strview) (parse : verdict (Z * Z)) : verdict schema_view :=
  next parse (fun '(d, c) => Accept (SchemaView (make_type g d c) g d c (Some name) (av_metadata v))).

(** Lines 337-338: [%.*s] with [(int)ext_len], which is the size of an entry of the metadata and has 32 bits *)
Definition e_unrecognized (name : strview) : verdict schema_view :=
  next (asked (or_ub (sv_bytes name))) (fun b =>
  Reject ($"Unrecognized GeoArrow extension name: '" ++ up_to_nul b ++ $"'")).

(** schema_view.c lines 247-349: GeoArrowSchemaViewInitInternal *)
Definition e_internal (s : schema) (v : arrow_view) (name : strview) : verdict schema_view :=
  next (asked (named name $"geoarrow.box")) (fun e : bool => if e then e_native GT_BOX v name (e_box s) else
  next (asked (named name $"geoarrow.point")) (fun e : bool => if e then e_native GT_POINT v name (e_nested $"geoarrow.point" 0 s) else
  next (asked (named name $"geoarrow.linestring")) (fun e : bool => if e then e_native GT_LINESTRING v name (e_nested $"geoarrow.linestring" 1 s) else
  next (asked (named name $"geoarrow.polygon")) (fun e : bool => if e then e_native GT_POLYGON v name (e_nested $"geoarrow.polygon" 2 s) else
  next (asked (named name $"geoarrow.multipoint")) (fun e : bool => if e then e_native GT_MULTIPOINT v name (e_nested $"geoarrow.multipoint" 1 s) else
  next (asked (named name $"geoarrow.multilinestring")) (fun e : bool => if e then e_native GT_MULTILINESTRING v name (e_nested $"geoarrow.multilinestring" 2 s) else
  next (asked (named name $"geoarrow.multipolygon")) (fun e : bool => if e then e_native GT_MULTIPOLYGON v name (e_nested $"geoarrow.multipolygon" 3 s) else
  next (asked (named name $"geoarrow.wkt")) (fun e : bool => if e then
    match av_type v with
    | TString => asked (serialized_view TYPE_WKT v name)
    | TLargeString => asked (serialized_view TYPE_LARGE_WKT v name)
    | TStringView => asked (serialized_view TYPE_WKT_VIEW v name)
    | _ => Reject $"Expected storage type of string or large_string for extension 'geoarrow.wkt'"
    end else
  next (asked (named_prefix name $"geoarrow.wkb")) (fun e : bool => if e then
    match av_type v with
    | TBinary => asked (serialized_view TYPE_WKB v name)
    | TLargeBinary => asked (serialized_view TYPE_LARGE_WKB v name)
    | TBinaryView => asked (serialized_view TYPE_WKB_VIEW v name)
    | _ => Reject $"Expected storage type of binary or large_binary for extension 'geoarrow.wkb'"
    end
  else e_unrecognized name))))))))).

(** schema_view.c lines 351-365: GeoArrowSchemaViewInit *)
Definition e_view_init (s : schema) : verdict schema_view :=
  next (asked (arrow_view_init s)) (fun v =>
  match av_name v with
  | None => Reject $"Expected extension type"
  | Some name => e_internal s v name
  end).

(** The code and the message after the call; [before] is the message before it and [nanoarrow] what nanoarrow says if it refuses
    the schema. ArrowErrorSet (nanoarrow.c lines 31-50) is the same as GeoArrowErrorSet. *)
Definition schema_told (nanoarrow before : bytes) (s : schema) : outcome (Z * bytes) :=
  match e_view_init s with
  | Accept _ => Ok (0, before)
  | Reject text => Ok (EINVAL, snd (error_set text))
  | Foreign code => Ok (code, nanoarrow)
  | Broken => UB
  end.

(** schema_view.c lines 367-376: GeoArrowSchemaViewInitFromStorage *)
Definition e_from_storage (s : schema) (name : strview) : verdict schema_view :=
  next (asked (arrow_view_init s)) (fun v => e_internal s v name).
Definition storage_told (nanoarrow before : bytes) (s : schema) (name : strview) : outcome (Z * bytes) :=
  match e_from_storage s name with
  | Accept _ => Ok (0, before)
  | Reject text => Ok (EINVAL, snd (error_set text))
  | Foreign code => Ok (code, nanoarrow)
  | Broken => UB
  end.
