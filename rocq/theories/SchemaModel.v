(** * Schemas: src/geoarrow/schema.c, src/geoarrow/schema_view.c, the part of src/geoarrow/metadata.c that touches schemas,
    and the functions of src/vendor/nanoarrow/nanoarrow.c that they use *)
From Verif Require Import Base Text BufferModel TypesModel MetadataModel.
Local Open Scope Z_scope.

(** nanoarrow.h lines 93-108: struct ArrowSchema. A C string is the list of its bytes before the terminating NUL; a null
    pointer is [None]; [sc_released] is release == NULL; n_children is the length of [sc_children]. The metadata is the
    block of memory that the pointer refers to. *)
Inductive schema : Type :=
| Schema (released : bool) (format name metadata : option bytes) (flags : Z) (children : list (option schema))
         (dictionary : option schema).
Definition sc_released (s : schema) : bool := match s with Schema r _ _ _ _ _ _ => r end.
Definition sc_format (s : schema) : option bytes := match s with Schema _ f _ _ _ _ _ => f end.
Definition sc_name (s : schema) : option bytes := match s with Schema _ _ n _ _ _ _ => n end.
Definition sc_metadata (s : schema) : option bytes := match s with Schema _ _ _ m _ _ _ => m end.
Definition sc_flags (s : schema) : Z := match s with Schema _ _ _ _ f _ _ => f end.
Definition sc_children (s : schema) : list (option schema) := match s with Schema _ _ _ _ _ c _ => c end.
Definition sc_dictionary (s : schema) : option schema := match s with Schema _ _ _ _ _ _ d => d end.
Definition n_children (s : schema) : Z := Z.of_nat (length (sc_children s)).

(** nanoarrow.h lines 89-91 *)
Definition FLAG_DICTIONARY_ORDERED : Z := 1.
Definition FLAG_NULLABLE : Z := 2.
Definition FLAG_MAP_KEYS_SORTED : Z := 4.

(** ** Key-value metadata *)

(** A view of some bytes: struct ArrowStringView, struct GeoArrowStringView. *)
Record strview := StrView { sv_memory : bytes; sv_offset : Z; sv_size : Z }.
(** The bytes of the view, when they lie inside the memory. *)
Definition sv_bytes (v : strview) : option bytes :=
  if sv_size v <? 0 then None else slice (sv_memory v) (sv_offset v) (Z.to_nat (sv_size v)).

(** memcpy of an int32_t out of the metadata (little-endian host) *)
Definition read_int32 (b : bytes) (p : Z) : outcome Z :=
  do bs <- or_ub (slice b p 4); Ok (to_int32 (Z.of_N (le_val bs))).
Definition write_int32 (z : Z) : bytes := le_bytes 4 (Z.to_N (z mod 4294967296)).

(** nanoarrow.c lines 2076-2117: ArrowMetadataReaderInit and ArrowMetadataReaderRead. The result of a read is the key, the
    value and the next offset. *)
Definition reader_init (md : option bytes) : outcome (Z * Z) :=
  match md with
  | None => Ok (0, 0)
  | Some b => do n <- read_int32 b 0; Ok (n, 4)
  end.
Definition reader_read (b : bytes) (offset : Z) : outcome (strview * strview * Z) :=
  do key_size <- read_int32 b offset;
  do value_size <- read_int32 b (offset + 4 + key_size);
  Ok (StrView b (offset + 4) key_size, StrView b (offset + 4 + key_size + 4) value_size,
      offset + 4 + key_size + 4 + value_size).

(** Lines 2150-2151 and 2248-2250: same size and strncmp. strncmp stops at the first difference; the model reads the whole
    key. *)
Definition key_equal (key : bytes) (v : strview) : outcome bool :=
  if sv_size v =? Z.of_nat (length key) then do b <- or_ub (sv_bytes v); Ok (same_bytes key b) else Ok false.

(** nanoarrow.c lines 2119-2138: ArrowMetadataSizeOf *)
Fixpoint size_of_loop (b : bytes) (remaining : nat) (offset size : Z) : outcome Z :=
  match remaining with
  | O => Ok size
  | S remaining =>
      do (k, v, offset) <- reader_read b offset;
      size_of_loop b remaining offset (size + 4 + sv_size k + 4 + sv_size v)
  end.
Definition metadata_size_of (md : option bytes) : outcome Z :=
  match md with
  | None => Ok 0
  | Some b => do (n, offset) <- reader_init md; size_of_loop b (Z.to_nat n) offset 4
  end.

(** nanoarrow.c lines 2141-2170: ArrowMetadataGetValue. [None]: value_out is left as it was, a view of NULL. *)
Fixpoint get_value_loop (b : bytes) (key : bytes) (remaining : nat) (offset : Z) : outcome (option strview) :=
  match remaining with
  | O => Ok None
  | S remaining =>
      do (k, v, offset) <- reader_read b offset;
      do e <- key_equal key k;
      if e : bool then Ok (Some v) else get_value_loop b key remaining offset
  end.
Definition get_value (md : option bytes) (key : bytes) : outcome (option strview) :=
  do (n, offset) <- reader_init md;
  match md with
  | None => Ok None
  | Some b => get_value_loop b key (Z.to_nat n) offset
  end.

(** An ArrowBuffer that holds metadata: its bytes, with [] for the buffer without memory. *)
Definition buffer_data (b : bytes) : option bytes := match b with [] => None | _ => Some b end.

(** nanoarrow.c lines 2181-2185: ArrowMetadataBuilderInit *)
Definition builder_init (md : option bytes) : outcome bytes :=
  match md with
  | None => Ok []
  | Some b => do n <- metadata_size_of md; if n <? 0 then UB else or_ub (slice b 0 (Z.to_nat n))
  end.

(** nanoarrow.c lines 2187-2219: ArrowMetadataBuilderAppendInternal. Sizes are converted to int32_t; a text of 2 GiB or more
    would be given a negative size, which the model does not follow ([UB]). *)
Definition builder_append (buffer key : bytes) (value : option bytes) : outcome bytes :=
  match value with
  | None => Ok buffer
  | Some value =>
      let buffer := match buffer with [] => write_int32 0 | _ => buffer end in
      do n_keys <- read_int32 buffer 0;
      if (2147483647 <? Z.of_nat (length key)) || (2147483647 <? Z.of_nat (length value)) || (n_keys =? 2147483647) then UB
      else
        let buffer := buffer ++ write_int32 (Z.of_nat (length key)) ++ key
                        ++ write_int32 (Z.of_nat (length value)) ++ value in
        Ok (write_int32 (n_keys + 1) ++ skipn 4 buffer)
  end.

(** nanoarrow.c lines 2237-2266: the loop of ArrowMetadataBuilderSetInternal *)
Fixpoint builder_set_loop (b key : bytes) (remaining : nat) (offset : Z) (value : option bytes) (out : bytes) : outcome bytes :=
  match remaining with
  | O => Ok out
  | S remaining =>
      do (k, v, offset) <- reader_read b offset;
      do e <- key_equal key k;
      if e : bool then
        do out <- builder_append out key value;
        builder_set_loop b key remaining offset None out
      else
        do kb <- or_ub (sv_bytes k);
        do vb <- or_ub (sv_bytes v);
        do out <- builder_append out kb (Some vb);
        builder_set_loop b key remaining offset value out
  end.

(** nanoarrow.c lines 2221-2273: ArrowMetadataBuilderSetInternal, called with a value *)
Definition builder_set (buffer key value : bytes) : outcome bytes :=
  do current <- get_value (buffer_data buffer) key;
  match current with
  | None => builder_append buffer key (Some value)
  | Some _ =>
      do (n, offset) <- reader_init (buffer_data buffer);
      builder_set_loop buffer key (Z.to_nat n) offset (Some value) []
  end.

(** ** Building schemas *)

Definition set_format (s : schema) (f : bytes) : schema :=
  match s with Schema r _ n m g c d => Schema r (Some f) n m g c d end.
Definition set_name (s : schema) (n : bytes) : schema :=
  match s with Schema r f _ m g c d => Schema r f (Some n) m g c d end.
Definition set_flags (s : schema) (g : Z) : schema :=
  match s with Schema r f n m _ c d => Schema r f n m g c d end.
Definition set_children (s : schema) (c : list schema) : schema :=
  match s with Schema r f n m g _ d => Schema r f n m g (map Some c) d end.

(** nanoarrow.c lines 1090-1108: ArrowSchemaSetMetadata *)
Definition schema_set_metadata (s : schema) (md : option bytes) : outcome schema :=
  match md with
  | None => match s with Schema r f n _ g c d => Ok (Schema r f n None g c d) end
  | Some b =>
      do size <- metadata_size_of md;
      if size <? 0 then UB else
      do copy <- or_ub (slice b 0 (Z.to_nat size));
      match s with Schema r f n _ g c d => Ok (Schema r f n (Some copy) g c d) end
  end.

(** nanoarrow.c lines 746-756: ArrowSchemaInit *)
Definition arrow_schema_init : schema := Schema false None None None FLAG_NULLABLE [] None.
(** nanoarrow.c lines 786-796: ArrowSchemaInitFromType for the types used below, none of which has children: struct,
    double and the binary and string types, with the format of lines 628-697 *)
Definition init_from_type (format : bytes) : schema := set_format arrow_schema_init format.
(** nanoarrow.c lines 798-829: ArrowSchemaSetTypeFixedSize for a fixed-size list of 1 to 9 elements (the printed number is
    then one digit), with the child of lines 700-711 *)
Definition init_fixed_size_list (n : nat) : schema :=
  set_children (set_format arrow_schema_init ($"+w:" ++ [48 + N.of_nat n]%N)) [set_name arrow_schema_init $"item"].

(** schema.c lines 9-22: GeoArrowSchemaInitCoordFixedSizeList *)
Definition init_coord_fixed_size_list (dims : bytes) : schema :=
  let s := init_fixed_size_list (length dims) in
  set_children s
    (map (fun c => set_flags (set_format (set_name c dims) $"g") 0)
       (flat_map (fun o => match o with Some c => [c] | None => [] end) (sc_children s))).

(** schema.c lines 24-42: GeoArrowSchemaInitCoordStruct *)
Definition init_coord_struct (dims : bytes) : schema :=
  set_children (init_from_type $"+s") (map (fun d => set_flags (set_name (init_from_type $"g") [d]) 0) dims).

(** schema.c lines 44-71: GeoArrowSchemaInitRect *)
Definition init_rect (dims : bytes) : schema :=
  set_children (init_from_type $"+s")
    (map (fun d => set_flags (set_name (init_from_type $"g") ([d] ++ $"min")) 0) dims ++
     map (fun d => set_flags (set_name (init_from_type $"g") ([d] ++ $"max")) 0) dims).

(** schema.c lines 73-99: GeoArrowSchemaInitListOf; n is the length of [child_names] *)
Fixpoint init_list_of (coord_type : Z) (dims : bytes) (child_names : list bytes) : outcome schema :=
  match child_names with
  | [] =>
      if coord_type =? CT_SEPARATE then Ok (init_coord_struct dims)
      else if coord_type =? CT_INTERLEAVED then Ok (init_coord_fixed_size_list dims)
      else Err EINVAL
  | name :: child_names =>
      do child <- init_list_of coord_type dims child_names;
      Ok (set_children (set_format arrow_schema_init $"+l") [set_flags (set_name child name) 0])
  end.

(** schema.c lines 138-154: the names of the dimensions *)
Definition dims_string (dimensions : Z) : option bytes :=
  if dimensions =? DIM_XY then Some $"xy"
  else if dimensions =? DIM_XYZ then Some $"xyz"
  else if dimensions =? DIM_XYM then Some $"xym"
  else if dimensions =? DIM_XYZM then Some $"xyzm"
  else None.

(** schema.c lines 112-206: GeoArrowSchemaInit *)
Definition schema_init (t : Z) : outcome schema :=
  if t =? TYPE_WKB then Ok (init_from_type $"z")
  else if t =? TYPE_LARGE_WKB then Ok (init_from_type $"Z")
  else if t =? TYPE_WKB_VIEW then Ok (init_from_type $"vz")
  else if t =? TYPE_WKT then Ok (init_from_type $"u")
  else if t =? TYPE_LARGE_WKT then Ok (init_from_type $"U")
  else if t =? TYPE_WKT_VIEW then Ok (init_from_type $"vu")
  else
    let coord_type := coord_type_from_type t in
    let geometry_type := geometry_type_from_type t in
    match dims_string (dimensions_from_type t) with
    | None => Err EINVAL
    | Some dims =>
        if geometry_type =? GT_BOX then
          if coord_type =? CT_SEPARATE then Ok (init_rect dims) else Err EINVAL
        else if geometry_type =? GT_POINT then
          if coord_type =? CT_SEPARATE then Ok (init_coord_struct dims)
          else if coord_type =? CT_INTERLEAVED then Ok (init_coord_fixed_size_list dims)
          else Err EINVAL
        else if geometry_type =? GT_LINESTRING then init_list_of coord_type dims [$"vertices"]
        else if geometry_type =? GT_MULTIPOINT then init_list_of coord_type dims [$"points"]
        else if geometry_type =? GT_POLYGON then init_list_of coord_type dims [$"rings"; $"vertices"]
        else if geometry_type =? GT_MULTILINESTRING then init_list_of coord_type dims [$"linestrings"; $"vertices"]
        else if geometry_type =? GT_MULTIPOLYGON then init_list_of coord_type dims [$"polygons"; $"rings"; $"vertices"]
        else Err ENOTSUP
    end.

(** geoarrow_type_inline.h lines 68-103: GeoArrowExtensionNameFromType *)
Definition extension_name_from_type (t : Z) : option bytes :=
  if (t =? TYPE_WKB) || (t =? TYPE_LARGE_WKB) || (t =? TYPE_WKB_VIEW) then Some $"geoarrow.wkb"
  else if (t =? TYPE_WKT) || (t =? TYPE_LARGE_WKT) || (t =? TYPE_WKT_VIEW) then Some $"geoarrow.wkt"
  else
    let g := geometry_type_from_type t in
    if g =? GT_BOX then Some $"geoarrow.box"
    else if g =? GT_POINT then Some $"geoarrow.point"
    else if g =? GT_LINESTRING then Some $"geoarrow.linestring"
    else if g =? GT_POLYGON then Some $"geoarrow.polygon"
    else if g =? GT_MULTIPOINT then Some $"geoarrow.multipoint"
    else if g =? GT_MULTILINESTRING then Some $"geoarrow.multilinestring"
    else if g =? GT_MULTIPOLYGON then Some $"geoarrow.multipolygon"
    else None.

Definition name_key : bytes := $"ARROW:extension:name".
Definition metadata_key : bytes := $"ARROW:extension:metadata".

(** schema.c lines 208-240: GeoArrowSchemaInitExtension *)
Definition schema_init_extension (t : Z) : outcome schema :=
  match extension_name_from_type t with
  | None => Err EINVAL
  | Some ext_type =>
      do md <- builder_init None;
      do md <- builder_append md name_key (Some ext_type);
      do md <- builder_append md metadata_key (Some $"{}");
      do s <- schema_init t;
      schema_set_metadata s (buffer_data md)
  end.

(** ** nanoarrow's view of a schema *)

(** nanoarrow.h lines 451-498: enum ArrowType. Types that the code below treats alike are one constructor: [TInteger] the
    eight integer types, [TFlat] every other type without children and without variable-size values, [TList] the four
    types of lists with offsets, [TUnion] both unions. *)
Inductive arrow_type :=
| TInteger | TFlat | TString | TLargeString | TStringView | TBinary | TLargeBinary | TBinaryView | TFixedSizeBinary
| TList | TRunEndEncoded | TFixedSizeList | TStruct | TUnion | TMap | TDictionary.

(** The character at a position of a C string: 0 at its end. *)
Definition char_at (f : bytes) (i : nat) : N := nth i f 0%N.
Definition one_of (c : N) (l : bytes) : bool := existsb (N.eqb c) l.
Definition is_char (c : N) (a : bytes) : bool := match a with [x] => (c =? x)%N | _ => false end.

(** strtol with base 10: white space, an optional sign, digits. The result is the value, limited to the range of long, and
    the text that follows it, or [None] when there is no number. *)
Definition is_space (c : N) : bool := one_of c [32; 9; 10; 11; 12; 13]%N.
Definition is_digit (c : N) : bool := (48 <=? c)%N && (c <=? 57)%N.
Fixpoint skip_spaces (s : bytes) : bytes :=
  match s with c :: r => if is_space c then skip_spaces r else s | [] => [] end.
Fixpoint digits (s : bytes) (acc : Z) : Z * bytes :=
  match s with
  | c :: r => if is_digit c then digits r (acc * 10 + (Z.of_N c - 48)) else (acc, s)
  | [] => (acc, [])
  end.
Definition long_max : Z := 9223372036854775807.
Definition strtol (s : bytes) : option (Z * bytes) :=
  let s := skip_spaces s in
  let (negative, s) := match s with
                       | c :: r => if is_char c $"-" then (true, r) else if is_char c $"+" then (false, r) else (false, s)
                       | [] => (false, [])
                       end in
  if is_digit (char_at s 0) then
    let (v, rest) := digits s 0 in
    Some (if negative then Z.max (- v) (- long_max - 1) else Z.min v long_max, rest)
  else None.

(** nanoarrow.h lines 3172-3203: _ArrowParseUnionTypeIds; the fuel bounds the loop. The result is -1 for a text that is not
    a list of type ids. *)
Fixpoint union_type_ids (fuel : nat) (s : bytes) (i : Z) : Z :=
  match fuel with
  | O => -1
  | S fuel =>
      match strtol s with
      | None => -1
      | Some (v, rest) =>
          if (v <? 0) || (127 <? v) then -1
          else match rest with
               | [] => i + 1
               | c :: rest => if is_char c $"," then union_type_ids fuel rest (i + 1) else -1
               end
      end
  end.

(** What ArrowSchemaViewParse finds: storage_type, type, fixed_size (0 where it is not set) and the text after
    *format_end_out. *)
Record parsed := Parsed { pa_storage : arrow_type; pa_type : arrow_type; pa_fixed_size : Z; pa_rest : bytes }.

(** nanoarrow.c lines 1217-1663: ArrowSchemaViewParse. [None] is EINVAL. *)
Definition parse_format (f : bytes) (n_children : Z) : option parsed :=
  let c := char_at f 0 in
  let simple t n := Some (Parsed t t 0 (skipn n f)) in
  let dated st := Some (Parsed st TFlat 0 (skipn 3 f)) in
  if one_of c $"cCsSiIlL" then simple TInteger 1%nat
  else if one_of c $"nbefg" then simple TFlat 1%nat
  else if is_char c $"d" then
    if is_char (char_at f 1) $":" && negb (char_at f 2 =? 0)%N then
      match strtol (skipn 2 f) with
      | Some (_, comma :: r) =>
          if is_char comma $"," then
            match strtol r with
            | None => None
            | Some (_, r) =>
                match r with
                | c :: r' =>
                    if is_char c $"," then
                      match strtol r' with
                      | None => None
                      | Some (w, r) =>
                          if existsb (Z.eqb (to_int32 w)) [32; 64; 128; 256] then Some (Parsed TFlat TFlat 0 r) else None
                      end
                    else Some (Parsed TFlat TFlat 0 r)
                | [] => Some (Parsed TFlat TFlat 0 r)
                end
            end
          else None
      | _ => None
      end
    else None
  else if is_char c $"w" then
    if is_char (char_at f 1) $":" && negb (char_at f 2 =? 0)%N then
      match strtol (skipn 2 f) with
      | Some (v, r) => Some (Parsed TFixedSizeBinary TFixedSizeBinary (to_int32 v) r)
      | None => Some (Parsed TFixedSizeBinary TFixedSizeBinary 0 (skipn 2 f))
      end
    else None
  else if is_char c $"z" then simple TBinary 1%nat
  else if is_char c $"u" then simple TString 1%nat
  else if is_char c $"Z" then simple TLargeBinary 1%nat
  else if is_char c $"U" then simple TLargeString 1%nat
  else if is_char c $"+" then
    let c := char_at f 1 in
    if one_of c $"lL" then simple TList 2%nat
    else if is_char c $"r" then simple TRunEndEncoded 2%nat
    else if is_char c $"w" then
      if is_char (char_at f 2) $":" && negb (char_at f 3 =? 0)%N then
        match strtol (skipn 3 f) with
        | Some (v, r) => Some (Parsed TFixedSizeList TFixedSizeList (to_int32 v) r)
        | None => Some (Parsed TFixedSizeList TFixedSizeList 0 (skipn 3 f))
        end
      else None
    else if is_char c $"s" then simple TStruct 2%nat
    else if is_char c $"m" then simple TMap 2%nat
    else if is_char c $"u" then
      if one_of (char_at f 2) $"ds" && is_char (char_at f 3) $":" then
        let ids := skipn 4 f in
        let n := match ids with [] => 0 | _ => union_type_ids (length ids) ids 0 end in
        if n =? n_children then Some (Parsed TUnion TUnion 0 []) else None
      else None
    else if is_char c $"v" then
      if one_of (char_at f 2) $"lL" then simple TList 3%nat else None
    else None
  else if is_char c $"t" then
    let c := char_at f 1 in
    let d := char_at f 2 in
    if is_char c $"d" then if one_of d $"Dm" then dated TInteger else None
    else if is_char c $"t" then if one_of d $"smun" then dated TInteger else None
    else if is_char c $"s" then
      if one_of d $"smun" && is_char (char_at f 3) $":" then Some (Parsed TInteger TFlat 0 []) else None
    else if is_char c $"D" then if one_of d $"smun" then dated TInteger else None
    else if is_char c $"i" then if one_of d $"MDn" then dated TFlat else None
    else None
  else if is_char c $"v" then
    if is_char (char_at f 1) $"u" then simple TStringView 2%nat
    else if is_char (char_at f 1) $"z" then simple TBinaryView 2%nat
    else None
  else None.

(** A child, a format: a null pointer is dereferenced ([UB]) when it is missing. *)
Definition child (s : schema) (i : nat) : outcome schema :=
  match nth_error (sc_children s) i with Some (Some c) => Ok c | _ => UB end.
Definition format_of (s : schema) : outcome bytes := or_ub (sc_format s).

(** nanoarrow.c lines 1665-1694: ArrowSchemaViewValidateNChildren; [None] is -1 *)
Definition validate_n_children (s : schema) (n : option Z) : outcome unit :=
  if match n with Some n => negb (n_children s =? n) | None => false end then Err EINVAL
  else if forallb (fun c => match c with Some c => negb (sc_released c) | None => false end) (sc_children s) then Ok tt
  else Err EINVAL.

(** nanoarrow.c lines 1701-1730: ArrowSchemaViewValidateMap *)
Definition validate_map (s : schema) : outcome unit :=
  check validate_n_children s (Some 1);
  do entries <- child s 0;
  if negb (n_children entries =? 2) then Err EINVAL else
  do f <- format_of entries;
  if negb (same_bytes f $"+s") then Err EINVAL else
  if Z.testbit (sc_flags entries) 1 then Err EINVAL else
  do key <- child entries 0;
  if Z.testbit (sc_flags key) 1 then Err EINVAL else Ok tt.

(** struct ArrowSchemaView: the fields that are used *)
Record arrow_view := ArrowView { av_type : arrow_type; av_fixed_size : Z; av_name : option strview; av_metadata : option strview }.

(** Lines 1862-1864: a schema with a dictionary has the dictionary type. *)
Definition view_type (s : schema) (p : parsed) : arrow_type :=
  match sc_dictionary s with Some _ => TDictionary | None => pa_type p end.

(** nanoarrow.c lines 1732-1834: ArrowSchemaViewValidateDictionary and ArrowSchemaViewValidate; [dictionary] is the outcome
    of ArrowSchemaViewInit for the dictionary *)
Definition validate (s : schema) (p : parsed) (dictionary : option (outcome arrow_view)) (t : arrow_type) : outcome unit :=
  match t with
  | TInteger | TFlat | TString | TLargeString | TStringView | TBinary | TLargeBinary | TBinaryView =>
      validate_n_children s (Some 0)
  | TFixedSizeBinary => if pa_fixed_size p <=? 0 then Err EINVAL else validate_n_children s (Some 0)
  | TList | TFixedSizeList => validate_n_children s (Some 1)
  | TRunEndEncoded => validate_n_children s (Some 2)
  | TStruct | TUnion => validate_n_children s None
  | TMap => validate_map s
  | TDictionary =>
      match pa_storage p with
      | TInteger => match dictionary with Some d => check d; Ok tt | None => Err EINVAL end
      | _ => Err EINVAL
      end
  end.

(** nanoarrow.c lines 1836-1931: ArrowSchemaViewInit. The second validation is only done when type and storage type differ,
    but gives the same answer when they do not. The layout is not modelled. *)
Fixpoint arrow_view_init (s : schema) : outcome arrow_view :=
  match s with
  | Schema released format _ metadata flags _ dictionary =>
    if released then Err EINVAL else
    match format with
    | None => Err EINVAL
    | Some [] => Err EINVAL
    | Some f =>
      match parse_format f (n_children s) with
      | None => Err EINVAL
      | Some p =>
        match pa_rest p with
        | _ :: _ => Err EINVAL
        | [] =>
          let d := match dictionary with Some d => Some (arrow_view_init d) | None => None end in
          let type := view_type s p in
          check validate s p d (pa_storage p);
          check validate s p d type;
          if negb (Z.land flags (Z.lnot 7) =? 0) then Err EINVAL else
          if Z.testbit flags 0 && match type with TDictionary => false | _ => true end then Err EINVAL else
          if Z.testbit flags 2 && match type with TMap => false | _ => true end then Err EINVAL else
          do name <- get_value metadata name_key;
          do md <- get_value metadata metadata_key;
          Ok (ArrowView type (pa_fixed_size p) name md)
        end
      end
    end
  end.

(** ** GeoArrow's view of a schema *)

(** struct GeoArrowSchemaView (geoarrow_type.h lines 591-616), without the pointer to the schema, which the functions below
    never set from a schema. The code fills it in field by field; the model returns it. *)
Record schema_view := SchemaView
  { gv_type : Z; gv_geometry_type : Z; gv_dimensions : Z; gv_coord_type : Z; gv_name : option strview;
    gv_metadata : option strview }.

(** schema_view.c lines 29-36, 104-111 and 208-215: the dimensions with a name *)
Definition named_dimensions (name : bytes) : option Z :=
  if same_bytes name $"xy" then Some DIM_XY
  else if same_bytes name $"xyz" then Some DIM_XYZ
  else if same_bytes name $"xym" then Some DIM_XYM
  else if same_bytes name $"xyzm" then Some DIM_XYZM
  else None.

(** schema_view.c lines 8-68: GeoArrowParsePointFixedSizeList. The result is the dimensions and the coordinate type. *)
Definition parse_point_fixed_size_list (s : schema) : outcome (Z * Z) :=
  if negb (n_children s =? 1) then Err EINVAL else
  do c <- child s 0;
  do f <- format_of c;
  if negb (same_bytes f $"g") then Err EINVAL else
  do v <- arrow_view_init s;
  let maybe_dims := match sc_name c with Some n => n | None => $"<NULL>" end in
  let guess := if av_fixed_size v =? 2 then Some DIM_XY
               else if av_fixed_size v =? 3 then Some DIM_XYZ
               else if av_fixed_size v =? 4 then Some DIM_XYZM
               else None in
  match match named_dimensions maybe_dims with Some d => Some d | None => guess end with
  | None => Err EINVAL
  | Some d =>
      do expected <- or_ub (num_dimensions d);
      if negb (expected =? av_fixed_size v) then Err EINVAL else Ok (d, CT_INTERLEAVED)
  end.

(** schema_view.c lines 83-102: the loop over the children *)
Fixpoint coord_child_names (cs : list (option schema)) : outcome bytes :=
  match cs with
  | [] => Ok []
  | None :: _ => UB
  | Some c :: cs =>
      match sc_name c with
      | Some [x] =>
          do f <- format_of c;
          if negb (same_bytes f $"g") then Err EINVAL else
          do r <- coord_child_names cs; Ok (x :: r)
      | _ => Err EINVAL
      end
  end.

(** schema_view.c lines 70-122: GeoArrowParsePointStruct *)
Definition parse_point_struct (s : schema) : outcome (Z * Z) :=
  if (n_children s <? 2) || (4 <? n_children s) then Err EINVAL else
  do dim <- coord_child_names (sc_children s);
  match named_dimensions dim with
  | Some d => Ok (d, CT_SEPARATE)
  | None => Err EINVAL
  end.

(** schema_view.c lines 124-152: GeoArrowParseNestedSchema *)
Fixpoint parse_nested_schema (n : nat) (s : schema) : outcome (Z * Z) :=
  do f <- format_of s;
  match n with
  | O =>
      if same_bytes f $"+s" then parse_point_struct s
      else if same_bytes (firstn 3 f) $"+w:" then parse_point_fixed_size_list s
      else Err EINVAL
  | S n =>
      if negb (same_bytes f $"+l") || negb (n_children s =? 1) then Err EINVAL
      else do c <- child s 0; parse_nested_schema n c
  end.

(** schema_view.c lines 154-171: GeoArrowParseBoxChild, the name's first character and the rest *)
Definition parse_box_child (s : schema) : outcome (N * bytes) :=
  match sc_name s with
  | Some [a; b; c; d] =>
      do f <- format_of s;
      if negb (same_bytes f $"g") then Err EINVAL else Ok (a, [b; c; d])
  | _ => Err EINVAL
  end.

(** schema_view.c lines 198-206: the minima *)
Fixpoint parse_box_min (cs : list (option schema)) : outcome bytes :=
  match cs with
  | [] => Ok []
  | None :: _ => UB
  | Some c :: cs =>
      do (x, minmax) <- parse_box_child c;
      if negb (same_bytes minmax $"min") then Err EINVAL else
      do r <- parse_box_min cs; Ok (x :: r)
  end.
(** schema_view.c lines 224-241: the maxima *)
Fixpoint parse_box_max (dim : bytes) (cs : list (option schema)) : outcome unit :=
  match dim, cs with
  | d :: dim, Some c :: cs =>
      do (x, minmax) <- parse_box_child c;
      if negb (same_bytes minmax $"max") then Err EINVAL else
      if negb (x =? d)%N then Err EINVAL else
      parse_box_max dim cs
  | [], _ => Ok tt
  | _, _ => UB
  end.

(** schema_view.c lines 173-245: GeoArrowParseBox *)
Definition parse_box (s : schema) : outcome (Z * Z) :=
  do f <- format_of s;
  if negb (same_bytes f $"+s") then Err EINVAL else
  if negb ((n_children s =? 4) || (n_children s =? 6) || (n_children s =? 8)) then Err EINVAL else
  let n_dims := Z.to_nat (Z.quot (n_children s) 2) in
  do dim <- parse_box_min (firstn n_dims (sc_children s));
  match named_dimensions dim with
  | None => Err EINVAL
  | Some d =>
      check parse_box_max dim (skipn n_dims (sc_children s));
      Ok (d, CT_SEPARATE)
  end.

(** schema_view.c lines 252, 258, ...: ext_len == n && strncmp(ext_name, name, n) == 0. strncmp stops at the first
    difference; the model reads the n bytes. *)
Definition named (v : strview) (name : bytes) : outcome bool :=
  if sv_size v =? Z.of_nat (length name)
  then do b <- or_ub (slice (sv_memory v) (sv_offset v) (length name)); Ok (same_bytes b name)
  else Ok false.
(** Line 315: ext_len >= n *)
Definition named_prefix (v : strview) (name : bytes) : outcome bool :=
  if Z.of_nat (length name) <=? sv_size v
  then do b <- or_ub (slice (sv_memory v) (sv_offset v) (length name)); Ok (same_bytes b name)
  else Ok false.

(** Lines 252-293: a native type *)
Definition native_view (g : Z) (v : arrow_view) (name : strview) (parse : outcome (Z * Z)) : outcome schema_view :=
  do (d, c) <- parse;
  Ok (SchemaView (make_type g d c) g d c (Some name) (av_metadata v)).
(** Lines 294-336: a serialized type *)
Definition serialized_view (t : Z) (v : arrow_view) (name : strview) : outcome schema_view :=
  Ok (SchemaView t (geometry_type_from_type t) (dimensions_from_type t) (coord_type_from_type t) (Some name) (av_metadata v)).

(** schema_view.c lines 247-349: GeoArrowSchemaViewInitInternal *)
Definition view_init_internal (s : schema) (v : arrow_view) (name : strview) : outcome schema_view :=
  do e <- named name $"geoarrow.box";
  if e : bool then native_view GT_BOX v name (parse_box s) else
  do e <- named name $"geoarrow.point";
  if e : bool then native_view GT_POINT v name (parse_nested_schema 0 s) else
  do e <- named name $"geoarrow.linestring";
  if e : bool then native_view GT_LINESTRING v name (parse_nested_schema 1 s) else
  do e <- named name $"geoarrow.polygon";
  if e : bool then native_view GT_POLYGON v name (parse_nested_schema 2 s) else
  do e <- named name $"geoarrow.multipoint";
  if e : bool then native_view GT_MULTIPOINT v name (parse_nested_schema 1 s) else
  do e <- named name $"geoarrow.multilinestring";
  if e : bool then native_view GT_MULTILINESTRING v name (parse_nested_schema 2 s) else
  do e <- named name $"geoarrow.multipolygon";
  if e : bool then native_view GT_MULTIPOLYGON v name (parse_nested_schema 3 s) else
  do e <- named name $"geoarrow.wkt";
  if e : bool then
    match av_type v with
    | TString => serialized_view TYPE_WKT v name
    | TLargeString => serialized_view TYPE_LARGE_WKT v name
    | TStringView => serialized_view TYPE_WKT_VIEW v name
    | _ => Err EINVAL
    end
  else
  do e <- named_prefix name $"geoarrow.wkb";
  if e : bool then
    match av_type v with
    | TBinary => serialized_view TYPE_WKB v name
    | TLargeBinary => serialized_view TYPE_LARGE_WKB v name
    | TBinaryView => serialized_view TYPE_WKB_VIEW v name
    | _ => Err EINVAL
    end
  else Err EINVAL.

(** schema_view.c lines 351-365: GeoArrowSchemaViewInit *)
Definition schema_view_init (s : schema) : outcome schema_view :=
  do v <- arrow_view_init s;
  match av_name v with
  | None => Err EINVAL
  | Some name => view_init_internal s v name
  end.

(** schema_view.c lines 367-376: GeoArrowSchemaViewInitFromStorage *)
Definition schema_view_init_from_storage (s : schema) (name : strview) : outcome schema_view :=
  do v <- arrow_view_init s;
  view_init_internal s v name.

(** schema_view.c lines 378-403: GeoArrowSchemaViewInitFromType *)
Definition schema_view_init_from_type (t : Z) : outcome schema_view :=
  let view name := SchemaView t (geometry_type_from_type t) (dimensions_from_type t) (coord_type_from_type t) name None in
  if t =? TYPE_UNINITIALIZED then Ok (view None)
  else match extension_name_from_type t with
       | None => Err EINVAL
       | Some name => Ok (view (Some (StrView name 0 (Z.of_nat (length name)))))
       end.

(** ** Metadata of a schema *)

(** metadata.c lines 471-504 and 523-526: GeoArrowSchemaSetMetadata. The memory has the calculated size: a serialization of
    another length would leave uninitialised bytes or write outside. *)
Definition schema_set_geoarrow_metadata (s : schema) (m : metadata) : outcome schema :=
  let text := serialized m in
  if negb (Z.of_nat (length text) =? serialized_size m) then UB else
  do b <- builder_init (sc_metadata s);
  do b <- builder_set b metadata_key text;
  schema_set_metadata s (buffer_data b).

(** metadata.c lines 528-545: GeoArrowSchemaSetMetadataFrom. A source without extension metadata has a view of no bytes. *)
Definition schema_set_geoarrow_metadata_from (s source : schema) : outcome schema :=
  do v <- arrow_view_init source;
  do text <- match av_metadata v with Some t => or_ub (sv_bytes t) | None => Ok [] end;
  do b <- builder_init (sc_metadata s);
  do b <- builder_set b metadata_key text;
  schema_set_metadata s (buffer_data b).
