(** * What Arrow schemas of GeoArrow types look like *)
From Verif Require Import Base Text TypesSpec SchemaModel.
Local Open Scope Z_scope.

(** ** Key-value metadata (Arrow C data interface) *)

(** The number of entries and, for each entry, the size of the key, the key, the size of the value, the value; numbers are
    32-bit little-endian. *)
Definition text32 (b : bytes) : bytes := le_bytes 4 (N.of_nat (length b)) ++ b.
Definition entry_bytes (e : bytes * bytes) : bytes := text32 (fst e) ++ text32 (snd e).
Definition metadata_bytes (es : list (bytes * bytes)) : bytes :=
  le_bytes 4 (N.of_nat (length es)) ++ flat_map entry_bytes es.
Definition short {A} (l : list A) : Prop := Z.of_nat (length l) < 2147483648.
Definition fits (es : list (bytes * bytes)) : Prop :=
  short es /\ Forall (fun e => short (fst e) /\ short (snd e)) es.

(** The metadata of a schema: a null pointer (no entries), or memory that starts with the entries. *)
Definition holds (md : option bytes) (es : list (bytes * bytes)) : Prop :=
  fits es /\
  match md with
  | None => es = []
  | Some b => exists rest, b = metadata_bytes es ++ rest
  end.

Definition same_text (a b : bytes) : bool := if list_eq_dec N.eq_dec a b then true else false.
(** The value of a key: the first entry counts. *)
Definition value_of (key : bytes) (es : list (bytes * bytes)) : option bytes :=
  option_map snd (find (fun e => same_text (fst e) key) es).
(** The entries of the other keys. *)
Definition others (key : bytes) (es : list (bytes * bytes)) : list (bytes * bytes) :=
  filter (fun e => negb (same_text (fst e) key)) es.

(** ** GeoArrow types *)

Inductive encoding := Wkb | Wkt.
Inductive width := Regular | Large | View.
Inductive geo_type :=
| Native (k : geometry_kind) (d : dim) (l : layout)
| Serialized (e : encoding) (w : width).

(** Boxes only exist with separate coordinates. *)
Definition exists_type (t : geo_type) : Prop :=
  match t with Native k d l => supported k d l | Serialized _ _ => True end.

(** enum GeoArrowType *)
Definition type_id (t : geo_type) : Z :=
  match t with
  | Native k d l => geometry_kind_code k + 1000 * (dim_code d - 1) + 10000 * (layout_code l - 1)
  | Serialized Wkb Regular => 100001 | Serialized Wkb Large => 100002
  | Serialized Wkt Regular => 100003 | Serialized Wkt Large => 100004
  | Serialized Wkb View => 100005 | Serialized Wkt View => 100006
  end.
(** The geometry type, dimensions and coordinate type that a view of the type gives: 0 is "any" or "unknown". *)
Definition parts (t : geo_type) : Z * Z * Z :=
  match t with
  | Native k d l => (geometry_kind_code k, dim_code d, layout_code l)
  | Serialized _ _ => (0, 0, 0)
  end.

Definition type_name (t : geo_type) : bytes :=
  match t with
  | Native KPoint _ _ => $"geoarrow.point"
  | Native KLinestring _ _ => $"geoarrow.linestring"
  | Native KPolygon _ _ => $"geoarrow.polygon"
  | Native KMultipoint _ _ => $"geoarrow.multipoint"
  | Native KMultilinestring _ _ => $"geoarrow.multilinestring"
  | Native KMultipolygon _ _ => $"geoarrow.multipolygon"
  | Native KBox _ _ => $"geoarrow.box"
  | Serialized Wkb _ => $"geoarrow.wkb"
  | Serialized Wkt _ => $"geoarrow.wkt"
  end.

(** ** Storage *)

Definition dim_names (d : dim) : bytes :=
  match d with XY => $"xy" | XYZ => $"xyz" | XYM => $"xym" | XYZM => $"xyzm" end.
Definition size_format (d : dim) : bytes :=
  match d with XY => $"+w:2" | XYZ => $"+w:3" | XYM => $"+w:3" | XYZM => $"+w:4" end.

(** A field of doubles with a name. *)
Definition doubles (c : option schema) (name : bytes) : Prop :=
  exists s, c = Some s /\ sc_format s = Some $"g" /\ sc_name s = Some name.

Definition separate (d : dim) (s : schema) : Prop :=
  sc_format s = Some $"+s" /\ Forall2 doubles (sc_children s) (map (fun c => [c]) (dim_names d)).

(** The child of the fixed-size list is named after the dimensions. A list whose child has another name (or none) is taken
    as XY, XYZ or XYZM according to its size. *)
Definition interleaved (d : dim) (s : schema) : Prop :=
  sc_format s = Some (size_format d) /\
  exists c, sc_children s = [Some c] /\ sc_format c = Some $"g" /\
    (sc_name c = Some (dim_names d) \/ (d <> XYM /\ forall d', sc_name c <> Some (dim_names d'))).

Definition coords (d : dim) (l : layout) : schema -> Prop :=
  match l with Separate => separate d | Interleaved => interleaved d end.

Definition box (d : dim) (s : schema) : Prop :=
  sc_format s = Some $"+s" /\
  Forall2 doubles (sc_children s)
    (map (fun c => [c] ++ $"min") (dim_names d) ++ map (fun c => [c] ++ $"max") (dim_names d)).

(** [n] levels of lists around something. *)
Fixpoint lists (n : nat) (inner : schema -> Prop) (s : schema) : Prop :=
  match n with
  | O => inner s
  | S n => sc_format s = Some $"+l" /\ exists c, sc_children s = [Some c] /\ lists n inner c
  end.

Definition levels (k : geometry_kind) : nat :=
  match k with
  | KPoint | KBox => 0 | KLinestring | KMultipoint => 1 | KPolygon | KMultilinestring => 2 | KMultipolygon => 3
  end%nat.

Definition stored (t : geo_type) (s : schema) : Prop :=
  match t with
  | Native KBox d _ => box d s
  | Native k d l => lists (levels k) (coords d l) s
  | Serialized Wkb Regular => sc_format s = Some $"z" /\ sc_children s = []
  | Serialized Wkb Large => sc_format s = Some $"Z" /\ sc_children s = []
  | Serialized Wkb View => sc_format s = Some $"vz" /\ sc_children s = []
  | Serialized Wkt Regular => sc_format s = Some $"u" /\ sc_children s = []
  | Serialized Wkt Large => sc_format s = Some $"U" /\ sc_children s = []
  | Serialized Wkt View => sc_format s = Some $"vu" /\ sc_children s = []
  end.

(** ** Schemas of the Arrow C data interface *)

(** Digits without superfluous zeros, and their value. *)
Definition numeral (t : bytes) : Prop :=
  t <> [] /\ Forall (fun c => 48 <= c <= 57)%N t /\ (hd 0%N t = 48%N -> length t = 1%nat).
Definition numeral_value (t : bytes) : Z := fold_left (fun v c => v * 10 + (Z.of_N c - 48)) t 0.

(** No pointer is null except those that may be, sizes of fixed-size lists are written in the normal way, only integers
    index a dictionary, there is no unknown flag and no flag that does not apply. *)
Inductive well_formed : schema -> Prop :=
| Well_formed f name md flags cs dict es :
    (forall t, f = $"+w:" ++ t -> numeral t /\ numeral_value t < 2147483648) ->
    (dict <> None -> In f [$"c"; $"C"; $"s"; $"S"; $"i"; $"I"; $"l"; $"L"]) ->
    0 <= flags < 8 ->
    (Z.testbit flags 0 = true -> dict <> None) ->
    (Z.testbit flags 2 = true -> f = $"+m") ->
    holds md es ->
    (forall c, In c cs -> well_formed c) ->
    (forall d, dict = Some d -> well_formed d) ->
    well_formed (Schema false (Some f) name md flags (map Some cs) dict).

(** A view shows a type: its id, its parts, its extension name. *)
Definition shows (v : schema_view) (t : geo_type) : Prop :=
  gv_type v = type_id t /\ (gv_geometry_type v, gv_dimensions v, gv_coord_type v) = parts t.

(** A string view that is missing exactly when the text is, and otherwise shows it. *)
Definition viewed (v : option strview) (b : option bytes) : Prop :=
  match b with
  | None => v = None
  | Some b => exists w, v = Some w /\ sv_bytes w = Some b
  end.
(** The schema with other key-value metadata. *)
Definition with_metadata (s : schema) (md : option bytes) : schema :=
  match s with Schema r f n _ g c d => Schema r f n md g c d end.
