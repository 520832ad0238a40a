(** * What an array of features contains (Arrow columnar format and GeoArrow specification) *)
From Verif Require Import Base TypesModel GeomSpec WkbSpec WktGrammar ArrowModel NativeSpec.
Local Open Scope Z_scope.

(** ** Arrays of byte strings *)

(** Binary or string (32-bit offsets), large binary or large string (64-bit offsets), binary view or string view. *)
Inductive serial_layout := Offsets32 | Offsets64 | Views.

(** Entry [i] of a buffer of little-endian int64 values. *)
Definition int64_at (b : bytes) (i : Z) : option Z :=
  option_map (fun bs => let n := Z.of_N (le_val bs) in if n <? 2 ^ 63 then n else n - 2 ^ 64) (slice b (8 * i) 8).

(** The data buffer has the bytes [x] at [from]; a NULL buffer has no bytes. *)
Definition buffer_has (b : option bytes) (from : Z) (x : bytes) : Prop :=
  match b with Some b => slice b from (length x) = Some x | None => x = [] end.

(** Element [i] of the array. Offsets delimit it in the third buffer. A view of 16 bytes has its size, and either up to 12
    bytes of data, or four bytes of prefix, the number of a buffer and an offset into it. *)
Definition bytes_at (lay : serial_layout) (a : arrow_array) (i : Z) (x : bytes) : Prop :=
  let p := aa_offset a + i in
  let n := Z.of_nat (length x) in
  exists b, second_buffer a = Some b /\
  match lay with
  | Offsets32 => exists data from, nth_error (aa_buffers a) 2 = Some data /\ buffer_has data from x /\
                   int32_at b p = Some from /\ int32_at b (p + 1) = Some (from + n)
  | Offsets64 => exists data from, nth_error (aa_buffers a) 2 = Some data /\ buffer_has data from x /\
                   int64_at b p = Some from /\ int64_at b (p + 1) = Some (from + n)
  | Views =>
      int32_at b (4 * p) = Some n /\
      if n <=? 12 then slice b (16 * p + 4) (length x) = Some x
      else exists k data from, nth_error (aa_buffers a) (2 + k) = Some data /\ buffer_has data from x /\
             int32_at b (4 * p + 2) = Some (Z.of_nat k) /\ int32_at b (4 * p + 3) = Some from
  end.

(** The elements of the array, in order; [None] is a null. *)
Definition serial_contents (lay : serial_layout) (a : arrow_array) (els : list (option bytes)) : Prop :=
  aa_length a = Z.of_nat (length els) /\
  forall i e, nth_error els i = Some e ->
    match e with
    | None => valid_at a (Z.of_nat i) = Some false
    | Some x => valid_at a (Z.of_nat i) = Some true /\ bytes_at lay a (Z.of_nat i) x
    end.

(** A valid array. The bitmap may be NULL only if there are no nulls, the buffer of offsets or views only if it is empty, and
    64-bit offsets are non-negative and within the data. *)
Definition serial_ok (lay : serial_layout) (a : arrow_array) : Prop :=
  0 <= aa_offset a /\ 0 <= aa_length a /\ aa_offset a + aa_length a < 2 ^ 63 /\ aa_children a = [] /\
  exists b0 b1 rest, aa_buffers a = b0 :: b1 :: rest /\
    (b0 = None -> aa_null_count a = 0) /\
    match b1 with Some b => wf_bytes b | None => aa_offset a + aa_length a = 0 end /\
    match lay with
    | Offsets32 => length rest = 1%nat
    | Offsets64 =>
        exists data, rest = [data] /\
          forall b i, b1 = Some b -> 0 < aa_offset a + aa_length a -> 0 <= i <= aa_length a ->
            exists o, int64_at b (aa_offset a + i) = Some o /\ 0 <= o /\ buffer_holds data o
    | Views => rest <> []
    end.

(** ** Arrays of features *)

(** An element and its feature. *)
Definition denotes_feature (R : geom -> bytes -> Prop) (e : option bytes) (f : option geom) : Prop :=
  match e, f with
  | Some b, Some g => R g b
  | None, None => True
  | _, _ => False
  end.

(** The type identifiers of the serialized encodings. *)
Definition wkb_type (lay : serial_layout) : Z :=
  match lay with Offsets32 => TYPE_WKB | Offsets64 => TYPE_LARGE_WKB | Views => TYPE_WKB_VIEW end.
Definition wkt_type (lay : serial_layout) : Z :=
  match lay with Offsets32 => TYPE_WKT | Offsets64 => TYPE_LARGE_WKT | Views => TYPE_WKT_VIEW end.

(** The readable encodings: geometries of at most 256 levels in up to 32 GiB of WKB, and WKT, with no
    whitespace after the first parenthesis of a multipoint of bare coordinates. *)
Definition wkb_element (g : geom) (b : bytes) : Prop :=
  wkb g b /\ wf_geom g /\ (levels g <= 256)%nat /\ (N.of_nat (length b) < 2 ^ 35)%N.
Definition wkt_element (parse : bytes -> option N) (g : geom) (b : bytes) : Prop := wkt_text parse false g b.

(** [features_array parse t a fs]: [a] is an array of type [t] whose elements are the features [fs], in any encoding. *)
Inductive features_array (parse : bytes -> option N) : Z -> arrow_array -> list (option geom) -> Prop :=
| fa_native k l d a fs : supported k d l -> (k = KBox -> d = XY) -> native_ok k l d a -> contents k l d a fs ->
    features_array parse (make_type (geometry_kind_code k) (dim_code d) (layout_code l)) a fs
| fa_wkb lay a els fs : serial_ok lay a -> serial_contents lay a els -> Forall2 (denotes_feature wkb_element) els fs ->
    features_array parse (wkb_type lay) a fs
| fa_wkt lay a els fs : serial_ok lay a -> serial_contents lay a els -> Forall2 (denotes_feature (wkt_element parse)) els fs ->
    features_array parse (wkt_type lay) a fs.
