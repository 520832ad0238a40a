(** * Extension metadata: src/geoarrow/metadata.c *)
From Verif Require Import Base Text.
Local Open Scope Z_scope.

(** geoarrow_type.h lines 424-431: enum GeoArrowEdgeType *)
Definition EDGE_PLANAR : Z := 0.
Definition EDGE_SPHERICAL : Z := 1.
Definition EDGE_VINCENTY : Z := 2.
Definition EDGE_THOMAS : Z := 3.
Definition EDGE_ANDOYER : Z := 4.
Definition EDGE_KARNEY : Z := 5.
(** geoarrow_type.h lines 435-442: enum GeoArrowCrsType *)
Definition CRS_NONE : Z := 0.
Definition CRS_UNKNOWN : Z := 1.
Definition CRS_PROJJSON : Z := 2.
Definition CRS_WKT2_2019 : Z := 3.
Definition CRS_AUTHORITY_CODE : Z := 4.
Definition CRS_SRID : Z := 5.

(** geoarrow_type_inline.h lines 141-158: GeoArrowEdgeTypeString *)
Definition edge_type_string (t : Z) : bytes :=
  if t =? EDGE_PLANAR then $"planar"
  else if t =? EDGE_SPHERICAL then $"spherical"
  else if t =? EDGE_VINCENTY then $"vincenty"
  else if t =? EDGE_THOMAS then $"thomas"
  else if t =? EDGE_ANDOYER then $"andoyer"
  else if t =? EDGE_KARNEY then $"karney"
  else $"<not valid>".
(** geoarrow_type_inline.h lines 162-179: GeoArrowCrsTypeString *)
Definition crs_type_string (t : Z) : bytes :=
  if t =? CRS_NONE then $"none"
  else if t =? CRS_UNKNOWN then $"unknown"
  else if t =? CRS_PROJJSON then $"projjson"
  else if t =? CRS_WKT2_2019 then $"wkt2:2019"
  else if t =? CRS_AUTHORITY_CODE then $"authority_code"
  else if t =? CRS_SRID then $"srid"
  else $"<not valid>".

(** geoarrow_type.h: struct GeoArrowMetadataView, without the view of the metadata itself. A view of no bytes is []. *)
Record metadata := Metadata { m_edges : Z; m_crs_type : Z; m_crs : bytes }.
Definition set_edges (m : metadata) (t : Z) : metadata := Metadata t (m_crs_type m) (m_crs m).
Definition set_crs_type (m : metadata) (t : Z) : metadata := Metadata (m_edges m) t (m_crs m).
Definition set_crs (m : metadata) (b : bytes) : metadata := Metadata (m_edges m) (m_crs_type m) b.

(** Characters *)
Definition quote : N := 34.
Definition backslash : N := 92.
Definition comma : N := 44.
Definition colon : N := 58.
Definition list_open : N := 91.
Definition list_close : N := 93.
Definition object_open : N := 123.
Definition object_close : N := 125.

Fixpoint same_bytes (a b : bytes) : bool :=
  match a, b with
  | [], [] => true
  | x :: a, y :: b => (x =? y)%N && same_bytes a b
  | _, _ => false
  end.

(** ** Reading

    The struct ArrowStringView [s] that the functions advance is the list of the bytes left. *)
Section Reader.
  (** The byte after the end of the metadata, if it can be read. *)
  Variable past : option N.

  (** s->data[0], which is read without regard to s->size_bytes *)
  Definition peek (s : bytes) : outcome N :=
    match s with
    | c :: _ => Ok c
    | [] => match past with Some c => Ok c | None => UB end
    end.

  (** lines 14-22: ParseChar *)
  Definition parse_char (s : bytes) (c : N) : outcome bytes :=
    match s with
    | x :: s => if (x =? c)%N then Ok s else Err EINVAL
    | [] => Err EINVAL
    end.

  (** lines 24-34: SkipWhitespace *)
  Fixpoint skip_whitespace (s : bytes) : bytes :=
    match s with
    | c :: r => if ((c =? 32) || (c =? 9) || (c =? 10) || (c =? 13))%N then skip_whitespace r else s
    | [] => []
    end.

  (** lines 36-55: SkipUntil: whether one of the items was found, and what is left *)
  Fixpoint skip_until (items s : bytes) : bool * bytes :=
    match s with
    | [] => (false, [])
    | c :: r => if (c =? 0)%N then (false, s) else if existsb (N.eqb c) items then (true, s) else skip_until items r
    end.

  (** lines 57-72: FindNull. The results of this and the next three functions: the view [out], and what is left. *)
  Definition find_null (s : bytes) : outcome (bytes * bytes) :=
    match slice s 0 4 with
    | Some v => if same_bytes v $"null" then Ok (v, skipn 4 s) else Err EINVAL
    | None => Err EINVAL
    end.

  (** The bytes from [s] up to what is left. *)
  Definition up_to (s rest : bytes) : bytes := firstn (length s - length rest) s.

  (** lines 84-106: the loop of FindString *)
  Fixpoint string_loop (is_escape : bool) (s : bytes) : outcome bytes :=
    match s with
    | [] => Err EINVAL
    | c :: s =>
        if negb is_escape && (c =? backslash)%N then string_loop true s
        else if negb is_escape && (c =? quote)%N then Ok s
        else string_loop false s
    end.

  (** lines 74-107: FindString. Past the end, s->size_bytes becomes -1 here, which ends every loop as 0 does. *)
  Definition find_string (s : bytes) : outcome (bytes * bytes) :=
    do c <- peek s;
    if (c =? quote)%N then do rest <- string_loop false (tl s); Ok (up_to s rest, rest)
    else Err EINVAL.

  (** lines 122-146 and 159-183: the loops of FindList and FindObject, which differ only in the character that closes them:
      SkipUntil(s, "[{\"]") and SkipUntil(s, "{[\"}"). *)
  Fixpoint nested_loop (fuel : nat) (close : N) (s : bytes) : outcome bytes :=
    match fuel with
    | O => NoFuel
    | S fuel =>
        match s with
        | [] => Err EINVAL
        | _ :: _ =>
            let '(found, s) := skip_until [list_open; object_open; quote; close] s in
            if found then
              do c <- peek s;
              if (c =? quote)%N then do (_, s) <- find_string s; nested_loop fuel close s
              else if (c =? list_open)%N then do s <- nested_loop fuel list_close (tl s); nested_loop fuel close s
              else if (c =? object_open)%N then do s <- nested_loop fuel object_close (tl s); nested_loop fuel close s
              else Ok (tl s)
            else nested_loop fuel close s
        end
    end.

  (** lines 112-147: FindList *)
  Definition find_list (fuel : nat) (s : bytes) : outcome (bytes * bytes) :=
    do c <- peek s;
    if (c =? list_open)%N then do rest <- nested_loop fuel list_close (tl s); Ok (up_to s rest, rest)
    else Err EINVAL.
  (** lines 149-184: FindObject *)
  Definition find_object (fuel : nat) (s : bytes) : outcome (bytes * bytes) :=
    do c <- peek s;
    if (c =? object_open)%N then do rest <- nested_loop fuel object_close (tl s); Ok (up_to s rest, rest)
    else Err EINVAL.

  (** lines 200-216: the value of a member *)
  Definition find_value (fuel : nat) (s : bytes) : outcome (bytes * bytes) :=
    do c <- peek s;
    if (c =? list_open)%N then find_list fuel s
    else if (c =? object_open)%N then find_object fuel s
    else if (c =? quote)%N then find_string s
    else if (c =? 110)%N then find_null s
    else Err EINVAL.

  (** The first byte of a value that was found *)
  Definition first_is (v : bytes) (c : N) : bool := match v with x :: _ => (x =? c)%N | [] => false end.

  (** lines 218-235: the member "edges" *)
  Definition edges_member (m : metadata) (v : bytes) : outcome metadata :=
    if same_bytes v $"""spherical""" then Ok (set_edges m EDGE_SPHERICAL)
    else if same_bytes v $"""planar""" then Ok (set_edges m EDGE_PLANAR)
    else if same_bytes v $"""vincenty""" then Ok (set_edges m EDGE_VINCENTY)
    else if same_bytes v $"""thomas""" then Ok (set_edges m EDGE_THOMAS)
    else if same_bytes v $"""andoyer""" then Ok (set_edges m EDGE_ANDOYER)
    else if same_bytes v $"""karney""" then Ok (set_edges m EDGE_KARNEY)
    else if first_is v 110 then Ok (set_edges m EDGE_PLANAR)
    else Err EINVAL.

  (** lines 236-255: the member "crs" *)
  Definition crs_member (m : metadata) (v : bytes) : outcome metadata :=
    if first_is v object_open || first_is v quote then
      let m := set_crs m v in
      Ok (if m_crs_type m =? CRS_NONE then set_crs_type m CRS_UNKNOWN else m)
    else if first_is v 110 then Ok (set_crs_type m CRS_NONE)
    else Err EINVAL.

  (** lines 256-273: the member "crs_type". The result of each strncmp() is used as it is, and it is [k] that is compared. *)
  Definition crs_type_member (m : metadata) (k v : bytes) : outcome metadata :=
    let n := Z.of_nat (length v) in
    if first_is v quote then
      if (n =? 10) && negb (same_bytes (firstn 10 k) $"""projjson""") then Ok (set_crs_type m CRS_PROJJSON)
      else if (n =? 11) && negb (same_bytes (firstn 11 k) $"""wkt2:2019""") then Ok (set_crs_type m CRS_WKT2_2019)
      else if (n =? 16) && negb (same_bytes (firstn 16 k) $"""authority_code""") then Ok (set_crs_type m CRS_AUTHORITY_CODE)
      else if (n =? 6) && negb (same_bytes (firstn 6 k) $"""srid""") then Ok (set_crs_type m CRS_SRID)
      else Ok (set_crs_type m CRS_UNKNOWN)
    else Err EINVAL.

  (** lines 218-274: what a member does *)
  Definition member (m : metadata) (k v : bytes) : outcome metadata :=
    if same_bytes k $"""edges""" then edges_member m v
    else if same_bytes k $"""crs""" then crs_member m v
    else if same_bytes k $"""crs_type""" then crs_type_member m k v
    else Ok m.

  (** lines 193-281: the loop of ParseJSONMetadata *)
  Fixpoint members_loop (fuel : nat) (m : metadata) (s : bytes) : outcome (metadata * bytes) :=
    match fuel with
    | O => NoFuel
    | S fuel' =>
        match s with
        | [] => Ok (m, s)
        | c :: _ =>
            if (c =? object_close)%N then Ok (m, s)
            else
              do (k, s) <- find_string (skip_whitespace s);
              do s <- parse_char (skip_whitespace s) colon;
              do (v, s) <- find_value fuel (skip_whitespace s);
              do m <- member m k v;
              let s := snd (skip_until [comma; object_close] s) in
              do c <- peek s;
              members_loop fuel' m (if (c =? comma)%N then tl s else s)
        end
    end.

  (** lines 186-290: ParseJSONMetadata *)
  Definition parse_json (fuel : nat) (m : metadata) (s : bytes) : outcome (metadata * bytes) :=
    do s <- parse_char s object_open;
    do (m, s) <- members_loop fuel m (skip_whitespace s);
    do s <- parse_char s object_close;
    Ok (m, s).

  (** lines 292-324 and 326-340: GeoArrowMetadataViewInitJSON and GeoArrowMetadataViewInit *)
  Definition metadata_view_init (fuel : nat) (b : bytes) : outcome metadata :=
    let m := Metadata EDGE_PLANAR CRS_NONE [] in
    match b with
    | [] => Ok m
    | _ :: _ =>
        match parse_json fuel m (skip_whitespace b) with
        | Ok (m, s) =>
            match skip_whitespace s with
            | [] => Ok (match m_crs m with [] => set_crs_type m CRS_NONE | _ :: _ => m end)
            | _ :: _ => Err EINVAL
            end
        | Err _ => Err EINVAL
        | UB => UB
        | NoFuel => NoFuel
        end
    end.
End Reader.

(** ** Writing *)

(** lines 342-344: GeoArrowMetadataCrsNeedsEscape *)
Definition needs_escape (crs : bytes) : bool :=
  match crs with [] => true | c :: _ => negb (c =? object_open)%N && negb (c =? quote)%N end.

(** lines 346-393: GeoArrowMetadataCalculateSerializedSize *)
Definition serialized_size (m : metadata) : Z :=
  let edges := negb (m_edges m =? EDGE_PLANAR) in
  let crs_type := negb (m_crs_type m =? CRS_UNKNOWN) && negb (m_crs_type m =? CRS_NONE) in
  let crs := negb (m_crs_type m =? CRS_NONE) in
  let n_keys := (if edges then 1 else 0) + (if crs_type then 1 else 0) + (if crs then 1 else 0) in
  2 + (if edges then (5 + 2 + 1) + 2 + Z.of_nat (length (edge_type_string (m_edges m))) else 0)
    + (if crs_type then (8 + 2 + 1) + 2 + Z.of_nat (length (crs_type_string (m_crs_type m))) else 0)
    + (if crs then
         (3 + 2 + 1) +
         (if needs_escape (m_crs m)
          then 2 + Z.of_nat (length (m_crs m)) + Z.of_nat (length (filter (fun c => (c =? backslash)%N || (c =? quote)%N) (m_crs m)))
          else Z.of_nat (length (m_crs m)))
       else 0)
    + (if 1 <? n_keys then n_keys - 1 else 0).

(** lines 450-457: the escaped text of a CRS *)
Definition write_escaped (crs : bytes) : bytes := flat_map (fun c => if (c =? quote)%N then [backslash; c] else [c]) crs.

(** lines 408-469: GeoArrowMetadataSerializeInternal: the bytes that it writes *)
Definition serialized (m : metadata) : bytes :=
  let edges := negb (m_edges m =? EDGE_PLANAR) in
  let crs_type := negb (m_crs_type m =? CRS_UNKNOWN) && negb (m_crs_type m =? CRS_NONE) in
  [object_open] ++
  (if edges then $"""edges"":" ++ [quote] ++ edge_type_string (m_edges m) ++ [quote] else []) ++
  (if crs_type then (if edges then [comma] else []) ++ $"""crs_type"":" ++ [quote] ++ crs_type_string (m_crs_type m) ++ [quote] else []) ++
  (if negb (m_crs_type m =? CRS_NONE) then
     (if edges || crs_type then [comma] else []) ++ $"""crs"":" ++
     (if needs_escape (m_crs m) then [quote] ++ write_escaped (m_crs m) ++ [quote] else m_crs m)
   else []) ++
  [object_close].

(** [out] with [b] written over it at [i]; writing outside [out] is undefined. *)
Definition write_at (out : bytes) (i : nat) (b : bytes) : option bytes :=
  if (i + length b <=? length out)%nat then Some (firstn i out ++ b ++ skipn (i + length b) out) else None.

(** lines 506-521: GeoArrowMetadataSerialize with room for n bytes at [out]: the result, and the bytes at [out] after it *)
Definition serialize (m : metadata) (out : bytes) (n : Z) : outcome (Z * bytes) :=
  let size := serialized_size m in
  do out <- (if size <=? n then or_ub (write_at out 0 (serialized m)) else Ok out);
  do out <- (if size <? n then or_ub (write_at out (Z.to_nat size) [0%N]) else Ok out);
  Ok (size, out).

(** ** Unescaping *)

(** lines 566-581: the loop of GeoArrowUnescapeCrs over the bytes between the quotes. *)
Fixpoint unescape_loop (n : Z) (is_escape : bool) (s : bytes) (out : bytes) (out_i : Z) : outcome (Z * bytes) :=
  match s with
  | [] => Ok (out_i, out)
  | c :: s =>
      if negb is_escape && (c =? backslash)%N then unescape_loop n true s out out_i
      else
        do out <- (if out_i <? n then or_ub (write_at out (Z.to_nat out_i) [c]) else Ok out);
        unescape_loop n false s out (out_i + 1)
  end.

(** lines 547-588: GeoArrowUnescapeCrs, with a buffer at [out] or NULL. *)
Definition unescape_crs (crs : bytes) (out : option bytes) (n : Z) : outcome (Z * option bytes) :=
  let put i b := do out <- or_ub out; do out <- or_ub (write_at out i b); Ok (Some out) in
  match crs with
  | [] => do out <- (if 0 <? n then put 0%nat [0%N] else Ok out); Ok (0, out)
  | c :: rest =>
      let size := Z.of_nat (length crs) in
      if negb (c =? quote)%N then
        do out <- (if size <? n then put 0%nat (crs ++ [0%N])
                   else match out with Some _ => if n <? 0 then UB else put 0%nat (firstn (Z.to_nat n) crs) | None => Ok None end);
        Ok (size, out)
      else
        (** a NULL buffer is not written to as long as n is 0 *)
        do (i, o) <- unescape_loop n false (removelast rest) (match out with Some o => o | None => [] end) 0;
        do o <- (if i <? n then or_ub (write_at o (Z.to_nat i) [0%N]) else Ok o);
        Ok (i, match out with Some _ => Some o | None => None end)
  end.
