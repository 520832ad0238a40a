(** * The WKT writer: src/geoarrow/wkt_writer.c *)
From Verif Require Import Base Text GeomSpec VisitorModel VisitorSpec BufferModel ArraySpec WkbWriterModel.
Local Open Scope Z_scope.

(** wkt_writer.c lines 9-24: struct WKTWriterPrivate. storage_type is constantly NANOARROW_TYPE_STRING and left out; precision,
    use_flat_multipoint and max_element_size_bytes are in [kcfg]. [k_validity], [k_offsets] as in [wst]. [k_start] is
    values_feat_start; it and feat_is_null are [None] until first written. The counters i[32] are int64_t; they count parts and
    coordinates that were in memory, so their overflow is not modelled. *)
Record kst := KState {
  k_validity : option (list bool);
  k_offsets : list Z;
  k_values : buf;
  k_gt : arr32 N;
  k_i : arr32 Z;
  k_level : Z;
  k_length : Z;
  k_nulls : Z;
  k_start : option Z;
  k_is_null : option bool
}.

(** The settings of a visitor; wkt_writer.c lines 304-312: precision is clamped by GeoArrowWKTWriterInitVisitor *)
Record kcfg := KConfig { kc_precision : Z; kc_flat : bool; kc_max : Z }.
Definition wkt_config (precision : Z) (flat : bool) (max : Z) : kcfg :=
  {| kc_precision := if (precision <? 0) || (16 <? precision) then 16 else precision; kc_flat := flat; kc_max := max |}.

(** wkt_writer.c lines 273-296: GeoArrowWKTWriterInit. ArrowMalloc leaves the arrays, values_feat_start and feat_is_null unset. *)
Definition wkt_init : kst :=
  {| k_validity := None; k_offsets := []; k_values := buf_init; k_gt := fun _ => None; k_i := fun _ => None;
     k_level := 0; k_length := 0; k_nulls := 0; k_start := None; k_is_null := None |}.

Definition kset_values (s : kst) (b : buf) : kst :=
  {| k_validity := k_validity s; k_offsets := k_offsets s; k_values := b; k_gt := k_gt s; k_i := k_i s;
     k_level := k_level s; k_length := k_length s; k_nulls := k_nulls s; k_start := k_start s; k_is_null := k_is_null s |}.
Definition kset_level (s : kst) (l : Z) : kst :=
  {| k_validity := k_validity s; k_offsets := k_offsets s; k_values := k_values s; k_gt := k_gt s; k_i := k_i s;
     k_level := l; k_length := k_length s; k_nulls := k_nulls s; k_start := k_start s; k_is_null := k_is_null s |}.
Definition kset_meta (s : kst) (gt : arr32 N) (i : arr32 Z) : kst :=
  {| k_validity := k_validity s; k_offsets := k_offsets s; k_values := k_values s; k_gt := gt; k_i := i;
     k_level := k_level s; k_length := k_length s; k_nulls := k_nulls s; k_start := k_start s; k_is_null := k_is_null s |}.
Definition kset_offsets (s : kst) (o : list Z) : kst :=
  {| k_validity := k_validity s; k_offsets := o; k_values := k_values s; k_gt := k_gt s; k_i := k_i s;
     k_level := k_level s; k_length := k_length s; k_nulls := k_nulls s; k_start := k_start s; k_is_null := k_is_null s |}.
Definition kset_book (s : kst) (v : option (list bool)) (len nulls : Z) : kst :=
  {| k_validity := v; k_offsets := k_offsets s; k_values := k_values s; k_gt := k_gt s; k_i := k_i s;
     k_level := k_level s; k_length := len; k_nulls := nulls; k_start := k_start s; k_is_null := k_is_null s |}.
Definition kset_feat (s : kst) (start : option Z) (is_null : bool) : kst :=
  {| k_validity := k_validity s; k_offsets := k_offsets s; k_values := k_values s; k_gt := k_gt s; k_i := k_i s;
     k_level := k_level s; k_length := k_length s; k_nulls := k_nulls s; k_start := start; k_is_null := Some is_null |}.

(** wkt_writer.c lines 26-32: WKTWriterCheckLevel *)
Definition wkt_check_level (s : kst) : bool := (0 <=? k_level s) && (k_level s <=? 31).

(** wkt_writer.c lines 34-36: WKTWriterWrite *)
Definition kwrite (s : kst) (t : bytes) : kst := kset_values s (buf_append (k_values s) t).

(** nanoarrow.h lines 2576-2581: ArrowBufferAppendUnsafe does not grow the buffer; writing beyond its capacity has no meaning *)
Definition put_unsafe (b : buf) (t : bytes) : option buf :=
  if b_size b + Z.of_nat (length t) <=? b_cap b
  then Some {| b_data := b_data b ++ t; b_cap := b_cap b |} else None.

(** wkt_writer.c lines 48-59: feat_start_wkt *)
Definition feat_start_wkt (s : kst) : vres kst :=
  let s := kset_level s (-1) in
  let s := kset_book s (k_validity s) (k_length s + 1) (k_nulls s) in
  let s := kset_feat s (Some (b_size (k_values s))) false in
  if 2147483647 <? b_size (k_values s) then VRet s EOVERFLOW
  else VRet (kset_offsets s (k_offsets s ++ [to_int32 (b_size (k_values s))])) 0.

(** wkt_writer.c lines 61-65: null_feat_wkt *)
Definition null_feat_wkt (s : kst) : vres kst := VRet (kset_feat s (k_start s) true) 0.

(** geoarrow_type_inline.h lines 254-278: GeoArrowGeometryTypeString, for the types geom_start_wkt lets through *)
Definition geometry_type_string (t : N) : bytes :=
  match t with
  | 1 => $"POINT"
  | 2 => $"LINESTRING"
  | 3 => $"POLYGON"
  | 4 => $"MULTIPOINT"
  | 5 => $"MULTILINESTRING"
  | 6 => $"MULTIPOLYGON"
  | 7 => $"GEOMETRYCOLLECTION"
  | _ => $"<not valid>"
  end%N.

(** wkt_writer.c lines 91-106: the dimensions; [None]: EINVAL *)
Definition dimensions_tag (d : N) : option bytes :=
  match d with
  | 1 => Some []
  | 2 => Some $" Z"
  | 3 => Some $" M"
  | 4 => Some $" ZM"
  | _ => None
  end%N.

(** wkt_writer.c lines 111-117 and 131-137: counting the part in its parent and opening its own level *)
Definition open_level (s : kst) (t : N) : vres kst :=
  let l := k_level s in
  got i <- (if 0 <? l then
              match aget (k_i s) (l - 1) with
              | Some x => aset (k_i s) (l - 1) (x + 1)
              | None => None
              end
            else Some (k_i s));
  got gt <- aset (k_gt s) l t;
  got i <- aset i l 0;
  VRet (kset_meta s gt i) 0.

(** wkt_writer.c lines 67-118: geom_start_wkt *)
Definition geom_start_wkt (s : kst) (t d : N) : vres kst :=
  let s := kset_level s (k_level s + 1) in
  if negb (wkt_check_level s) then VRet s EINVAL
  else
    let l := k_level s in
    got s <- (if 0 <? l then
                match aget (k_i s) (l - 1) with
                | Some x => Some (if 0 <? x then kwrite s $", " else kwrite s $"(")
                | None => None
                end
              else Some s);
    got tagged <- (if l =? 0 then Some true
                   else match aget (k_gt s) (l - 1) with Some p => Some (p =? 7)%N | None => None end);
    if (tagged : bool) then
      if ((t <? 1) || (7 <? t))%N then VRet s EINVAL
      else
        let s := kwrite s (geometry_type_string t) in
        match dimensions_tag d with
        | None => VRet s EINVAL
        | Some tag => open_level (kwrite (kwrite s tag) $" ") t
        end
    else open_level s t.

(** wkt_writer.c lines 120-138: ring_start_wkt; GEOARROW_GEOMETRY_TYPE_GEOMETRY is 0 *)
Definition ring_start_wkt (s : kst) : vres kst :=
  let s := kset_level s (k_level s + 1) in
  if negb (wkt_check_level s) then VRet s EINVAL
  else
    let l := k_level s in
    got comma <- (if 0 <? l then match aget (k_i s) (l - 1) with Some x => Some (0 <? x) | None => None end
                  else Some false);
    open_level (if (comma : bool) then kwrite s $", " else kwrite s $"(") 0.

(** wkt_writer.c lines 177-179 and 237-239: [true] when the parentheses are written *)
Definition parens (cfg : kcfg) (s : kst) : option bool :=
  if (k_level s <? 1) || negb (kc_flat cfg) then Some true
  else match aget (k_gt s) (k_level s - 1) with Some p => Some (negb (p =? 4)%N) | None => None end.

(** wkt_writer.c lines 218-228: ring_end_wkt *)
Definition ring_end_wkt (s : kst) : vres kst :=
  if negb (wkt_check_level s) then VRet s EINVAL
  else
    got x <- aget (k_i s) (k_level s);
    let s := kset_level s (k_level s - 1) in
    VRet (kwrite s (if x =? 0 then $"EMPTY" else $")")) 0.

(** wkt_writer.c lines 230-246: geom_end_wkt *)
Definition geom_end_wkt (cfg : kcfg) (s : kst) : vres kst :=
  if negb (wkt_check_level s) then VRet s EINVAL
  else
    got x <- aget (k_i s) (k_level s);
    if x =? 0 then VRet (kwrite (kset_level s (k_level s - 1)) $"EMPTY") 0
    else
      got p <- parens cfg s;
      let s := kset_level s (k_level s - 1) in
      VRet (if (p : bool) then kwrite s $")" else s) 0.

(** wkt_writer.c lines 251-258: the validity of a null feature *)
Definition kpush_null (s : kst) : kst :=
  let bits := match k_validity s with
              | None => repeat true (Z.to_nat (k_length s - 1))
              | Some bits => bits
              end in
  kset_book s (Some (bits ++ [false])) (k_length s) (k_nulls s + 1).

(** wkt_writer.c lines 248-271: feat_end_wkt. An existing bitmap makes it return before the size limit is applied. *)
Definition feat_end_wkt (cfg : kcfg) (s : kst) : vres kst :=
  got is_null <- k_is_null s;
  if (is_null : bool) then VRet (kpush_null s) 0
  else
    match k_validity s with
    | Some bits => VRet (kset_book s (Some (bits ++ [true])) (k_length s) (k_nulls s)) 0
    | None =>
        if 0 <=? kc_max cfg then
          got start <- k_start s;
          if kc_max cfg <? b_size (k_values s) - start then
            VRet (kset_values s {| b_data := firstn (Z.to_nat (start + kc_max cfg)) (b_data (k_values s));
                                   b_cap := b_cap (k_values s) |}) 0
          else VRet s 0
        else VRet s 0
    end.

Section Printer.
(** GeoArrowPrintDouble (src/geoarrow/double_print.c): the text of a double (given by its 64-bit pattern) at a precision. *)
Variable print_double : N -> Z -> bytes.

(** wkt_writer.c lines 38-46: WKTWriterWriteDoubleUnsafe. GeoArrowPrintDouble may use 40 bytes of the buffer; writing with less
    room, or printing more than there is room for, has no meaning. *)
Definition put_double (cfg : kcfg) (b : buf) (w : N) : option buf :=
  if b_size b + 40 <=? b_cap b then put_unsafe b (print_double w (kc_precision cfg)) else None.

(** wkt_writer.c lines 190-193 and 208-211: the ordinates after the first, each after a space *)
Fixpoint put_ordinates (cfg : kcfg) (b : buf) (ws : list N) : option buf :=
  match ws with
  | [] => Some b
  | w :: r =>
      match put_unsafe b $" " with
      | Some b => match put_double cfg b w with Some b => put_ordinates cfg b r | None => None end
      | None => None
      end
  end.
(** wkt_writer.c lines 189-193: one coordinate. A row that does not have [n_dims] ordinates (or none at all) would be read
    outside the coordinate view. *)
Definition put_coord (cfg : kcfg) (n_dims : N) (b : buf) (c : coord) : option buf :=
  if (N.of_nat (length c) =? n_dims)%N then
    match c with
    | [] => None
    | w :: r => match put_double cfg b w with Some b => put_ordinates cfg b r | None => None end
    end
  else None.

(** wkt_writer.c lines 196-212: the coordinates after the first. [theo] is max_chars_per_coord_theoretical. The result: the
    buffer and whether all were written ([false]: EAGAIN). *)
Fixpoint put_coords (cfg : kcfg) (n_dims : N) (theo : Z) (start : option Z) (b : buf) (cs : list coord) : option (buf * bool) :=
  match cs with
  | [] => Some (b, true)
  | c :: r =>
      let write :=
        match put_unsafe (buf_reserve b theo) $", " with
        | Some b => match put_coord cfg n_dims b c with Some b => put_coords cfg n_dims theo start b r | None => None end
        | None => None
        end in
      if 0 <=? kc_max cfg then
        match start with
        | Some start => if kc_max cfg <=? b_size b - start then Some (b, false) else write
        | None => None
        end
      else write
  end.

(** wkt_writer.c lines 140-216: coords_wkt. The sizes are int64_t; they are within a small factor of the size of the
    coordinates in memory, so their overflow is not modelled. *)
Definition coords_wkt (cfg : kcfg) (s : kst) (n_dims : N) (cs : list coord) : vres kst :=
  match cs with
  | [] => VRet s 0
  | c :: r =>
      if negb (wkt_check_level s) then VRet s EINVAL
      else
        let n := Z.of_nat (length cs) in
        let nd := Z.of_N n_dims in
        let theo := n * 2 + n * (nd - 1) + 40 * nd in
        let est := n * 2 + n * (nd - 1) + (kc_precision cfg + 1 + 8) * n * nd + theo in
        let b := buf_reserve (k_values s) est in
        got x <- aget (k_i s) (k_level s);
        got sep <- (if negb (x =? 0) then Some $", "
                    else match parens cfg s with Some p => Some (if (p : bool) then $"(" else []) | None => None end);
        got b <- put_unsafe b sep;
        let b := buf_reserve b theo in
        got b <- put_coord cfg n_dims b c;
        got (b, all) <- put_coords cfg n_dims theo (k_start s) b r;
        if (all : bool) then
          got i <- aset (k_i s) (k_level s) (x + n);
          VRet (kset_meta (kset_values s b) (k_gt s) i) 0
        else VRet (kset_values s b) EAGAIN
  end.

(** wkt_writer.c lines 298-323: GeoArrowWKTWriterInitVisitor *)
Definition wkt_step (cfg : kcfg) : visitor kst := fun s e =>
  match e with
  | EFeatStart => feat_start_wkt s
  | ENullFeat => null_feat_wkt s
  | EGeomStart t d => geom_start_wkt s t d
  | ERingStart => ring_start_wkt s
  | ECoords n cs => coords_wkt cfg s n cs
  | ERingEnd => ring_end_wkt s
  | EGeomEnd => geom_end_wkt cfg s
  | EFeatEnd => feat_end_wkt cfg s
  end.

(** src/geoarrow/kernel.c lines 216-224: kernel_push_batch_by_feature, one turn: the events of a feature, and feat_end if they
    were cut short by EAGAIN *)
Definition wkt_feature (cfg : kcfg) (s : kst) (evs : list event) : option (kst * Z) :=
  match feed (wkt_step cfg) s evs with
  | Some (s, c) =>
      if c =? EAGAIN then match feat_end_wkt cfg s with VRet s c => Some (s, c) | VUB => None end
      else Some (s, c)
  | None => None
  end.
End Printer.

(** wkt_writer.c lines 325-345: GeoArrowWKTWriterFinish, as [wkb_finish] *)
Definition wkt_finish (s : kst) : kst * Z * option binary_array :=
  if 2147483647 <? b_size (k_values s) then (s, EOVERFLOW, None)
  else
    let a := {| ba_length := k_length s; ba_null_count := k_nulls s; ba_validity := k_validity s;
                ba_offsets := k_offsets s ++ [to_int32 (b_size (k_values s))]; ba_data := b_data (k_values s) |} in
    let s' := kset_book (kset_values (kset_offsets s []) buf_init) None 0 0 in
    (s', if validate_binary a then 0 else EINVAL, Some a).
