(** * Raw buffers and bitmaps: src/vendor/nanoarrow/nanoarrow.h *)
From Verif Require Import Base BufferModel.
Local Open Scope Z_scope.

(** struct ArrowBuffer (nanoarrow.h lines 763-779), with all the memory it owns: [w_mem] is data[0 .. capacity_bytes),
    [w_size] is size_bytes. [data] is NULL exactly when nothing has been allocated, i.e. when [w_mem] is empty. *)
Record wbuf := WBuf { w_mem : bytes; w_size : Z }.

Definition w_cap (b : wbuf) : Z := Z.of_nat (length (w_mem b)).
Definition w_null (b : wbuf) : bool := match w_mem b with [] => true | _ => false end.

(** nanoarrow.h lines 2496-2501: ArrowBufferInit *)
Definition wbuf_init : wbuf := {| w_mem := []; w_size := 0 |}.

(** *p = f( *p ) for the byte at index [i]; outside the allocated memory: [UB]. *)
Definition upd_byte (m : bytes) (i : Z) (f : N -> N) : outcome bytes :=
  if i <? 0 then UB
  else
    match nth_error m (Z.to_nat i) with
    | Some b => Ok (firstn (Z.to_nat i) m ++ [f b] ++ skipn (S (Z.to_nat i)) m)
    | None => UB
    end.

(** memset(m + i, v, n) and, more generally, memcpy(m + i, bs, length bs). *)
Definition upd_bytes (m : bytes) (i : Z) (bs : bytes) : outcome bytes := or_ub (patch m i bs).

(** nanoarrow.h lines 2668-2671: _ArrowkPrecedingBitmask, _ArrowkTrailingBitmask *)
Definition preceding_bitmask : list N := [0; 1; 3; 7; 15; 31; 63; 127]%N.
Definition trailing_bitmask : list N := [255; 254; 252; 248; 240; 224; 192; 128]%N.
Definition mask_at (t : list N) (i : Z) : N := nth (Z.to_nat i) t 0%N.

(** nanoarrow.h lines 2692-2694: _ArrowBytesForBits *)
Definition bytes_for_bits (bits : Z) : Z := Z.shiftr bits 3 + (if Z.land bits 7 =? 0 then 0 else 1).

(** nanoarrow.h lines 2732-2734: ArrowBitGet *)
Definition bit_get (m : bytes) (i : Z) : outcome bool :=
  if i <? 0 then UB
  else
    do b <- or_ub (nth_error m (Z.to_nat (Z.shiftr i 3)));
    Ok (N.eqb (N.land (N.shiftr b (Z.to_N (Z.land i 7))) 1) 1).

(** [bits[i] &= mask; bits[i] |= (uint8_t)(fill & ~mask);] *)
Definition blend (mask fill b : N) : N := N.lor (N.land b mask) (N.land fill (N.lxor mask 255)).

(** nanoarrow.h lines 2829-2872: ArrowBitsSetTo. Every caller passes 0 or 1 for bits_are_set. *)
Definition bits_set_to (m : bytes) (start_offset length : Z) (bits_are_set : bool) : outcome bytes :=
  if length =? 0 then Ok m
  else
    let i_begin := start_offset in
    let i_end := start_offset + length in
    let fill_byte := if bits_are_set then 255%N else 0%N in
    let bytes_begin := Z.quot i_begin 8 in
    let bytes_end := Z.quot i_end 8 + 1 in
    let first_byte_mask := mask_at preceding_bitmask (Z.rem i_begin 8) in
    let last_byte_mask := mask_at trailing_bitmask (Z.rem i_end 8) in
    if bytes_end =? bytes_begin + 1 then
      let only_byte_mask := if Z.rem i_end 8 =? 0 then first_byte_mask else N.lor first_byte_mask last_byte_mask in
      upd_byte m bytes_begin (blend only_byte_mask fill_byte)
    else
      do m <- upd_byte m bytes_begin (blend first_byte_mask fill_byte);
      do m <- (if 2 <? bytes_end - bytes_begin
               then upd_bytes m (bytes_begin + 1) (repeat fill_byte (Z.to_nat (bytes_end - bytes_begin - 2)))
               else Ok m);
      if Z.rem i_end 8 =? 0 then Ok m
      else upd_byte m (bytes_end - 1) (blend last_byte_mask fill_byte).

(** struct ArrowBitmap (nanoarrow.h lines 785-791) *)
Record bitmap := Bitmap { bm_buffer : wbuf; bm_bits : Z }.
Definition bitmap_init : bitmap := {| bm_buffer := wbuf_init; bm_bits := 0 |}.

Section Junk.
  (** The contents of freshly allocated memory. Nothing is assumed about it. *)
  Variable junk : nat -> N.

  (** nanoarrow.h lines 2554-2574: ArrowBufferReserve; reallocation keeps what was there. Allocation never fails. *)
  Definition wbuf_reserve (b : wbuf) (additional : Z) : wbuf :=
    let min_cap := w_size b + additional in
    if min_cap <=? w_cap b then b
    else
      let new_cap := grow_by_factor (w_cap b) min_cap in
      {| w_mem := w_mem b ++ map junk (seq (length (w_mem b)) (Z.to_nat new_cap - length (w_mem b))); w_size := w_size b |}.

  (** nanoarrow.h lines 2576-2591: ArrowBufferAppend *)
  Definition wbuf_append (b : wbuf) (bs : bytes) : outcome wbuf :=
    let b := wbuf_reserve b (Z.of_nat (length bs)) in
    do m <- upd_bytes (w_mem b) (w_size b) bs;
    Ok {| w_mem := m; w_size := w_size b + Z.of_nat (length bs) |}.

  (** nanoarrow.h lines 2930-2951: ArrowBitmapReserve *)
  Definition bitmap_reserve (bm : bitmap) (additional : Z) : outcome bitmap :=
    let min_cap := bytes_for_bits (bm_bits bm + additional) in
    let b := bm_buffer bm in
    if min_cap <=? w_cap b then Ok bm
    else
      let b := wbuf_reserve b (min_cap - w_size b) in
      do m <- upd_byte (w_mem b) (w_cap b - 1) (fun _ => 0%N);
      Ok {| bm_buffer := {| w_mem := m; w_size := w_size b |}; bm_bits := bm_bits bm |}.

  (** nanoarrow.h lines 2976-2981: ArrowBitmapAppendUnsafe *)
  Definition bitmap_append_unsafe (bm : bitmap) (bits_are_set : bool) (length : Z) : outcome bitmap :=
    do m <- bits_set_to (w_mem (bm_buffer bm)) (bm_bits bm) length bits_are_set;
    let bits := bm_bits bm + length in
    Ok {| bm_buffer := {| w_mem := m; w_size := bytes_for_bits bits |}; bm_bits := bits |}.

  (** nanoarrow.h lines 2968-2974: ArrowBitmapAppend *)
  Definition bitmap_append (bm : bitmap) (bits_are_set : bool) (length : Z) : outcome bitmap :=
    do bm <- bitmap_reserve bm length;
    bitmap_append_unsafe bm bits_are_set length.

  (** nanoarrow.h lines 2953-2966: ArrowBitmapResize(bitmap, 0, 0), the only use made of it: the memory is kept. *)
  Definition bitmap_clear (bm : bitmap) : bitmap :=
    {| bm_buffer := {| w_mem := w_mem (bm_buffer bm); w_size := 0 |}; bm_bits := 0 |}.

  (** A history of appends. *)
  Fixpoint bitmap_appends (bm : bitmap) (runs : list (bool * Z)) : outcome bitmap :=
    match runs with
    | [] => Ok bm
    | (v, n) :: r => do bm <- bitmap_append bm v n; bitmap_appends bm r
    end.
End Junk.

Global Arguments bytes_for_bits : simpl never.
Global Arguments bits_set_to : simpl never.
Global Arguments wbuf_reserve : simpl never.
