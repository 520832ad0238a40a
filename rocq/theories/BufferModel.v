(** * Growable buffers: src/vendor/nanoarrow/nanoarrow.h, struct ArrowBuffer *)
From Verif Require Import Base.
Local Open Scope Z_scope.

(** struct ArrowBuffer: [b_data] is data[0 .. size_bytes), [b_cap] is capacity_bytes. Simplification: the bytes between
    size_bytes and capacity_bytes have no meaning and are not kept; allocation never fails. *)
Record buf := Buf { b_data : bytes; b_cap : Z }.

Definition b_size (b : buf) : Z := Z.of_nat (length (b_data b)).

(** nanoarrow.h lines 2496-2501: ArrowBufferInit *)
Definition buf_init : buf := {| b_data := []; b_cap := 0 |}.

(** nanoarrow.h lines 2435-2443: _ArrowGrowByFactor *)
Definition grow_by_factor (cap new_cap : Z) : Z :=
  let doubled := cap * 2 in
  if new_cap <? doubled then doubled else new_cap.

(** nanoarrow.h lines 2554-2574: ArrowBufferReserve *)
Definition buf_reserve (b : buf) (additional : Z) : buf :=
  let min_cap := b_size b + additional in
  if min_cap <=? b_cap b then b
  else {| b_data := b_data b; b_cap := grow_by_factor (b_cap b) min_cap |}.

(** nanoarrow.h lines 2576-2591: ArrowBufferAppend and ArrowBufferAppendUnsafe *)
Definition buf_append (b : buf) (bs : bytes) : buf :=
  let b := buf_reserve b (Z.of_nat (length bs)) in
  {| b_data := b_data b ++ bs; b_cap := b_cap b |}.

(** memcpy(data + p, bs, length bs) inside the buffer's current contents; [None] when it does not fit there. *)
Definition patch (l : bytes) (p : Z) (bs : bytes) : option bytes :=
  if (0 <=? p) && (p + Z.of_nat (length bs) <=? Z.of_nat (length l))
  then Some (firstn (Z.to_nat p) l ++ bs ++ skipn (Z.to_nat p + length bs) l)
  else None.

(** The C conversion (int32_t) of a 64-bit size. *)
Definition to_int32 (z : Z) : Z := (z + 2147483648) mod 4294967296 - 2147483648.

(** ** Fixed-size C arrays of 32 entries, possibly uninitialised *)
Definition arr32 (A : Type) := Z -> option A.
Definition in32 (i : Z) : bool := (0 <=? i) && (i <? 32).
(** A read outside the array or of an entry never written is [None]. *)
Definition aget {A} (a : arr32 A) (i : Z) : option A := if in32 i then a i else None.
Definition aset {A} (a : arr32 A) (i : Z) (v : A) : option (arr32 A) :=
  if in32 i then Some (fun j => if j =? i then Some v else a j) else None.

Global Arguments buf_append : simpl never.
Global Arguments buf_reserve : simpl never.
Global Arguments aget : simpl never.
Global Arguments aset : simpl never.
Global Arguments to_int32 : simpl never.
Global Arguments patch : simpl never.
