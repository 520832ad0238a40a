(** * The array that a set of buffers makes up (Arrow columnar format) *)
From Verif Require Import Base GeomSpec ArrowModel NativeSpec.
Local Open Scope Z_scope.

Definition blen (b : bytes) : Z := Z.of_nat (length b).

(** The storage of the arrays a builder makes: native geometries, or one binary value per element with offsets of [size]
    bytes. *)
Inductive array_kind := ANative (k : geometry_kind) (l : layout) (d : dim) | ABinary (large : bool).

Definition offset_size (large : bool) : Z := if large then 8 else 4.

(** Number of levels of lists above the coordinates, and of coordinate buffers. *)
Definition n_lists (k : geometry_kind) : nat :=
  match k with
  | KPoint | KBox => 0 | KLinestring | KMultipoint => 1 | KPolygon | KMultilinestring => 2 | KMultipolygon => 3
  end.
Definition n_columns (k : geometry_kind) (l : layout) (d : dim) : nat :=
  match k, l with KBox, _ => 2 * ndim d | _, Separate => ndim d | _, Interleaved => 1 end.

(** The buffers of an array in order: validity, offsets from the outermost list to the innermost, then the coordinates;
    validity, offsets and values for binary. *)
Definition buffer_count (t : array_kind) : nat :=
  match t with ANative k l d => 1 + n_lists k + n_columns k l d | ABinary _ => 3 end.

(** A list array has one element less than it has offsets, and none if it has no offsets. *)
Definition list_length (size : Z) (offsets : bytes) : Z := if blen offsets =? 0 then 0 else blen offsets / size - 1.

Definition float_array (b : bytes) : arrow_array := ArrowArray (blen b / 8) 0 0 [None; Some b] [].
Definition coord_array (l : layout) (d : dim) (validity : option bytes) (cols : list bytes) : arrow_array :=
  match l with
  | Separate => ArrowArray (blen (hd [] cols) / 8) 0 0 [validity] (map float_array cols)
  | Interleaved => ArrowArray (blen (hd [] cols) / 8 / Z.of_nat (ndim d)) 0 0 [validity] (map float_array cols)
  end.
Fixpoint list_array (offsets : list bytes) (coords : option bytes -> arrow_array) (validity : option bytes) : arrow_array :=
  match offsets with
  | [] => coords validity
  | o :: r => ArrowArray (list_length 4 o) 0 0 [validity; Some o] [list_array r coords None]
  end.

(** The whole array; its null count is unknown (-1) if there is a bitmap. *)
Definition set_null_count (c : Z) (a : arrow_array) : arrow_array :=
  let (n, o, _, bufs, children) := a in ArrowArray n o c bufs children.
Definition assembled (t : array_kind) (validity : option bytes) (bufs : list bytes) : arrow_array :=
  set_null_count (match validity with Some _ => -1 | None => 0 end)
    match t with
    | ANative k l d => list_array (firstn (n_lists k) bufs) (fun v => coord_array l d v (skipn (n_lists k) bufs)) validity
    | ABinary large => ArrowArray (list_length (offset_size large) (nth 0 bufs [])) 0 0 (validity :: map Some bufs) []
    end.

(** ** Buffers that fit together *)

(** Entry [i] of a buffer of signed little-endian integers of [size] bytes. *)
Definition offset_at (size : Z) (b : bytes) (i : Z) : option Z :=
  option_map (fun bs => let n := Z.of_N (le_val bs) in if n <? 2 ^ (8 * size - 1) then n else n - 2 ^ (8 * size))
             (slice b (size * i) (Z.to_nat size)).

(** The first and the last offset lie between 0 and the number of child elements. *)
Definition offsets_fit (size : Z) (offsets : bytes) (limit : Z) : Prop :=
  offsets = [] \/
  exists first last, offset_at size offsets 0 = Some first /\ offset_at size offsets (list_length size offsets) = Some last /\
    0 <= first /\ 0 <= last <= limit.
Fixpoint lists_fit (offsets : list bytes) (n_coords : Z) : Prop :=
  match offsets with
  | [] => True
  | o :: r => offsets_fit 4 o (match r with [] => n_coords | o' :: _ => list_length 4 o' end) /\ lists_fit r n_coords
  end.

(** A bitmap, if it has any bytes, has a bit for every element; no ordinate has fewer values than the first one. *)
Definition fits (t : array_kind) (validity : option bytes) (bufs : list bytes) : Prop :=
  (forall v, validity = Some v -> v = [] \/ aa_length (assembled t validity bufs) <= 8 * blen v) /\
  match t with
  | ANative k l d =>
      let cols := skipn (n_lists k) bufs in
      lists_fit (firstn (n_lists k) bufs) (aa_length (coord_array l d None cols)) /\
      Forall (fun c => blen (hd [] cols) / 8 <= blen c / 8) cols
  | ABinary large => offsets_fit (offset_size large) (nth 0 bufs []) (blen (nth 1 bufs []))
  end.

(** ** Filling buffers *)

(** The calls that fill buffer [i]: GeoArrowBuilderAppendBuffer, GeoArrowBuilderReserveBuffer and
    GeoArrowBuilderSetOwnedBuffer. No bytes are given as NULL for the bitmap, and not as NULL for the other buffers (C67). *)
Inductive bop := BAppend (i : nat) (bs : bytes) | BReserve (i : nat) (n : Z) | BSet (i : nat) (bs : bytes).

(** What a buffer holds after a sequence of calls, and whether it is not NULL. *)
Definition op_bytes (i : nat) (acc : bytes) (o : bop) : bytes :=
  match o with
  | BAppend j bs => if Nat.eqb i j then acc ++ bs else acc
  | BReserve _ _ => acc
  | BSet j bs => if Nat.eqb i j then bs else acc
  end.
Definition op_alloc (i : nat) (acc : bool) (o : bop) : bool :=
  match o with
  | BAppend j bs => if Nat.eqb i j then acc || negb (blen bs =? 0) else acc
  | BReserve j n => if Nat.eqb i j then acc || (0 <? n) else acc
  | BSet j bs => if Nat.eqb i j then negb (blen bs =? 0) else acc
  end.
Definition filled (ops : list bop) (i : nat) : bytes := fold_left (op_bytes i) ops [].
Definition allocated (ops : list bop) (i : nat) : bool := fold_left (op_alloc i) ops false.

(** The array described by a sequence of calls. *)
Definition ops_validity (ops : list bop) : option bytes := if allocated ops 0 then Some (filled ops 0) else None.
Definition ops_buffers (t : array_kind) (ops : list bop) : list bytes := map (filled ops) (seq 1 (buffer_count t - 1)).

(** Calls on existing buffers. Memory that was given to the builder is not appended to. *)
Definition op_index (o : bop) : nat := match o with BAppend i _ | BReserve i _ | BSet i _ => i end.
Definition op_wf (n : nat) (o : bop) : Prop :=
  (op_index o < n)%nat /\
  match o with BAppend _ bs | BSet _ bs => wf_bytes bs | BReserve _ k => 0 <= k end.
Fixpoint ops_wf (n : nat) (given : nat -> bool) (ops : list bop) : Prop :=
  match ops with
  | [] => True
  | o :: r =>
      op_wf n o /\
      match o with
      | BSet i _ => ops_wf n (fun j => Nat.eqb i j || given j) r
      | _ => given (op_index o) = false /\ ops_wf n given r
      end
  end.
