(** * What a native GeoArrow array contains (Arrow columnar format and GeoArrow specification) *)
From Verif Require Import Base GeomSpec ArrowModel BitmapSpec FloatSpec.
Local Open Scope Z_scope.

(** Entry [i] of a buffer of little-endian int32 or double values. *)
Definition int32_at (b : bytes) (i : Z) : option Z :=
  option_map (fun bs => let n := Z.of_N (le_val bs) in if n <? 2 ^ 31 then n else n - 2 ^ 32) (slice b (4 * i) 4).
Definition double_at (b : bytes) (i : Z) : option N := option_map le_val (slice b (8 * i) 8).

(** The second buffer (data of a primitive array, offsets of a list array), when it is there. *)
Definition second_buffer (a : arrow_array) : option bytes :=
  match nth_error (aa_buffers a) 1 with Some (Some b) => Some b | _ => None end.

(** Element [i] of an array of doubles. *)
Definition float_elt (a : arrow_array) (i : Z) : option N :=
  match second_buffer a with Some b => double_at b (aa_offset a + i) | None => None end.

(** Element [i] of a coordinate array. A struct array finds the [j]-th ordinate at the same physical index in its [j]-th
    child. A fixed-size list array finds its ordinates side by side in its only child. *)
Definition ordinate_at (l : layout) (d : dim) (a : arrow_array) (i : Z) (j : nat) : option N :=
  match l with
  | Separate =>
      match nth_error (aa_children a) j with Some ch => float_elt ch (aa_offset a + i) | None => None end
  | Interleaved =>
      match aa_children a with
      | [ch] => float_elt ch ((aa_offset a + i) * Z.of_nat (ndim d) + Z.of_nat j)
      | _ => None
      end
  end.
Definition coord_at (l : layout) (d : dim) (a : arrow_array) (i : Z) (c : coord) : Prop :=
  length c = ndim d /\ forall j w, nth_error c j = Some w -> ordinate_at l d a i j = Some w.

(** Element [i] of a list array: the elements [lo] to [hi - 1] of its child, each described by [R]. *)
Definition list_at {T} (R : arrow_array -> Z -> T -> Prop) (a : arrow_array) (i : Z) (xs : list T) : Prop :=
  exists b lo hi child,
    second_buffer a = Some b /\ aa_children a = [child] /\
    int32_at b (aa_offset a + i) = Some lo /\ int32_at b (aa_offset a + i + 1) = Some hi /\
    hi = lo + Z.of_nat (length xs) /\
    forall k x, nth_error xs k = Some x -> R child (lo + Z.of_nat k) x.

(** Element [i] of a box array: a struct of the minima of the dimensions followed by their maxima. *)
Definition box_at (a : arrow_array) (i : Z) (x0 y0 x1 y1 : N) : Prop :=
  forall j w, nth_error [x0; y0; x1; y1] j = Some w -> ordinate_at Separate XY a i j = Some w.

(** The geometry of a box: the closed ring of its corners, or an empty polygon if there is no point in the box. *)
Definition box_geom (x0 y0 x1 y1 : N) : geom :=
  if double_lt x1 x0 || double_lt y1 y0 then GPoly XY []
  else GPoly XY [[[x0; y0]; [x1; y0]; [x1; y1]; [x0; y1]; [x0; y0]]].

(** Element [i] of an array of geometries. *)
Definition geom_at (k : geometry_kind) (l : layout) (d : dim) (a : arrow_array) (i : Z) (g : geom) : Prop :=
  let coords := coord_at l d in
  match k with
  | KPoint => exists c, coords a i c /\ g = GPoint d [c]
  | KLinestring => exists cs, list_at coords a i cs /\ g = GLine d cs
  | KPolygon => exists rings, list_at (list_at coords) a i rings /\ g = GPoly d rings
  | KMultipoint => exists cs, list_at coords a i cs /\ g = GColl CMultipoint d (map (fun c => GPoint d [c]) cs)
  | KMultilinestring =>
      exists lines, list_at (list_at coords) a i lines /\ g = GColl CMultilinestring d (map (GLine d) lines)
  | KMultipolygon =>
      exists polys, list_at (list_at (list_at coords)) a i polys /\ g = GColl CMultipolygon d (map (GPoly d) polys)
  | KBox => d = XY /\ exists x0 y0 x1 y1, box_at a i x0 y0 x1 y1 /\ g = box_geom x0 y0 x1 y1
  end.

(** Is element [i] non-null? No bitmap: every element is. *)
Definition valid_at (a : arrow_array) (i : Z) : option bool :=
  match nth_error (aa_buffers a) 0 with
  | Some None => Some true
  | Some (Some b) => bit_of b (aa_offset a + i)
  | None => None
  end.

Definition element_at (k : geometry_kind) (l : layout) (d : dim) (a : arrow_array) (i : Z) (e : option geom) : Prop :=
  match e with
  | None => valid_at a i = Some false
  | Some g => valid_at a i = Some true /\ geom_at k l d a i g
  end.

(** The elements of the array, in order. *)
Definition contents (k : geometry_kind) (l : layout) (d : dim) (a : arrow_array) (els : list (option geom)) : Prop :=
  aa_length a = Z.of_nat (length els) /\
  forall i e, nth_error els i = Some e -> element_at k l d a (Z.of_nat i) e.

(** ** Valid arrays *)

(** A buffer that must hold [n] bytes may be NULL only if [n] is 0. *)
Definition buffer_holds (b : option bytes) (n : Z) : Prop :=
  match b with Some b => n <= Z.of_nat (length b) | None => n <= 0 end.

(** An array of at least [n] doubles. *)
Definition floats_ok (n : Z) (a : arrow_array) : Prop :=
  0 <= aa_offset a /\ n <= aa_length a /\
  exists v b, aa_buffers a = [v; b] /\ buffer_holds b (8 * (aa_offset a + aa_length a)).

(** The first buffer is a bitmap of the validity of the elements, or NULL. *)
Definition validity_ok (a : arrow_array) : Prop :=
  match nth_error (aa_buffers a) 0 with
  | Some None => True
  | Some (Some b) => aa_offset a + aa_length a <= 8 * Z.of_nat (length b)
  | None => False
  end.

Definition coords_ok (l : layout) (d : dim) (a : arrow_array) : Prop :=
  0 <= aa_offset a /\ 0 <= aa_length a /\ length (aa_buffers a) = 1%nat /\
  match l with
  | Separate => length (aa_children a) = ndim d /\ Forall (floats_ok (aa_offset a + aa_length a)) (aa_children a)
  | Interleaved =>
      exists ch, aa_children a = [ch] /\ floats_ok ((aa_offset a + aa_length a) * Z.of_nat (ndim d)) ch
  end.

(** The offsets are non-negative, non-decreasing and within the child; an empty array needs none. *)
Definition list_ok (child_ok : arrow_array -> Prop) (a : arrow_array) : Prop :=
  0 <= aa_offset a /\ 0 <= aa_length a /\
  exists v b child,
    aa_buffers a = [v; b] /\ aa_children a = [child] /\ child_ok child /\
    (0 < aa_length a -> exists ob, b = Some ob /\ wf_bytes ob /\
       forall i, 0 <= i < aa_length a ->
         exists lo hi, int32_at ob (aa_offset a + i) = Some lo /\ int32_at ob (aa_offset a + i + 1) = Some hi /\
                       0 <= lo <= hi /\ hi <= aa_length child).

Definition box_ok (d : dim) (a : arrow_array) : Prop :=
  0 <= aa_offset a /\ 0 <= aa_length a /\ length (aa_buffers a) = 1%nat /\
  length (aa_children a) = (2 * ndim d)%nat /\ Forall (floats_ok (aa_offset a + aa_length a)) (aa_children a).

Definition native_ok (k : geometry_kind) (l : layout) (d : dim) (a : arrow_array) : Prop :=
  validity_ok a /\
  match k with
  | KPoint => coords_ok l d a
  | KLinestring | KMultipoint => list_ok (coords_ok l d) a
  | KPolygon | KMultilinestring => list_ok (list_ok (coords_ok l d)) a
  | KMultipolygon => list_ok (list_ok (list_ok (coords_ok l d))) a
  | KBox => box_ok d a
  end.

(** ** Numbers of buffers and children *)

Definition has_counts (n_buffers n_children : nat) (a : arrow_array) : Prop :=
  length (aa_buffers a) = n_buffers /\ length (aa_children a) = n_children.

Definition coords_shape (l : layout) (d : dim) (a : arrow_array) : Prop :=
  has_counts 1 (match l with Separate => ndim d | Interleaved => 1 end) a /\
  Forall (fun ch => length (aa_buffers ch) = 2%nat) (aa_children a).
Definition list_shape (child_shape : arrow_array -> Prop) (a : arrow_array) : Prop :=
  has_counts 2 1 a /\ Forall child_shape (aa_children a).
Definition box_shape (d : dim) (a : arrow_array) : Prop :=
  has_counts 1 (2 * ndim d) a /\ Forall (fun ch => length (aa_buffers ch) = 2%nat) (aa_children a).
Definition native_shape (k : geometry_kind) (l : layout) (d : dim) (a : arrow_array) : Prop :=
  match k with
  | KPoint => coords_shape l d a
  | KLinestring | KMultipoint => list_shape (coords_shape l d) a
  | KPolygon | KMultilinestring => list_shape (list_shape (coords_shape l d)) a
  | KMultipolygon => list_shape (list_shape (list_shape (coords_shape l d))) a
  | KBox => box_shape d a
  end.

(** ** Slices of lists *)
Definition window {A} (els : list A) (o n : nat) : list A := firstn n (skipn o els).

(** The delivery of a feature with every sequence in a single batch. *)
Definition canon_feature (e : option geom) : list event :=
  [EFeatStart] ++ match e with Some g => canon_events g | None => [ENullFeat] end ++ [EFeatEnd].

(** The counts without those of a coordinate or box array's own buffers. *)
Definition coords_counted (l : layout) (d : dim) (a : arrow_array) : Prop :=
  length (aa_children a) = match l with Separate => ndim d | Interleaved => 1%nat end /\
  Forall (fun ch => length (aa_buffers ch) = 2%nat) (aa_children a).
Definition native_counted (k : geometry_kind) (l : layout) (d : dim) (a : arrow_array) : Prop :=
  match k with
  | KPoint => coords_counted l d a
  | KLinestring | KMultipoint => list_shape (coords_counted l d) a
  | KPolygon | KMultilinestring => list_shape (list_shape (coords_counted l d)) a
  | KMultipolygon => list_shape (list_shape (list_shape (coords_counted l d))) a
  | KBox =>
      length (aa_children a) = (2 * ndim d)%nat /\ Forall (fun ch => length (aa_buffers ch) = 2%nat) (aa_children a)
  end.

(** The first and last offset of every non-empty list array are there and not negative. *)
Fixpoint ends_readable (n : nat) (a : arrow_array) : Prop :=
  match n with
  | O => True
  | S n' =>
      (0 < aa_length a -> forall vb b, aa_buffers a = [vb; b] -> exists ob first last, b = Some ob /\ wf_bytes ob /\
         int32_at ob (aa_offset a) = Some first /\ int32_at ob (aa_offset a + aa_length a) = Some last /\
         0 <= first /\ 0 <= last) /\
      forall child, aa_children a = [child] -> ends_readable n' child
  end.
Definition offsets_readable (k : geometry_kind) (a : arrow_array) : Prop :=
  ends_readable match k with
                | KPoint | KBox => 0 | KLinestring | KMultipoint => 1 | KPolygon | KMultilinestring => 2 | KMultipolygon => 3
                end a.
