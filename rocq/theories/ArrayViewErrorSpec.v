(** * What the messages about native arrays say *)
From Verif Require Import Base Text TypesSpec GeomSpec ArrowModel NativeSpec.

(** [c] is in [n] list arrays of two buffers and one child each. *)
Fixpoint in_lists (n : nat) (a c : arrow_array) : Prop :=
  match n with
  | O => c = a
  | S n => length (aa_buffers a) = 2%nat /\ exists ch, aa_children a = [ch] /\ in_lists n ch c
  end.
(** The number of lists around the coordinates. *)
Definition lists_around (k : geometry_kind) : nat :=
  match k with
  | KPoint | KBox => 0 | KLinestring | KMultipoint => 1 | KPolygon | KMultilinestring => 2 | KMultipolygon => 3
  end.

(** Messages about an array that is not one of this type: what must be so if the message is true. *)
Inductive array_complaint (k : geometry_kind) (l : layout) (d : dim) (a : arrow_array) : bytes -> Prop :=
| wrong_list_buffers n p : (n < lists_around k)%nat -> in_lists n a p -> length (aa_buffers p) <> 2%nat ->
    array_complaint k l d a $"Unexpected number of buffers in list array in GeoArrowArrayViewSetArray()"
| wrong_list_children n p : (n < lists_around k)%nat -> in_lists n a p -> length (aa_children p) <> 1%nat ->
    array_complaint k l d a $"Unexpected number of children in list array in GeoArrowArrayViewSetArray()"
| wrong_struct_children c : k <> KBox -> l = Separate -> in_lists (lists_around k) a c -> length (aa_children c) <> ndim d ->
    array_complaint k l d a $"Unexpected number of children for struct coordinate array in GeoArrowArrayViewSetArray()"
| wrong_struct_buffers c ch : k <> KBox -> l = Separate -> in_lists (lists_around k) a c -> In ch (aa_children c) ->
    length (aa_buffers ch) <> 2%nat ->
    array_complaint k l d a $"Unexpected number of buffers for struct coordinate array child in GeoArrowArrayViewSetArray()"
| wrong_interleaved_children c : k <> KBox -> l = Interleaved -> in_lists (lists_around k) a c -> length (aa_children c) <> 1%nat ->
    array_complaint k l d a $"Unexpected number of children for interleaved coordinate array in GeoArrowArrayViewSetArray()"
| wrong_interleaved_buffers c ch : k <> KBox -> l = Interleaved -> in_lists (lists_around k) a c -> In ch (aa_children c) ->
    length (aa_buffers ch) <> 2%nat ->
    array_complaint k l d a $"Unexpected number of buffers for interleaved coordinate array child in GeoArrowArrayViewSetArray()"
| wrong_box_children : k = KBox -> length (aa_children a) <> (2 * ndim d)%nat ->
    array_complaint k l d a $"Unexpected number of children for box array struct in GeoArrowArrayViewSetArray()"
| wrong_box_buffers ch : k = KBox -> In ch (aa_children a) -> length (aa_buffers ch) <> 2%nat ->
    array_complaint k l d a $"Unexpected number of buffers for box array child in GeoArrowArrayViewSetArray()".
