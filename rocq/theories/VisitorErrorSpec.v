(** * What the messages of the visitors that write say *)
From Verif Require Import Base Text TypesSpec GeomSpec BuilderSpec NativeWriterSpec NativeVisitorSpec.

(** Messages about a feature that an array of a kind with dimensions [d] cannot hold: what must be so if the message is true. *)
Inductive feature_complaint (k : geometry_kind) (d : dim) (g : geom) : bytes -> Prop :=
| many_coordinates : k = KPoint -> (1 < length (all_coords d g))%nat ->
    feature_complaint k d g $"Can't convert feature with >1 coordinate to POINT"
| many_sequences : k = KLinestring -> (1 < length (sequences d g))%nat ->
    feature_complaint k d g $"Can't convert feature with >1 sequence to LINESTRING".

(** Messages about the start of a geometry of the type [t] with the dimensions [d]. *)
Inductive start_of_geometry (t d : N) : bytes -> Prop :=
| no_type : (t < 1 \/ 7 < t)%N -> start_of_geometry t d $"WKTWriter::geom_start(): Unexpected `geometry_type`"
| no_dimensions : (d < 1 \/ 4 < d)%N -> start_of_geometry t d $"WKTWriter::geom_start(): Unexpected `dimensions`".
