(** * What the kernels that write arrays compute *)
From Verif Require Import Base TypesModel GeomSpec ArrowModel NativeSpec SerialSpec WktSpec WktReadable WktReaderModel ArrayReaderModel KernelModel KernelSpec
  ConversionModel.
Local Open Scope Z_scope.

(** Arrays of type [t], one per batch of features, with the right numbers of nulls. *)
Definition arrays_of (parse : bytes -> option N) (t : Z) (fss : list (list (option geom))) (outs : list (option arrow_array)) : Prop :=
  Forall2 (fun fs out => exists a, out = Some a /\ features_array parse t a fs /\ aa_null_count a = nulls fs) fss outs.

(** The as_geoarrow kernel turns any arrays of type [t] of the features [fss] into arrays of type [t'] of the features [fss'],
    batch by batch and with success. The states of the readers are any. *)
Definition converts (parse : bytes -> option N) (print_double : N -> Z -> bytes) (junk : nat -> nat -> N)
  (t t' : Z) (fss fss' : list (list (option geom))) : Prop :=
  forall r0 wkt_state wkb_state batches, reader_init t = Ok r0 -> Forall2 (features_array parse t) batches fss ->
  exists k w r s outs, as_geoarrow print_double junk t' = Ok (k, w) /\
    push_batches k parse wkt_state wkb_state 0 r0 w batches = Ok (r, s, outs) /\ arrays_of parse t' fss' outs.

(** One conversion after another, starting from arrays of type [t]. *)
Fixpoint converts_through (parse : bytes -> option N) (print_double : N -> Z -> bytes) (junk : nat -> nat -> N)
  (t : Z) (ts : list Z) (fss : list (list (option geom))) : Prop :=
  match ts with
  | [] => True
  | t' :: ts => converts parse print_double junk t t' fss fss /\ converts_through parse print_double junk t' ts fss
  end.

(** The geometries that an array of a kind and dimensions can hold as they are: of that kind and dimensions, with no empty
    points and no empty rings, lines or polygons within. *)
Definition of_kind (k : geometry_kind) (d : dim) (g : geom) : Prop :=
  match k with
  | KPoint => exists c, g = GPoint d [c]
  | KLinestring => exists cs, g = GLine d cs
  | KPolygon => exists rings, g = GPoly d rings /\ Forall (fun r => r <> []) rings
  | KMultipoint => exists cs, g = GColl CMultipoint d (map (fun c => GPoint d [c]) cs)
  | KMultilinestring => exists lines, g = GColl CMultilinestring d (map (GLine d) lines) /\ Forall (fun l => l <> []) lines
  | KMultipolygon => exists polys, g = GColl CMultipolygon d (map (GPoly d) polys) /\
                       Forall (fun rings => rings <> [] /\ Forall (fun r => r <> []) rings) polys
  | KBox => False
  end.

(** Every geometry of a list of features. *)
Definition all_geoms (P : geom -> Prop) (fs : list (option geom)) : Prop := forall g, In (Some g) fs -> P g.

(** No empty points. *)
Fixpoint no_empty_point (g : geom) : bool :=
  match g with
  | GPoint _ cs => match cs with [] => false | _ => true end
  | GLine _ _ | GPoly _ _ => true
  | GColl _ _ parts => forallb no_empty_point parts
  end.

(** The texts of the features [fs] under a limit of [max] bytes (none if negative): each is the text of its feature, or if there
    is a limit a prefix of it that is no shorter than the limit. Up to the first null they are exactly the first [max] bytes. *)
Definition formatted (text : geom -> bytes) (max : Z) (fs : list (option geom)) (els : list (option bytes)) : Prop :=
  Forall2 (fun f e => match f, e with
                      | None, None => True
                      | Some g, Some b => exists q, text g = b ++ q /\ (q = [] \/ 0 <= max <= Z.of_nat (length b))
                      | _, _ => False
                      end) fs els /\
  (0 <= max -> forall gs rest, fs = map Some gs ++ rest ->
    firstn (length gs) els = map (fun g => Some (firstn (Z.to_nat max) (text g))) gs).
