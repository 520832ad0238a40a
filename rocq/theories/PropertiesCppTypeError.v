(** * Properties of the messages of exceptions of type objects *)
From Verif Require Import Base BaseFacts Text TypesModel TypesSpec GeomSpec SchemaModel CppDataTypeModel CppWkbModel WktErrorSpec CppErrorModel
  CppTypeErrorModel CppTypeErrorSpec CppTypeErrorProofs.
Local Open Scope Z_scope.

(** ** C81 *)

(** Making a type of a geometry type, dimensions and a coordinate type: nothing is thrown if there is such a type, and otherwise the message says
    that there is none and names the three. Missing: geometry collections. *)
Theorem C81_parts_partial : forall g gn d dn c cn, In (g, gn) geometry_names -> In (d, dn) dimensions_names -> In (c, cn) coord_type_names -> g <> 7 ->
  (is_combination g d c -> make_parts_told g d c = Ok None) /\
  (~ is_combination g d c -> make_parts_told g d c = Ok (Some (combination_text gn dn cn))).
Proof. exact parts_told. Qed.
Print Assumptions C81_parts_partial.

(** For geometry collections, which no type is of, the message names a call and a code, and not the geometry type. *)
Theorem C81_parts_refuted : In (7, $"GEOMETRYCOLLECTION") geometry_names /\ ~ is_combination 7 1 1 /\
  make_parts_told 7 1 1 = Ok (Some $"GeoArrowSchemaViewInitFromType(&schema_view, type) failed with errno 22").
Proof.
  split; [do 7 right; left; reflexivity|]. split; [|vm_compute; reflexivity]. intros (k & dd & l & _ & H & _). destruct k; discriminate H.
Qed.
Print Assumptions C81_parts_refuted.

(** An exception is thrown exactly when the model of type objects (C61) says so. *)
Theorem C81_thrown : forall g gn d dn c cn b, In (g, gn) geometry_names -> In (d, dn) dimensions_names -> In (c, cn) coord_type_names ->
  match make_parts_told g d c with
  | Ok None => exists o, make_from_parts g d c [] b = Ok o
  | Ok (Some _) => make_from_parts g d c [] b = Err THROWN
  | _ => False
  end.
Proof. exact parts_thrown. Qed.
Print Assumptions C81_thrown.

(** Simple() and Multi() refuse exactly what is neither a point, linestring or polygon nor several of them, and name it. *)
Theorem C81_simple_multi : forall g gn, In (g, gn) geometry_names ->
  (1 <= g <= 6 -> simple_told g = None /\ multi_told g = None) /\
  (~ 1 <= g <= 6 -> simple_told g = Some ($"Can't make simple type from geometry type " ++ gn) /\
                    multi_told g = Some ($"Can't make multi type from geometry type " ++ gn)).
Proof. exact simple_multi_told. Qed.
Print Assumptions C81_simple_multi.

(** extension_name() throws exactly when the type has no extension name, and the message has the number of the type. *)
Theorem C81_extension : forall t, 0 <= t ->
  match extension_name_told t with
  | None => exists name, extension_name_from_type t = Some name
  | Some what => extension_name_from_type t = None /\ exists n, decimal_of (Z.to_N t) n /\ what = $"Extension name not available for type with id " ++ n
  end.
Proof. exact extension_told. Qed.
Print Assumptions C81_extension.

(** The names tell the enumerators apart. *)
Theorem C81_names : NoDup (map snd geometry_names) /\ NoDup (map snd dimensions_names) /\ NoDup (map snd coord_type_names).
Proof.
  repeat split; cbn; repeat constructor; cbn; intros H; repeat (destruct H as [H|H]; [discriminate H|]); destruct H.
Qed.
Print Assumptions C81_names.

Example C81_ex : In (990, $"BOX") geometry_names /\ ~ is_combination 990 1 2 /\ is_combination 990 1 1 /\
  make_parts_told 990 1 2 = Ok (Some $"Combination of geometry type/dimensions/coord type not valid: BOX/xy/interleaved") /\
  make_parts_told 990 1 1 = Ok None /\ simple_told 990 = Some $"Can't make simple type from geometry type BOX" /\
  extension_name_told 0 = Some $"Extension name not available for type with id 0" /\ extension_name_told 1 = None.
Proof.
  split; [do 8 right; left; reflexivity|]. split.
  { intros (k & dd & l & Hs & H & _ & Hl). destruct k; try discriminate H. rewrite (Hs eq_refl) in Hl. discriminate Hl. }
  split; [exists KBox, XY, Separate; repeat split|]. repeat split; vm_compute; reflexivity.
Qed.
