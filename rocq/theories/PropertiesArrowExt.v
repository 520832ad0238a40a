(** * Extension types of Arrow C++ (C70) *)
From Verif Require Import Base Text TypesSpec MetadataModel MetadataSpec CppWkbModel CppDataTypeModel SchemaModel SchemaSpec CppDataTypeSpec ArrowExtModel ArrowExtSpec ArrowExtProofs.
Local Open Scope Z_scope.

(** Whatever methods an extension type was made with: if no method asks for a type with other storage, it has the value that the
    names of the methods say, its storage type and its name are those of its type, and what is read back after it was written is equal to it and
    has the same value. *)
Theorem C70_values_partial : forall {dtype} (null_type : dtype) import export equal, arrow_ok import export equal -> forall junk e v,
  amounts e v -> proper_expr e -> storage_kept e ->
  exists x, eval dtype null_type import export junk e = Ok (Got x) /\ shows export junk x v /\ survives null_type export equal junk x v.
Proof. exact @ext_values. Qed.
Print Assumptions C70_values_partial.

(** An Arrow that keeps schemas as they are; fresh memory is zero. *)
Definition ex_eval := eval schema (init_from_type $"n") Some Some (fun _ => 0%N).
Definition ex_equals := extension_equals schema same_schema (fun _ => 0%N).
Definition ex_text := serialize_ext schema (fun _ => 0%N).
Definition ex_expr : expr := ReadBack (GeometryChanged (CrsChanged (EdgesChanged (MakeParts 2 4 2 $"{""crs"":""old""}") 1) $"EPSG:4326" 4) 4).
Definition ex_value : value := Value (Some (Native KMultipoint XYZM Interleaved)) 1 4 $"EPSG:4326".
Example C70_values_ex : arrow_ok (@Some schema) Some same_schema /\ amounts ex_expr ex_value /\ proper_expr ex_expr /\ storage_kept ex_expr /\
  match ex_eval ex_expr with
  | Ok (Got x) => ex_text x = Ok $"{""edges"":""spherical"",""crs_type"":""authority_code"",""crs"":""EPSG:4326""}" /\ x_name x = $"geoarrow.multipoint" /\
      option_map sc_format (nth 0 (sc_children (x_storage x)) None) = Some (Some $"+w:4") /\
      ext_to_string schema (fun _ => 0%N) x = Ok $"GeometryExtensionType(spherical interleaved geoarrow.multipoint_zm<authority_code:EPSG:4326>)"
  | _ => False
  end.
Proof.
  assert (K : forall k, k = KLinestring \/ k = KMultipoint -> composed (geometry_kind_code k) 4 2 (Native k XYZM Interleaved)).
  { intros k Hk. exists k, XYZM, Interleaved. split; [reflexivity|]. split; [|reflexivity]. destruct Hk as [-> | ->]; discriminate. }
  set (v0 := Value (Some (Native KLinestring XYZM Interleaved)) 0 1 $"old").
  set (v1 := Value (Some (Native KLinestring XYZM Interleaved)) 1 1 $"old"). set (v2 := Value (Some (Native KLinestring XYZM Interleaved)) 1 4 $"EPSG:4326").
  assert (A0 : amounts (MakeParts 2 4 2 $"{""crs"":""old""}") v0).
  { apply amounts_parts. exact (makes_parts [] 2 4 2 $"{""crs"":""old""}" (Native KLinestring XYZM Interleaved) (Metadata 0 1 $"""old""") (K KLinestring (or_introl eq_refl)) eq_refl). }
  assert (A1 : amounts (EdgesChanged (MakeParts 2 4 2 $"{""crs"":""old""}") 1) v1) by (apply (amounts_edges _ v0 1 v1 A0); exact (makes_with_edges [Some v0] 0 1 v0 eq_refl)).
  assert (A2 : amounts (CrsChanged (EdgesChanged (MakeParts 2 4 2 $"{""crs"":""old""}") 1) $"EPSG:4326" 4) v2)
    by (apply (amounts_crs _ v1 _ 4 v2 A1); exact (makes_with_crs [Some v1] 0 $"EPSG:4326" 4 v1 eq_refl)).
  split; [exact plain_arrow_ok|]. split.
  { apply (amounts_back _ ex_value (Native KMultipoint XYZM Interleaved)); [|reflexivity]. apply (amounts_geometry _ v2 4 ex_value A2).
    apply (makes_with_geometry [Some v2] 0 4 v2 4 2 2 (Some ex_value)); [reflexivity | reflexivity|]. apply (recomposed_to v2 4 4 2 (Native KMultipoint XYZM Interleaved)). exact (K KMultipoint (or_intror eq_refl)). }
  split.
  { cbn [ex_expr proper_expr proper_maker]. unfold geometry_enumerator, moderate. repeat split; try lia; try (vm_compute; discriminate). right. left. right. split; [vm_compute; intuition discriminate | reflexivity]. }
  split; [|vm_compute; repeat split; reflexivity].
  cbn [ex_expr storage_kept]. split; [exact I|]. intros v w Hv Hw.
  assert (T : forall u, amounts (CrsChanged (EdgesChanged (MakeParts 2 4 2 $"{""crs"":""old""}") 1) $"EPSG:4326" 4) u -> v_type u = Some (Native KLinestring XYZM Interleaved)).
  { intros u H. inversion H as [| | | | | | | |e0 a crs z u' Ha Hm|]; subst. rewrite (crs_typed _ _ _ _ Hm). inversion Ha as [| | | | | | |e1 b z1 u1 Hb Hm1| |]; subst. rewrite (edges_typed _ _ _ Hm1).
    inversion Hb as [g d c text u2 Hm2| | | | | | | | |]; subst. inversion Hm2 as [|g d c text t m Hc _ E| | | | | | | | | | | | | | | | | |]; subst. cbn [value_of_metadata v_type]. f_equal.
    destruct Hc as (k & d & l & -> & _ & Ep). cbn [parts] in Ep. injection Ep as E1 E2 E3. destruct k; try discriminate E1. destruct d; try discriminate E2. destruct l; try discriminate E3. reflexivity. }
  exists (Native KLinestring XYZM Interleaved), (Native KMultipoint XYZM Interleaved). split; [exact (T v Hv)|]. split.
  - inversion Hw as [| | | |e0 a g w' Ha Hm| | | | |]; subst. pose proof (T a Ha) as Ta. inversion Hm as [| | | | | | | | | |i g v' d c g0 o Hv' Hp Hr| | | | | | | | |]; subst.
    injection Hv' as <-. rewrite Ta in Hp. injection Hp as <- <- <-. inversion Hr as [t Hc E|]; subst. cbn [retyped v_type]. f_equal.
    destruct Hc as (k & d & l & -> & _ & Ep). cbn [parts] in Ep. injection Ep as E1 E2 E3. destruct k; try discriminate E1. destruct d; try discriminate E2. destruct l; try discriminate E3. reflexivity.
  - right. exists KLinestring, KMultipoint, XYZM, Interleaved. split; [reflexivity|]. split; [reflexivity|]. left. reflexivity.
Qed.

(** Otherwise the storage type stays what it was. What is written then cannot be read back, or is read as another type, which is
    taken to be equal. *)
Theorem C70_storage_refuted :
  match ex_eval (GeometryChanged (MakeParts 1 1 1 []) 2) with
  | Ok (Got x) => x_name x = $"geoarrow.linestring" /\ o_type (x_type x) = 2 /\ stored (Native KPoint XY Separate) (x_storage x) /\
      ~ stored (Native KLinestring XY Separate) (x_storage x) /\ ex_eval (ReadBack (GeometryChanged (MakeParts 1 1 1 []) 2)) = Ok Invalid
  | _ => False
  end /\
  match ex_eval (DimensionsChanged (MakeParts 1 1 1 []) 2), ex_eval (ReadBack (DimensionsChanged (MakeParts 1 1 1 []) 2)) with
  | Ok (Got x), Ok (Got y) => o_dims (x_type x) = 2 /\ o_dims (x_type y) = 1 /\ ex_equals x y = Ok true
  | _, _ => False
  end.
Proof.
  vm_compute. split; [|repeat split; reflexivity]. split; [reflexivity|]. split; [reflexivity|]. split.
  { split; [reflexivity|]. repeat (constructor; [eexists; split; [reflexivity|]; split; reflexivity|]). constructor. }
  split; [intros [H _]; discriminate H | reflexivity].
Qed.
Print Assumptions C70_storage_refuted.

(** A type that is made from a GeometryDataType and no other metadata does not have its CRS and edge type. *)
Theorem C70_metadata_refuted :
  match ex_eval (MakeType 1 $"{""crs"":""EPSG:4326""}") with
  | Ok (Got x) => crs (fun _ => 0%N) (alone (x_type x)) (x_type x) = Ok $"EPSG:4326" /\
      match ex_eval (MakeOf (x_type x) []) with Ok (Got y) => ex_text y = Ok $"{}" /\ ex_equals x y = Ok false | _ => False end
  | _ => False
  end.
Proof. vm_compute. repeat split; reflexivity. Qed.
Print Assumptions C70_metadata_refuted.

(** Extension types that are equal have the same type, edge type and CRS. *)
Theorem C70_equal : forall {dtype} (import : schema -> option dtype) export equal, arrow_ok import export equal -> forall junk (x y : ext dtype) v w,
  shows export junk x v -> shows export junk y w -> extension_equals dtype equal junk x y = Ok true ->
  exists t, v_type v = Some t /\ v_type w = Some t /\ retyped v t = retyped w t.
Proof. exact @ext_equal. Qed.
Print Assumptions C70_equal.

(** What cannot be made is a status; what a type cannot be changed to is not: the exception goes on to the caller. *)
Theorem C70_invalid : forall {dtype} (null_type : dtype) import export junk,
  (forall g d c text, proper_maker (FromParts g d c text) -> makes [] (FromParts g d c text) None -> eval dtype null_type import export junk (MakeParts g d c text) = Ok Invalid) /\
  (forall z text, proper_maker (FromType z text) -> makes [] (FromType z text) None -> eval dtype null_type import export junk (MakeType z text) = Ok Invalid) /\
  (forall o text, proper_maker (FromType (o_type o) text) -> makes [] (FromType (o_type o) text) None -> eval dtype null_type import export junk (MakeOf o text) = Ok Invalid).
Proof. intros. split; [exact (invalid_parts null_type import export junk)|]. split; [exact (invalid_type null_type import export junk) | exact (invalid_of import junk)]. Qed.
Print Assumptions C70_invalid.
Theorem C70_status_refuted : forall {dtype} (null_type : dtype) import export equal, arrow_ok import export equal -> forall junk e v, amounts e v -> proper_expr e -> storage_kept e ->
  (forall g, proper_maker (WithGeometryType 0 g) -> makes [Some v] (WithGeometryType 0 g) None -> exists c, eval dtype null_type import export junk (GeometryChanged e g) = Err c) /\
  (forall d, proper_maker (WithDimensions 0 d) -> makes [Some v] (WithDimensions 0 d) None -> exists c, eval dtype null_type import export junk (DimensionsChanged e d) = Err c) /\
  (forall c, proper_maker (WithCoordType 0 c) -> makes [Some v] (WithCoordType 0 c) None -> exists c', eval dtype null_type import export junk (CoordsChanged e c) = Err c').
Proof.
  intros dtype null_type import export equal H junk e v Ha Hp Hk.
  split; [|split]; intros z Hz Hm; exact (thrown null_type import export equal H junk e v _ Ha Hp Hk Hz Hm).
Qed.
Print Assumptions C70_status_refuted.
Example C70_status_ex : amounts (MakeType 100001 []) (Value (Some (Serialized Wkb Regular)) 0 0 []) /\ proper_expr (MakeType 100001 []) /\
  makes [Some (Value (Some (Serialized Wkb Regular)) 0 0 [])] (WithGeometryType 0 1) None /\
  ex_eval (GeometryChanged (MakeType 100001 []) 1) = Err THROWN /\ ex_eval (MakeParts 1 0 1 []) = Ok Invalid /\ ex_eval (MakeType 1 $"{") = Ok Invalid.
Proof.
  split; [apply amounts_type; exact (makes_type [] (Serialized Wkb Regular) [] (Metadata 0 0 []) I eq_refl)|].
  split; [split; [right; exists (Serialized Wkb Regular); split; [exact I | reflexivity] | vm_compute; discriminate]|].
  split; [|repeat split; vm_compute; reflexivity].
  apply (makes_with_geometry _ 0 1 (Value (Some (Serialized Wkb Regular)) 0 0 []) 0 0 0 None); [reflexivity | reflexivity|]. apply recomposed_not.
  intros t (k & d & l & -> & _ & E). cbn [parts] in E. injection E as _ E _. destruct d; discriminate E.
Qed.

(** Registering: the names can be registered once, and unregistering takes them away again. *)
Theorem C70_registry : forall names, (forall n, In n all_ext_names -> ~ In n names) ->
  exists names', register_all names = (names', true) /\ (forall n, In n names' <-> In n all_ext_names \/ In n names) /\
    snd (register_all names') = false /\ unregister_all names' = (names, true).
Proof. exact registry. Qed.
Print Assumptions C70_registry.
(** Where the names are registered, types of all names are received as they are read back, except WKT and boxes, of which only the
    storage type is. *)
Theorem C70_received_refuted : forall {dtype} (null_type : dtype) export junk names (x : ext dtype) v t, shows export junk x v -> v_type v = Some t ->
  (forall n, In n names <-> In n all_ext_names) ->
  received dtype null_type export junk names x =
    (if unregistered_type t then Ok None else do r <- read_back dtype null_type export junk x; Ok (Some r)).
Proof. exact @received_types. Qed.
Print Assumptions C70_received_refuted.
Example C70_received_ex : let names := fst (register_all []) in
  match ex_eval (MakeType 100003 []), ex_eval (MakeType 990 []), ex_eval (MakeType 100005 []) with
  | Ok (Got wkt), Ok (Got box), Ok (Got wkb_view) =>
      received schema (init_from_type $"n") Some (fun _ => 0%N) names wkt = Ok None /\ received schema (init_from_type $"n") Some (fun _ => 0%N) names box = Ok None /\
      match received schema (init_from_type $"n") Some (fun _ => 0%N) names wkb_view with Ok (Some (Got y)) => ex_equals wkb_view y = Ok true | _ => False end
  | _, _, _ => False
  end.
Proof. vm_compute. repeat split; reflexivity. Qed.
