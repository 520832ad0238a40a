(** * Type objects of the C++ interface (C61) *)
From Verif Require Import Base Text TypesSpec MetadataModel MetadataSpec MetadataWriting CppWkbModel CppDataTypeModel KernelStartSpec SchemaModel SchemaSpec CppDataTypeSpec
  CppDataTypeProofs.
Local Open Scope Z_scope.

(** ** C61 *)
(** Whatever a program makes, copies, moves, assigns, changes and destroys: every object has the value that its history gives
    it, nothing that is gone is ever read, and exceptions are thrown exactly where there is no value. *)
Theorem C61_values_partial : forall junk leftover ps ts vs, history [] ps ts vs -> Forall proper ps ->
  exists st, run junk leftover empty_store ps = Ok (st, ts) /\ length (st_objects st) = length vs /\
    forall i v, value_at vs i v -> looks_like junk st i v.
Proof. exact values_are. Qed.
Print Assumptions C61_values_partial.

Definition ex_program : list op :=
  [Create (FromParts 1 1 1 $"{""crs"":""EPSG:4326"",""edges"":""spherical""}"); Create (CopyOf 0); Create (WithDimensions 0 4); Destroy 0;
   Create (WithGeometryType 1 990); Create (WithCoordType 3 2); Move 2; Create (WithCrs 4 $"a ""quoted"" CRS" 5); Assign 1 5; Create (Multi 1)].
Definition ex_values : list (option value) :=
  [None;
   Some (Value (Some (Native KPoint XYZM Separate)) 1 5 $"a ""quoted"" CRS");
   Some no_value;
   Some (Value (Some (Native KBox XY Separate)) 1 1 $"EPSG:4326");
   Some (Value (Some (Native KPoint XYZM Separate)) 1 1 $"EPSG:4326");
   Some (Value (Some (Native KPoint XYZM Separate)) 1 5 $"a ""quoted"" CRS");
   Some (Value (Some (Native KMultipoint XYZM Separate)) 1 5 $"a ""quoted"" CRS")].
Example C61_values_ex : history [] ex_program [false; false; false; false; false; true; false; false; false; false] ex_values /\
  Forall proper ex_program /\
  match run (fun _ => 7%N) (fun _ => $"gone") empty_store ex_program with
  | Ok (st, _) =>
      match object_at st 6 with
      | Ok o => to_string (fun _ => 7%N) st o 40 = Ok $"spherical geoarrow.multipoint_zm<srid:a ""quoted"" CRS>" /\
          to_string (fun _ => 7%N) st o 12 = Ok $"spherical geoarrow.multipoint_zm<srid:a ...>" /\
          extension_metadata (fun _ => 7%N) st o = Ok $"{""edges"":""spherical"",""crs_type"":""srid"",""crs"":""a \""quoted\"" CRS""}"
      | _ => False
      end
  | _ => False
  end.
Proof.
  assert (K : forall k d l, supported k d l -> composed (geometry_kind_code k) (dim_code d) (layout_code l) (Native k d l)).
  { intros k d l H. exists k, d, l. split; [reflexivity|]. split; [exact H | reflexivity]. }
  split; [|split; [|vm_compute; repeat split; reflexivity]].
  - eapply history_cons.
    { apply steps_create. refine (makes_parts _ 1 1 1 _ (Native KPoint XY Separate) (Metadata 1 1 $"""EPSG:4326""") _ _); [apply (K KPoint XY Separate); discriminate | reflexivity]. }
    eapply history_cons. { apply steps_create. apply makes_copy. reflexivity. }
    eapply history_cons.
    { apply steps_create. eapply (makes_with_dims _ 0 4 _ 1 1 1); [reflexivity | reflexivity|]. apply (recomposed_to _ 1 4 1 (Native KPoint XYZM Separate)). apply (K KPoint XYZM Separate); discriminate. }
    eapply history_cons. { eapply (steps_destroy _ 0). reflexivity. }
    eapply history_cons.
    { apply steps_create. eapply (makes_with_geometry _ 1 990 _ 1 1 1); [reflexivity | reflexivity|]. apply (recomposed_to _ 990 1 1 (Native KBox XY Separate)). apply (K KBox XY Separate). intros _. reflexivity. }
    eapply history_cons.
    { apply steps_throw. eapply (makes_with_coords _ 3 2 _ 990 1 1); [reflexivity | reflexivity|]. apply recomposed_not.
      intros t (k & d & l & -> & He & E). cbn [parts] in E. injection E as E1 E2 E3. destruct k; try discriminate E1. rewrite (He eq_refl) in E3. discriminate E3. }
    eapply history_cons. { eapply (steps_move _ 2). reflexivity. }
    eapply history_cons. { apply steps_create. eapply (makes_with_crs _ 4 _ 5). reflexivity. }
    eapply history_cons. { eapply (steps_assign _ 1 5); reflexivity. }
    eapply history_cons.
    { apply steps_create. eapply (makes_multi _ 1 _ 1 4 1 4); [reflexivity | reflexivity | reflexivity|]. apply (recomposed_to _ 4 4 1 (Native KMultipoint XYZM Separate)). apply (K KMultipoint XYZM Separate); discriminate. }
    apply history_nil.
  - unfold ex_program. repeat (apply Forall_cons; [cbn [proper proper_maker]; unfold geometry_enumerator; try exact I; try lia|]); [| |apply Forall_nil].
    + split; [lia|]. split; [lia|]. split; [lia|]. vm_compute. discriminate.
    + split; [lia|]. split; [right; left; right; split; [vm_compute; intuition discriminate | reflexivity] | vm_compute; discriminate].
Qed.

(** The object that another geometry type, coordinate type or dimensions are asked of does not keep a CRS with a backslash (that
    is not in a JSON string): the metadata that it is carried in then end with memory that was not written to. It throws, or
    the CRS is another one. *)
Theorem C61_values_refuted : exists ps k, forall leftover,
  run (fun _ => 0%N) leftover empty_store (ps ++ [Create k]) =
    (do (st, ts) <- run (fun _ => 0%N) leftover empty_store ps; Ok (st, ts ++ [true])) /\
  match run (fun _ => 32%N) leftover empty_store (ps ++ [Create k]) with
  | Ok (st, ts) => exists before after, object_at st 1 = Ok before /\ object_at st 2 = Ok after /\
      crs (fun _ => 32%N) st before = Ok $"a\b" /\ crs (fun _ => 32%N) st after = Ok $"ab"
  | _ => False
  end.
Proof.
  exists [Create (FromType 1 []); Create (WithCrs 0 $"a\b" CRS_UNKNOWN)], (WithDimensions 1 2). intros leftover.
  split; [vm_compute; reflexivity|]. vm_compute. eexists. eexists. split; [reflexivity|]. split; [reflexivity|]. split; reflexivity.
Qed.
Print Assumptions C61_values_refuted.

(** Texts of objects with different types or edges differ; so do those of objects whose CRS differ, if it is shown in full and
    has the same type. *)
Theorem C61_to_string_partial : forall junk leftover ps ts vs st i j v w oi oj max, history [] ps ts vs -> Forall proper ps ->
  run junk leftover empty_store ps = Ok (st, ts) -> value_at vs i v -> value_at vs j w -> object_at st i = Ok oi -> object_at st j = Ok oj ->
  5 <= max < 2 ^ 64 -> to_string junk st oi max = to_string junk st oj max ->
  v_type v = v_type w /\ (v_type v <> None -> v_edges v = v_edges w) /\
  (v_type v <> None -> v_crs_type v = v_crs_type w -> v_crs_type v <> CRS_NONE ->
   Z.of_nat (length (crs_label v)) < max -> Z.of_nat (length (crs_label w)) < max -> v_crs v = v_crs w).
Proof. exact texts_apart. Qed.
Print Assumptions C61_to_string_partial.
(** The part that shows the CRS has no more bytes than asked for, if 4 are. *)
Theorem C61_to_string_length : forall max v, 4 <= max -> Z.of_nat (length (clipped max (crs_label v))) <= max.
Proof. intros max v. exact (clipped_length max (crs_label v)). Qed.
Print Assumptions C61_to_string_length.
(** If fewer are asked for, the CRS is shown in full and longer than it is, even where there is none. *)
Theorem C61_to_string_length_refuted : forall junk leftover ps ts vs st i v o max, history [] ps ts vs -> Forall proper ps ->
  run junk leftover empty_store ps = Ok (st, ts) -> value_at vs i v -> object_at st i = Ok o -> v_type v <> None ->
  0 <= max < 4 -> max <= Z.of_nat (length (crs_label v)) < 2 ^ 64 - 4 -> exists full,
  to_string junk st o (Z.of_nat (length (crs_label v)) + 4) = Ok full /\ to_string junk st o max = Ok (full ++ $"...>").
Proof. exact texts_longer. Qed.
Print Assumptions C61_to_string_length_refuted.
Example C61_to_string_length_refuted_ex :
  let v := Value (Some (Native KPoint XY Separate)) EDGE_PLANAR CRS_NONE [] in
  history [] [Create (FromType 1 [])] [false] [Some v] /\ crs_label v = [] /\
  Forall proper [Create (FromType 1 [])].
Proof.
  split; [|split; [reflexivity|]].
  - eapply history_cons; [|apply history_nil].
    refine (steps_create [] _ _ (makes_type _ (Native KPoint XY Separate) [] (Metadata EDGE_PLANAR CRS_NONE []) _ _)); [discriminate | reflexivity].
  - constructor; [|constructor]. split; [right; exists (Native KPoint XY Separate); split; [discriminate | reflexivity] | vm_compute; discriminate].
Qed.
(** Objects with the same text may differ. *)
Theorem C61_to_string_refuted : exists max v w, 5 <= max < 2 ^ 64 /\ shown max v = shown max w /\ v_type v = v_type w /\ v_edges v = v_edges w /\
  v_crs_type v = CRS_UNKNOWN /\ v_crs_type w = CRS_SRID /\ v_crs v <> v_crs w.
Proof.
  exists 40, (Value (Some (Native KPoint XY Separate)) 0 CRS_UNKNOWN $"srid:4326"), (Value (Some (Native KPoint XY Separate)) 0 CRS_SRID $"4326").
  split; [lia|]. repeat split; vm_compute; try reflexivity. discriminate.
Qed.
Print Assumptions C61_to_string_refuted.
