(** * C74: error messages about schemas are true *)
From Verif Require Import Base Text TypesSpec MetadataProofs SchemaModel SchemaSpec SchemaMetadata SchemaProofs SchemaViews WktErrorSpec
  SchemaErrorModel SchemaErrorSpec SchemaErrorProofs SchemaErrorRefused.
Local Open Scope Z_scope.

(** Every well-formed schema, whose key-value metadata hold the entries [es]: it is viewed and the message stays as it was; or nanoarrow
    refuses it and has said why; or it is refused with EINVAL and a message whose first 1023 bytes are those of a text that is true of
    the schema. Missing: fixed-size lists of several children and boxes whose maxima are not in the order of the minima, for which the
    claim is false; structs and lists of 2^31 children; what nanoarrow says. *)
Theorem C74_message_partial : forall nano before s es, well_formed s -> holds (sc_metadata s) es ->
  (forall n c, within n s c -> short (sc_children c)) ->
  (forall n c t, within n s c -> sc_format c = Some ($"+w:" ++ t) -> length (sc_children c) = 1%nat) ->
  (exists v, schema_view_init s = Ok v /\ schema_told nano before s = Ok (0, before)) \/
  (arrow_view_init s = Err EINVAL /\ schema_view_init s = Err EINVAL /\ schema_told nano before s = Ok (EINVAL, nano)) \/
  (schema_view_init s = Err EINVAL /\ exists message text r, schema_told nano before s = Ok (EINVAL, message) /\
     message = firstn 1023 text ++ [0%N] ++ r /\
     (schema_complaint s (value_of $"ARROW:extension:name" es) text \/
      (value_of $"ARROW:extension:name" es = Some $"geoarrow.box" /\ misnumbered s text))).
Proof. exact told_cases. Qed.
Print Assumptions C74_message_partial.

(** What the messages say is a reason: a schema of which one of the texts is true is refused.
    Missing: names that only begin with "geoarrow.wkb" (C36_refuted). *)
Theorem C74_reason_partial : forall s es text, well_formed s -> holds (sc_metadata s) es ->
  (forall name, value_of $"ARROW:extension:name" es = Some name -> firstn 12 name = $"geoarrow.wkb" -> name = $"geoarrow.wkb") ->
  schema_complaint s (value_of $"ARROW:extension:name" es) text -> schema_view_init s = Err EINVAL.
Proof. exact complaint_refused. Qed.
Print Assumptions C74_reason_partial.

(** The same when the extension name is given beside the schema. *)
Theorem C74_storage_partial : forall nano before s view name, well_formed s ->
  sv_bytes view = Some name -> sv_size view = Z.of_nat (length name) ->
  (forall n c, within n s c -> short (sc_children c)) ->
  (forall n c t, within n s c -> sc_format c = Some ($"+w:" ++ t) -> length (sc_children c) = 1%nat) ->
  let o := schema_view_init_from_storage s view in
  ((exists v, o = Ok v /\ storage_told nano before s view = Ok (0, before)) \/
   (arrow_view_init s = Err EINVAL /\ o = Err EINVAL /\ storage_told nano before s view = Ok (EINVAL, nano)) \/
   (o = Err EINVAL /\ exists message text r, storage_told nano before s view = Ok (EINVAL, message) /\
      message = firstn 1023 text ++ [0%N] ++ r /\
      (schema_complaint s (Some name) text \/ (name = $"geoarrow.box" /\ misnumbered s text)))) /\
  ((firstn 12 name = $"geoarrow.wkb" -> name = $"geoarrow.wkb") -> forall text, schema_complaint s (Some name) text -> o = Err EINVAL).
Proof.
  exact (fun nano before s view name W H1 H2 few single =>
    conj (told_from_storage nano before s view name W (conj H1 H2) few single)
         (fun N text C => storage_refused s view name text W (conj H1 H2) N C)).
Qed.
Print Assumptions C74_storage_partial.

(** A struct of x and z. *)
Definition xz : schema := named_schema $"+s" $"geoarrow.point" [column $"g" $"x"; column $"g" $"z"].
Example C74_storage_ex : exists view r, sv_bytes view = Some $"geoarrow.wkt" /\ sv_size view = Z.of_nat (length $"geoarrow.wkt") /\
  storage_told [] [] xz view = Ok (EINVAL, $"Expected storage type of string or large_string for extension 'geoarrow.wkt'" ++ [0%N] ++ r).
Proof. exists (StrView $"geoarrow.wkt" 0 12). eexists. split; [reflexivity|]. split; [reflexivity|]. vm_compute. reflexivity. Qed.
Example C74_ex : exists es r, well_formed xz /\ holds (sc_metadata xz) es /\
  (forall n c, within n xz c -> short (sc_children c)) /\
  (forall n c t, within n xz c -> sc_format c = Some ($"+w:" ++ t) -> length (sc_children c) = 1%nat) /\
  schema_complaint xz (value_of $"ARROW:extension:name" es)
    $"Expected dimensions 'xy', 'xyz', 'xym', or 'xyzm' for extension 'geoarrow.point' but found 'xz'" /\
  schema_told [] [] xz =
    Ok (EINVAL, $"Expected dimensions 'xy', 'xyz', 'xym', or 'xyzm' for extension 'geoarrow.point' but found 'xz'" ++ [0%N] ++ r).
Proof.
  exists [(name_key, $"geoarrow.point")]. eexists.
  split. { apply named_well_formed; [discriminate | apply small_fits; vm_compute; lia |]. intros c [<-|[<-|[]]]; apply column_well_formed; discriminate. }
  split. { split; [apply small_fits; vm_compute; lia | exists []; rewrite app_nil_r; reflexivity]. }
  split. { intros [|n] c; [intros ->; reflexivity | intros (d & E & _); discriminate]. }
  split. { intros [|n] c t; [intros -> E; discriminate | intros (d & E & _); discriminate]. }
  split.
  - apply (struct_dims xz $"geoarrow.point" 0 xz $"xz").
    + exists KPoint. repeat split; discriminate.
    + reflexivity.
    + reflexivity.
    + repeat constructor; eexists; split; reflexivity.
    + intros (d & E). destruct d; vm_compute in E; discriminate.
  - vm_compute. reflexivity.
Qed.

(** The message about a maximum that does not fit its minimum shows the number of the minimum: here child 0 is said to be named 'ymax',
    and its name is 'xmin'. *)
Definition crossed : schema :=
  named_schema $"+s" $"geoarrow.box" [column $"g" $"xmin"; column $"g" $"ymin"; column $"g" $"ymax"; column $"g" $"xmax"].
Theorem C74_box_refuted : exists s es c r, well_formed s /\ holds (sc_metadata s) es /\
  child_at s 0 c /\ sc_name c = Some $"xmin" /\
  schema_told [] [] s =
    Ok (EINVAL, $"Expected box child 0 name to match name for dimension 'xmin' but got 'ymax'" ++ [0%N] ++ r).
Proof.
  exists crossed, [(name_key, $"geoarrow.box")], (column $"g" $"xmin"). eexists.
  split. { apply named_well_formed; [discriminate | apply small_fits; vm_compute; lia |].
           intros c [<-|[<-|[<-|[<-|[]]]]]; apply column_well_formed; discriminate. }
  split. { split; [apply small_fits; vm_compute; lia | exists []; rewrite app_nil_r; reflexivity]. }
  split; [reflexivity|]. split; [reflexivity|]. vm_compute. reflexivity.
Qed.
Print Assumptions C74_box_refuted.

(** A list of fixed-size lists of two children is refused because child 0 of these is not of doubles, and it is. *)
Definition two_children : schema := Schema false (Some $"+w:2") None None 2 (map Some [column $"g" $"xy"; column $"g" $"xy"]) None.
Definition list_of_two : schema := named_schema $"+l" $"geoarrow.linestring" [two_children].
Theorem C74_list_refuted : exists s es coords c r, well_formed s /\ holds (sc_metadata s) es /\
  within 1 s coords /\ child_at coords 0 c /\ sc_format c = Some $"g" /\
  schema_told [] [] s =
    Ok (EINVAL, $"Expected fixed-size list coordinate child 0 to have storage type of double for extension 'geoarrow.linestring'" ++ [0%N] ++ r).
Proof.
  exists list_of_two, [(name_key, $"geoarrow.linestring")], two_children, (column $"g" $"xy"). eexists.
  split. { apply named_well_formed; [discriminate | apply small_fits; vm_compute; lia |].
           intros c [<-|[]]. apply (wf_simple $"+w:2" None None 2 [column $"g" $"xy"; column $"g" $"xy"] []); auto.
           - intros t E. apply (app_inv_head $"+w:" $"2") in E. subst t. split; [|reflexivity]. split; [discriminate | repeat constructor; vm_compute; discriminate].
           - split; [split; [reflexivity | constructor] | reflexivity].
           - repeat constructor; apply column_well_formed; discriminate. }
  split. { split; [apply small_fits; vm_compute; lia | exists []; rewrite app_nil_r; reflexivity]. }
  split. { exists two_children. repeat split. }
  split; [reflexivity|]. split; [reflexivity|]. vm_compute. reflexivity.
Qed.
Print Assumptions C74_list_refuted.
