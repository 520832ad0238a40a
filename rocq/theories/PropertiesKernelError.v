(** * C77 and C78: the messages of kernels that are not started, and scalar functions *)
From Verif Require Import Base Text TypesModel TypesSpec GeomSpec ArrowModel MetadataModel MetadataProofs SchemaModel SchemaSpec KernelModel KernelStartModel KernelStartSpec
  WktErrorSpec MetadataErrorSpec SchemaErrorSpec SchemaErrorProofs PropertiesStart KernelErrorModel KernelErrorSpec KernelErrorProofs.
Local Open Scope Z_scope.

(** [print_double] is the number printer of the WKT writer, [junk] the contents of newly allocated memory, [nano] what nanoarrow says
    of a schema that it refuses. *)

(** ** C77 *)

(** Whatever kernel is started, for every well-formed schema with the key-value metadata [es] and all options [os]: if it starts, the
    message is what it was; if not, the code is EINVAL, and the message is that of nanoarrow, which refuses the schema, or its first 1023
    bytes are those of a text that is true of the schema and the options. Missing: types that cannot be written, for which nothing is
    said (C77_silent_refuted); what C74 leaves open about schemas; a CRS of more than 10^9 bytes. *)
Theorem C77_message_partial : forall print_double junk nano name n s es options os before,
  (forall i j, is_byte (junk i j)) -> kernel_init name = Ok n ->
  well_formed s -> holds (sc_metadata s) es -> holds options os ->
  (forall b, value_of $"ARROW:extension:name" es = Some b -> firstn 12 b = $"geoarrow.wkb" -> b = $"geoarrow.wkb") ->
  (forall k c, within k s c -> short (sc_children c)) ->
  (forall k c t, within k s c -> sc_format c = Some ($"+w:" ++ t) -> length (sc_children c) = 1%nat) ->
  (value_of $"ARROW:extension:name" es = Some $"geoarrow.box" -> forall text, ~ misnumbered s text) ->
  (forall b m, value_of $"ARROW:extension:metadata" es = Some b -> says b m -> Z.of_nat (length (m_crs m)) <= 1000000000) ->
  (value_of $"type" os <> None -> exists t, exists_type t /\ writable t /\ option_is os $"type" None (type_id t)) ->
  match kernel_start print_double junk n s options with
  | Ok _ => start_told print_double junk nano false n s options before = Ok (0, before)
  | Err c => c = EINVAL /\ exists message, start_told print_double junk nano false n s options before = Ok (EINVAL, message) /\
      ((message = nano /\ arrow_view_init s = Err EINVAL) \/
       exists text r, message = firstn 1023 text ++ [0%N] ++ r /\
         start_complaint (fun a => forall past fuel, (length a < fuel)%nat -> exists m, metadata_view_init past fuel a = Ok m) false name s es os text)
  | _ => start_told print_double junk nano false n s options before = UB
  end.
Proof. exact start_message. Qed.
Print Assumptions C77_message_partial.

(** A WKB schema with edges that are not planar. *)
Definition spherical_text : bytes := $"{""edges"":""spherical""}".
Definition spherical_schema : schema := ex_schema $"z" $"geoarrow.wkb" spherical_text.
Example C77_ex :
  (exists es, well_formed spherical_schema /\ holds (sc_metadata spherical_schema) es /\
    value_of $"ARROW:extension:name" es = Some $"geoarrow.wkb" /\ value_of $"ARROW:extension:metadata" es = Some spherical_text /\
    (forall k c, within k spherical_schema c -> short (sc_children c)) /\
    (forall k c t, within k spherical_schema c -> sc_format c = Some ($"+w:" ++ t) -> length (sc_children c) = 1%nat)) /\
  (exists r, start_told (fun _ _ => []) (fun _ _ => 0%N) [] false NBox spherical_schema None [] =
     Ok (EINVAL, $"box kernel does not support non-planar edges" ++ [0%N] ++ r)) /\
  (exists r, start_told (fun _ _ => []) (fun _ _ => 0%N) [] false NAsGeoarrow spherical_schema None [] =
     Ok (EINVAL, $"Missing required parameter 'type'" ++ [0%N] ++ r)) /\
  (exists r, start_told (fun _ _ => []) (fun _ _ => 0%N) [] false NBoxAgg (ex_schema $"z" $"geoarrow.wkb" $"{} ,") None [] =
     Ok (EINVAL, $"Expected JSON object with no trailing characters but found trailing ','" ++ [0%N] ++ r)) /\
  (exists r, start_told (fun _ _ => []) (fun _ _ => 0%N) [] false NFormatWkt (ex_schema $"i" $"geoarrow.wkb" $"{}") None [] =
     Ok (EINVAL, $"Expected storage type of binary or large_binary for extension 'geoarrow.wkb'" ++ [0%N] ++ r)).
Proof.
  split.
  { eexists. split; [apply ex_well_formed; [intros t E; discriminate E | repeat constructor]|]. split; [apply ex_holds; repeat constructor|].
    split; [reflexivity|]. split; [reflexivity|]. split.
    - intros [|k] c; [intros ->; reflexivity | intros (d & E & _); discriminate].
    - intros [|k] c t; [intros -> E; discriminate | intros (d & E & _); discriminate]. }
  repeat split; eexists; vm_compute; reflexivity.
Qed.

(** An as_geoarrow kernel that has been started is not started again, and the message says so. *)
Theorem C77_twice : forall print_double junk nano s t text options os t' before, (forall i j, is_byte (junk i j)) ->
  schema_of s t text -> holds options os -> exists_type t' -> option_is os $"type" None (type_id t') ->
  exists r, start_told print_double junk nano true NAsGeoarrow s options before =
    Ok (EINVAL, $"Expected exactly one call to start(as_geoarrow)" ++ [0%N] ++ r).
Proof. exact start_twice. Qed.
Print Assumptions C77_twice.

(** A type that cannot be written is refused without a word: the message stays what it was, whatever it was about. *)
Theorem C77_silent_refuted : forall print_double junk nano s t text options os t' before, schema_of s t text -> holds options os ->
  exists_type t' -> option_is os $"type" None (type_id t') -> ~ writable t' ->
  exists c, kernel_start print_double junk NAsGeoarrow s options = Err c /\ (c = EINVAL \/ c = ENOTSUP) /\
    start_told print_double junk nano false NAsGeoarrow s options before = Ok (c, before).
Proof. exact start_silent. Qed.
Print Assumptions C77_silent_refuted.
Example C77_silent_ex : schema_of ex_wkb_schema (Serialized Wkb Regular) (Some ex_text) /\
  holds (ex_options [($"type", $"100002")]) [($"type", $"100002")] /\
  option_is [($"type", $"100002")] $"type" None (type_id (Serialized Wkb Large)) /\ ~ writable (Serialized Wkb Large) /\
  start_told (fun _ _ => []) (fun _ _ => 0%N) [] false NAsGeoarrow ex_wkb_schema (ex_options [($"type", $"100002")]) $"All is well" = Ok (ENOTSUP, $"All is well") /\
  (exists r, start_told (fun _ _ => []) (fun _ _ => 0%N) [] true NAsGeoarrow ex_wkb_schema (ex_options [($"type", $"100002")]) $"All is well" =
     Ok (EINVAL, $"Expected exactly one call to start(as_geoarrow)" ++ [0%N] ++ r)).
Proof.
  split; [exact ex_schema_of|]. split; [apply ex_holds; repeat constructor|]. split.
  { split; [|split; [vm_compute; lia | vm_compute; split; discriminate]]. exists $"100002". split; [discriminate|]. split; [repeat (constructor; [vm_compute; split; discriminate|]); constructor|].
    left. split; reflexivity. }
  split; [intros H; exact H|]. split; [vm_compute; reflexivity|]. eexists. vm_compute. reflexivity.
Qed.

(** ** C78 *)

(** There is one scalar function, void; any other name is refused with a message that quotes it. *)
Theorem C78_names : forall name before, ~ In 0%N name ->
  (name = $"void" -> scalar_factory_told name before = (0, before)) /\
  (name <> $"void" -> exists message, scalar_factory_told name before = (ENOTSUP, message) /\
     is_c_string message (firstn 1023 ($"GeoArrow C scalar implementation with name '" ++ name ++ $"' does not exist"))).
Proof. exact scalar_names. Qed.
Print Assumptions C78_names.
(** Its results are of the null type, and there are as many nulls as rows, whatever the arguments are. *)
Theorem C78_void : forall arg_types args n_rows,
  sc_format (scalar_void_init arg_types) = Some $"n" /\ nulls_array n_rows (scalar_void_execute args n_rows).
Proof. intros. split; [reflexivity|]. repeat split. Qed.
Print Assumptions C78_void.
Example C78_ex : exists r, scalar_factory_told $"voided" [] = (ENOTSUP, $"GeoArrow C scalar implementation with name 'voided' does not exist" ++ [0%N] ++ r).
Proof. eexists. vm_compute. reflexivity. Qed.
