(** * What the messages of kernels that are not started say *)
From Verif Require Import Base Text TypesSpec MetadataModel SchemaModel SchemaSpec KernelStartModel KernelStartSpec MetadataErrorSpec SchemaErrorSpec.
Local Open Scope Z_scope.

(** Messages of the start of the kernel [name] with the schema [s], whose key-value metadata hold [es], and the options [os]: what must
    be so if the message is true. [again]: the kernel has been started before. [accepted] are the extension metadata that are. *)
Inductive start_complaint (accepted : bytes -> Prop) (again : bool) (name : bytes) (s : schema) (es os : list (bytes * bytes)) : bytes -> Prop :=
| about_schema text : ~ In name [$"void"; $"void_agg"] -> schema_complaint s (value_of $"ARROW:extension:name" es) text ->
    start_complaint accepted again name s es os text
| about_metadata b text : In name [$"box"; $"box_agg"] -> value_of $"ARROW:extension:metadata" es = Some b -> metadata_complaint accepted b text ->
    start_complaint accepted again name s es os text
| about_edges b m : In name [$"box"; $"box_agg"] -> value_of $"ARROW:extension:metadata" es = Some b -> says b m -> m_edges m <> EDGE_PLANAR ->
    start_complaint accepted again name s es os $"box kernel does not support non-planar edges"
| about_type : name = $"as_geoarrow" -> value_of $"type" os = None ->
    start_complaint accepted again name s es os $"Missing required parameter 'type'"
| about_second : name = $"as_geoarrow" -> again = true ->
    start_complaint accepted again name s es os $"Expected exactly one call to start(as_geoarrow)".
