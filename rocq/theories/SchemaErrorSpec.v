(** * What the messages about schemas say *)
From Verif Require Import Base Text TypesSpec SchemaModel SchemaSpec WktErrorSpec MetadataErrorSpec.

(** The [i]-th child. *)
Definition child_at (s : schema) (i : nat) (c : schema) : Prop := nth_error (sc_children s) i = Some (Some c).
(** [c] is in [n] lists of one child each. *)
Fixpoint within (n : nat) (s c : schema) : Prop :=
  match n with
  | O => c = s
  | S n => exists d, sc_format s = Some $"+l" /\ sc_children s = [Some d] /\ within n d c
  end.
(** The name of a type with [n] lists around its coordinates. *)
Definition nested_name (name : bytes) (n : nat) : Prop :=
  exists k, k <> KBox /\ name = type_name (Native k XY Separate) /\ n = levels k.
Definition is_dims (t : bytes) : Prop := exists d, t = dim_names d.
(** The name of a child as it is shown. *)
Definition shown_name (c : schema) : bytes := match sc_name c with Some n => n | None => $"<NULL>" end.
Definition number (n : nat) (t : bytes) : Prop := decimal_of (N.of_nat n) t.

(** Messages about a schema with an extension name or none: what must be so if the message is true. Everything that is said to be
    expected is not there, and everything that is said to be found is. *)
Inductive schema_complaint (s : schema) : option bytes -> bytes -> Prop :=
| no_extension : schema_complaint s None $"Expected extension type"
| unrecognized name q : (forall t, name <> type_name t) -> before_nul name q ->
    schema_complaint s (Some name) ($"Unrecognized GeoArrow extension name: '" ++ q ++ $"'")
| not_strings : (forall f, In f [$"u"; $"U"; $"vu"] -> sc_format s <> Some f) ->
    schema_complaint s (Some $"geoarrow.wkt") $"Expected storage type of string or large_string for extension 'geoarrow.wkt'"
| not_binary name : firstn 12 name = $"geoarrow.wkb" -> (forall f, In f [$"z"; $"Z"; $"vz"] -> sc_format s <> Some f) ->
    schema_complaint s (Some name) $"Expected storage type of binary or large_binary for extension 'geoarrow.wkb'"

(** Lists: the coordinates are in parent 1, that in parent 2, and so on. *)
| not_a_list name n k p i : nested_name name n -> (k < n)%nat -> within k s p ->
    ~ (sc_format p = Some $"+l" /\ length (sc_children p) = 1%nat) -> number (n - k) i ->
    schema_complaint s (Some name) ($"Expected valid list type for coord parent " ++ i ++ $" for extension '" ++ name ++ $"'")
| not_coordinates name n c : nested_name name n -> within n s c ->
    sc_format c <> Some $"+s" -> (forall t, sc_format c <> Some ($"+w:" ++ t)) ->
    schema_complaint s (Some name)
      ($"Expected storage type fixed-size list or struct for coord array for extension '" ++ name ++ $"'")

(** Coordinates in structs *)
| struct_size name n c i : nested_name name n -> within n s c -> sc_format c = Some $"+s" ->
    ~ (2 <= length (sc_children c) <= 4)%nat -> number (length (sc_children c)) i ->
    schema_complaint s (Some name)
      ($"Expected 2, 3, or 4 children for coord array for extension '" ++ name ++ $"' but got " ++ i)
| struct_child_name name n c j x i : nested_name name n -> within n s c -> sc_format c = Some $"+s" ->
    child_at c j x -> (forall a, sc_name x <> Some [a]) -> number j i ->
    schema_complaint s (Some name)
      ($"Expected coordinate child " ++ i ++ $" to have single character name for extension '" ++ name ++ $"'")
| struct_child_type name n c j x i : nested_name name n -> within n s c -> sc_format c = Some $"+s" ->
    child_at c j x -> sc_format x <> Some $"g" -> number j i ->
    schema_complaint s (Some name)
      ($"Expected coordinate child " ++ i ++ $" to have storage type of double for extension '" ++ name ++ $"'")
| struct_dims name n c found : nested_name name n -> within n s c -> sc_format c = Some $"+s" ->
    Forall2 (fun x a => exists y, x = Some y /\ sc_name y = Some [a]) (sc_children c) found -> ~ is_dims found ->
    schema_complaint s (Some name)
      ($"Expected dimensions 'xy', 'xyz', 'xym', or 'xyzm' for extension '" ++ name ++ $"' but found '" ++ found ++ $"'")

(** Coordinates in fixed-size lists *)
| list_child_type name n c t x : nested_name name n -> within n s c -> sc_format c = Some ($"+w:" ++ t) ->
    child_at c 0 x -> sc_format x <> Some $"g" ->
    schema_complaint s (Some name)
      ($"Expected fixed-size list coordinate child 0 to have storage type of double for extension '" ++ name ++ $"'")
| list_dims name n c t x i : nested_name name n -> within n s c -> sc_format c = Some ($"+w:" ++ t) ->
    child_at c 0 x -> ~ is_dims (shown_name x) -> ~ In (numeral_value t) [2; 3; 4]%Z -> decimal_of (Z.to_N (numeral_value t)) i ->
    schema_complaint s (Some name)
      ($"Can't guess dimensions for fixed size list coord array with child name '" ++ shown_name x ++ $"' and fixed size " ++ i ++
       $" for extension '" ++ name ++ $"'")
| list_size name n c t x d i k : nested_name name n -> within n s c -> sc_format c = Some ($"+w:" ++ t) ->
    child_at c 0 x -> sc_name x = Some (dim_names d) -> numeral_value t <> Z.of_nat (length (dim_names d)) ->
    number (length (dim_names d)) i -> decimal_of (Z.to_N (numeral_value t)) k ->
    schema_complaint s (Some name)
      ($"Expected fixed size list coord array with child name '" ++ dim_names d ++ $"' to have fixed size " ++ i ++
       $" but found fixed size " ++ k ++ $" for extension '" ++ name ++ $"'")

(** Boxes *)
| box_storage : sc_format s <> Some $"+s" ->
    schema_complaint s (Some $"geoarrow.box") $"Expected struct storage for 'geoarrow.box'"
| box_size i : ~ In (length (sc_children s)) [4; 6; 8]%nat -> number (length (sc_children s)) i ->
    schema_complaint s (Some $"geoarrow.box") ($"Expected 4, 6, or 8 children for extension 'geoarrow.box' but got " ++ i)
| box_child_name j x i : child_at s j x -> (forall n, sc_name x = Some n -> length n <> 4%nat) -> number j i ->
    schema_complaint s (Some $"geoarrow.box") ($"Expected box child " ++ i ++ $" to have exactly four characters")
| box_child_type j x i : child_at s j x -> sc_format x <> Some $"g" -> number j i ->
    schema_complaint s (Some $"geoarrow.box") ($"Expected box child " ++ i ++ $" to have storage type of double")
| box_child_suffix suffix j x n i : suffix = (if (2 * j <? length (sc_children s))%nat then $"min" else $"max") ->
    child_at s j x -> sc_name x = Some n -> (forall a, n <> a ++ suffix) -> number j i ->
    schema_complaint s (Some $"geoarrow.box")
      ($"Expected box child " ++ i ++ $" to have suffix '" ++ suffix ++ $"' but got '" ++ n ++ $"'")
| box_dims found : ~ is_dims found -> (2 * length found = length (sc_children s))%nat ->
    Forall2 (fun x a => exists y, x = Some y /\ sc_name y = Some ([a] ++ $"min")) (firstn (length found) (sc_children s)) found ->
    schema_complaint s (Some $"geoarrow.box")
      ($"Expected dimensions 'xy', 'xyz', 'xym', or 'xyzm' for extension 'geoarrow.box' but found '" ++ found ++ $"'")
| box_pair j x m a b i : child_at s j x -> sc_name x = Some ([b] ++ $"max") ->
    (exists k, 2 * k = length (sc_children s) /\ k <= j /\ child_at s (j - k) m)%nat -> sc_name m = Some ([a] ++ $"min") -> a <> b ->
    number j i ->
    schema_complaint s (Some $"geoarrow.box")
      ($"Expected box child " ++ i ++ $" name to match name for dimension '" ++ [a] ++ $"min' but got '" ++ [b] ++ $"max'").

(** The same complaint with another number of the child. *)
Inductive misnumbered (s : schema) : bytes -> Prop :=
| Misnumbered j x m k a b i : child_at s (k + j) x -> sc_name x = Some ([b] ++ $"max") -> child_at s j m -> sc_name m = Some ([a] ++ $"min") ->
    a <> b -> (2 * k = length (sc_children s))%nat -> (j < k)%nat -> number j i ->
    misnumbered s
      ($"Expected box child " ++ i ++ $" name to match name for dimension '" ++ [a] ++ $"min' but got '" ++ [b] ++ $"max'").
