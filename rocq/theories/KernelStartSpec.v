(** * What it means to use a kernel: schemas, options and sessions *)
From Verif Require Import Base Text TypesSpec GeomSpec ArrowModel BuilderModel WktReaderModel ArrayReaderModel KernelModel ConversionModel MetadataModel SchemaModel
  SchemaSpec KernelStartModel.
Local Open Scope Z_scope.

(** A well-formed schema of the type [t] with the extension metadata [text], or none. *)
Definition schema_of (s : schema) (t : geo_type) (text : option bytes) : Prop :=
  exists es, well_formed s /\ holds (sc_metadata s) es /\ exists_type t /\ stored t s /\
    value_of $"ARROW:extension:name" es = Some (type_name t) /\ value_of $"ARROW:extension:metadata" es = text.

(** A schema of no GeoArrow type. (One whose extension name only begins with geoarrow.wkb is taken for one: C36.) *)
Definition not_geoarrow (s : schema) : Prop :=
  exists es, well_formed s /\ holds (sc_metadata s) es /\
    (forall name, value_of $"ARROW:extension:name" es = Some name -> firstn 12 name = $"geoarrow.wkb" -> name = $"geoarrow.wkb") /\
    (forall t, exists_type t -> value_of $"ARROW:extension:name" es = Some (type_name t) -> ~ stored t s).

(** The extension metadata of a schema reads as [m]: whatever the memory behind it holds. *)
Definition text_of (text : option bytes) : bytes := match text with Some b => b | None => [] end.
Definition says (text : bytes) (m : metadata) : Prop :=
  forall past fuel, (length text < fuel)%nat -> metadata_view_init past fuel text = Ok m.

(** An integer in decimal: a sign, perhaps, and at least one digit. *)
Definition integer (text : bytes) (z : Z) : Prop :=
  exists ds, ds <> [] /\ Forall (fun c => 48 <= c <= 57)%N ds /\
    (text = ds /\ z = numeral_value ds \/ text = $"+" ++ ds /\ z = numeral_value ds \/ text = $"-" ++ ds /\ z = - numeral_value ds).

(** An option: given as an integer that an int holds, in no more than 15 characters, or not given and then [default]. *)
Definition option_is (os : list (bytes * bytes)) (key : bytes) (default : option Z) (z : Z) : Prop :=
  match value_of key os with
  | Some text => integer text z /\ (length text <= 15)%nat /\ - 2147483648 <= z <= 2147483647
  | None => default = Some z
  end.

(** The types that arrays can be written as. *)
Definition writable (t : geo_type) : Prop :=
  match t with Native k _ _ => k <> KBox | Serialized _ Regular => True | Serialized _ _ => False end.

(** ** Sessions *)
Section Sessions.
  Variable parse : bytes -> option N.
  Variable print_double : N -> Z -> bytes.
  Variable junk : nat -> nat -> N.
  (** The states that the WKT and WKB readers are in, for each batch and each feature. *)
  Variable wkt_state : nat -> Z -> rst.
  Variable wkb_state : nat -> Z -> bool.

  (** All batches one after the other, with the output of each, if [out]. *)
  Fixpoint push_all (j : nat) (k : started) (batches : list arrow_array) (out : bool) : outcome (started * list (option arrow_array)) :=
    match batches with
    | [] => Ok (k, [])
    | a :: batches =>
        match kernel_push parse print_double junk (wkt_state j) (wkb_state j) k a out with
        | PRet k c o =>
            if c =? 0 then do (k, outs) <- push_all (S j) k batches out; Ok (k, o :: outs) else Err c
        | PUB => UB
        | PNoFuel => NoFuel
        end
    end.

  (** A kernel created by its name, started with a schema and options, given all batches and finished. A kernel that aggregates
      puts its output at the end, another after every batch. The result is the output schema and the outputs. *)
  Definition session (name : bytes) (aggregates : bool) (s : schema) (options : option bytes) (batches : list arrow_array) :
      outcome (schema * list (option arrow_array) * option arrow_array) :=
    do n <- kernel_init name;
    do (k, out) <- kernel_start print_double junk n s options;
    do (k, outs) <- push_all 0 k batches (negb aggregates);
    match kernel_finish k aggregates with
    | None => UB
    | Some (c, last) => if c =? 0 then Ok (out, outs, last) else Err c
    end.
End Sessions.

(** An array of the null type of [n] nulls. *)
Definition nulls_array (n : Z) (a : arrow_array) : Prop :=
  aa_length a = n /\ aa_null_count a = n /\ aa_offset a = 0 /\ aa_buffers a = [] /\ aa_children a = [].
