(** * What extension metadata says

    A specification, independent of the reader, of JSON texts and of the metadata that a JSON object describes. Only the
    record of the result and its enumerators are taken from the model. *)
From Verif Require Import Base Text MetadataModel.

(** ** JSON texts *)
Definition blank (w : bytes) : Prop := Forall (fun c => In c [32; 9; 10; 13]%N) w.

(** The characters of a JSON string (more than JSON allows: control characters are not excluded, and any character may
    follow a backslash). *)
Inductive chars : bytes -> Prop :=
| chars_nil : chars []
| chars_plain c s : c <> 34%N -> c <> 92%N -> chars s -> chars (c :: s)
| chars_escape c s : chars s -> chars (92%N :: c :: s).
Definition quoted (s : bytes) : bytes := [34%N] ++ s ++ [34%N].
Definition json_string (b : bytes) : Prop := exists s, chars s /\ b = quoted s.

(** A number (more than JSON allows: a digit or a sign, then any digits, signs, points and exponents). *)
Definition json_number (b : bytes) : Prop :=
  exists c s, b = c :: s /\ In c $"-0123456789" /\ Forall (fun x => In x $"+-.eE0123456789") s.

(** A JSON value; the items of an array; the members of an object, with the texts of their names and values. *)
Inductive json : bytes -> Prop :=
| json_null : json $"null"
| json_true : json $"true"
| json_false : json $"false"
| json_num b : json_number b -> json b
| json_str b : json_string b -> json b
| json_array_empty w : blank w -> json ([91%N] ++ w ++ [93%N])
| json_array b : json_items b -> json ([91%N] ++ b ++ [93%N])
| json_object_empty w : blank w -> json ([123%N] ++ w ++ [125%N])
| json_object ms b : json_members ms b -> json ([123%N] ++ b ++ [125%N])
with json_items : bytes -> Prop :=
| json_item w v w' : blank w -> json v -> blank w' -> json_items (w ++ v ++ w')
| json_item_more w v w' b : blank w -> json v -> blank w' -> json_items b -> json_items (w ++ v ++ w' ++ [44%N] ++ b)
with json_members : list (bytes * bytes) -> bytes -> Prop :=
| json_member w1 k w2 w3 v w4 : blank w1 -> json_string k -> blank w2 -> blank w3 -> json v -> blank w4 ->
    json_members [(k, v)] (w1 ++ k ++ w2 ++ [58%N] ++ w3 ++ v ++ w4)
| json_member_more w1 k w2 w3 v w4 ms b : blank w1 -> json_string k -> blank w2 -> blank w3 -> json v -> blank w4 ->
    json_members ms b -> json_members ((k, v) :: ms) (w1 ++ k ++ w2 ++ [58%N] ++ w3 ++ v ++ w4 ++ [44%N] ++ b).

(** A text that is one JSON object with these members. *)
Definition json_document (ms : list (bytes * bytes)) (b : bytes) : Prop :=
  exists w w' body, blank w /\ blank w' /\ b = w ++ [123%N] ++ body ++ [125%N] ++ w' /\
    (ms = [] /\ blank body \/ json_members ms body).

(** ** The metadata that members describe *)
Definition same (a b : bytes) : bool := if list_eq_dec N.eq_dec a b then true else false.
Definition starts (c : N) (v : bytes) : bool := match v with x :: _ => N.eqb x c | [] => false end.
Definition lookup (name : bytes) (ms : list (bytes * bytes)) : option bytes :=
  option_map snd (find (fun kv => same (fst kv) (quoted name)) ms).
Definition meaning_of (names : list (bytes * Z)) (v : bytes) : option Z :=
  option_map snd (find (fun nt => same v (quoted (fst nt))) names).

Definition edge_names : list (bytes * Z) :=
  [($"planar", EDGE_PLANAR); ($"spherical", EDGE_SPHERICAL); ($"vincenty", EDGE_VINCENTY); ($"thomas", EDGE_THOMAS);
   ($"andoyer", EDGE_ANDOYER); ($"karney", EDGE_KARNEY)].
Definition crs_type_names : list (bytes * Z) :=
  [($"projjson", CRS_PROJJSON); ($"wkt2:2019", CRS_WKT2_2019); ($"authority_code", CRS_AUTHORITY_CODE); ($"srid", CRS_SRID)].

(** null, a string, an array or an object: numbers and booleans are not accepted, whatever the member is called. *)
Definition accepted_value (v : bytes) : bool := same v $"null" || starts 34 v || starts 91 v || starts 123 v.

(** What each member says, if that can be accepted. *)
Definition edges_said (v : option bytes) : option Z :=
  match v with
  | None => Some EDGE_PLANAR
  | Some v => if same v $"null" then Some EDGE_PLANAR else meaning_of edge_names v
  end.
Definition crs_said (v : option bytes) : option (option bytes) :=
  match v with
  | None => Some None
  | Some v => if same v $"null" then Some None else if starts 34 v || starts 123 v then Some (Some v) else None
  end.
(** A string that is not one of the names is accepted, and says as much as no crs_type at all. *)
Definition crs_type_said (v : option bytes) : option Z :=
  match v with
  | None => Some CRS_UNKNOWN
  | Some v => if starts 34 v then Some (match meaning_of crs_type_names v with Some t => t | None => CRS_UNKNOWN end) else None
  end.
Definition described (ms : list (bytes * bytes)) : option metadata :=
  if forallb (fun kv => accepted_value (snd kv)) ms then
    match edges_said (lookup $"edges" ms), crs_said (lookup $"crs" ms), crs_type_said (lookup $"crs_type" ms) with
    | Some e, Some (Some c), Some t => Some (Metadata e t c)
    | Some e, Some None, Some _ => Some (Metadata e CRS_NONE [])
    | _, _, _ => None
    end
  else None.

(** The value of crs_type, if there is one, is one of the names or is not as long as any of them. *)
Definition plain_crs_type (ms : list (bytes * bytes)) : Prop :=
  forall v, lookup $"crs_type" ms = Some v -> starts 34 v = true ->
    meaning_of crs_type_names v <> None \/ forall n t, In (n, t) crs_type_names -> length v <> length (quoted n).

(** ** The texts that are accepted

    They are not only JSON texts: between a value and the comma or brace that follows it anything may stand, after the
    last comma nothing needs to, and of arrays and objects only the strings and brackets are looked at. *)
Inductive span (close : N) : bytes -> Prop :=
| span_nil : span close []
| span_other c s : ~ In c [0; 34; 91; 123; close]%N -> span close s -> span close (c :: s)
| span_string t s : json_string t -> span close s -> span close (t ++ s)
| span_array i s : span 93 i -> span close s -> span close ([91%N] ++ i ++ [93%N] ++ s)
| span_object i s : span 125 i -> span close s -> span close ([123%N] ++ i ++ [125%N] ++ s).
Definition loose_value (v : bytes) : Prop :=
  v = $"null" \/ json_string v \/ (exists i, span 93 i /\ v = [91%N] ++ i ++ [93%N]) \/
  (exists i, span 125 i /\ v = [123%N] ++ i ++ [125%N]).
Definition junk (j : bytes) : Prop := Forall (fun c => ~ In c [0; 44; 125]%N) j.
Inductive loose_members : list (bytes * bytes) -> bytes -> Prop :=
| loose_none : loose_members [] []
| loose_last w1 k w2 w3 v j : blank w1 -> json_string k -> blank w2 -> blank w3 -> loose_value v -> junk j ->
    loose_members [(k, v)] (w1 ++ k ++ w2 ++ [58%N] ++ w3 ++ v ++ j)
| loose_more w1 k w2 w3 v j ms b : blank w1 -> json_string k -> blank w2 -> blank w3 -> loose_value v -> junk j ->
    loose_members ms b -> loose_members ((k, v) :: ms) (w1 ++ k ++ w2 ++ [58%N] ++ w3 ++ v ++ j ++ [44%N] ++ b).
Definition loose_document (ms : list (bytes * bytes)) (b : bytes) : Prop :=
  exists w w1 w' body, blank w /\ blank w1 /\ blank w' /\ b = w ++ [123%N] ++ w1 ++ body ++ [125%N] ++ w' /\ loose_members ms body.

(** ** CRS texts *)

(** The character that a backslash and another one stand for; the escapes of Unicode characters by number are left out. *)
Definition escape_of (e : N) : option N :=
  if N.eqb e 34 then Some 34%N else if N.eqb e 92 then Some 92%N else if N.eqb e 47 then Some 47%N
  else if N.eqb e 98 then Some 8%N else if N.eqb e 102 then Some 12%N else if N.eqb e 110 then Some 10%N
  else if N.eqb e 114 then Some 13%N else if N.eqb e 116 then Some 9%N else None.
(** The value of the JSON string with these characters. *)
Fixpoint unescaped (s : bytes) : option bytes :=
  match s with
  | [] => Some []
  | c :: s =>
      if N.eqb c 92 then
        match s with
        | e :: s => match escape_of e, unescaped s with Some x, Some t => Some (x :: t) | _, _ => None end
        | [] => None
        end
      else option_map (cons c) (unescaped s)
  end.
(** Only the quote, the backslash and the slash follow a backslash. *)
Fixpoint plainly_escaped (s : bytes) : bool :=
  match s with
  | [] => true
  | c :: s =>
      if N.eqb c 92 then match s with e :: s => (N.eqb e 34 || N.eqb e 92 || N.eqb e 47) && plainly_escaped s | [] => false end
      else plainly_escaped s
  end.
(** The text of a CRS as metadata gives it: a JSON string stands for its value, anything else for itself. *)
Definition crs_value (crs : bytes) : option bytes :=
  match crs with
  | c :: s => if N.eqb c 34 then unescaped (removelast s) else Some crs
  | [] => Some []
  end.

(** A CRS that metadata can carry: JSON text of a string or an object, or a text without backslashes that does not begin as
    one of those does. *)
Definition carried_crs (crs : bytes) : Prop :=
  json crs /\ (starts 34 crs || starts 123 crs = true) \/
  ~ In 92%N crs /\ starts 34 crs || starts 123 crs = false.

(** The first n bytes at [out], of which there are at least n, now hold the beginning of [text] and, if there is room, a
    NUL after it; the other bytes are as they were. *)
Definition filled (out : bytes) (n : Z) (text : bytes) (out' : bytes) : Prop :=
  out' = firstn (Z.to_nat n) (text ++ [0%N]) ++ skipn (length (firstn (Z.to_nat n) (text ++ [0%N]))) out.
