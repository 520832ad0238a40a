(** * C31 to C35 and C51: extension metadata *)
From Verif Require Import Base Text MetadataModel MetadataSpec MetadataProofs MetadataReading MetadataMeaning MetadataTotal MetadataWriting MetadataReread.
Local Open Scope Z_scope.

(** In all of these, [past] is the byte that follows the metadata in memory, if there is one that can be read, and [fuel]
    bounds the number of turns of the loops of the reader. *)

(** ** C31 *)

(** For every edge type and every type of CRS: the text that is written has the announced size, nothing else is written, and
    reading it gives the same edge type, CRS type and CRS. Missing: a CRS that is neither JSON text nor free of backslashes,
    for which the claim is false. *)
Theorem C31_round_trip_partial : forall m, 0 <= m_edges m <= 5 -> 0 <= m_crs_type m <= 5 ->
  (m_crs_type m = CRS_NONE \/ carried_crs (m_crs m)) ->
  exists text,
    (forall out n, n <= Z.of_nat (length out) -> exists out',
      serialize m out n = Ok (Z.of_nat (length text), out') /\
      if Z.of_nat (length text) <=? n then filled out n text out' else out' = out) /\
    (forall past fuel, (length text < fuel)%nat -> exists crs,
      metadata_view_init past fuel text = Ok (Metadata (m_edges m) (m_crs_type m) crs) /\
      (m_crs_type m <> CRS_NONE ->
         if starts 34 (m_crs m) || starts 123 (m_crs m) then crs = m_crs m
         else forall o k, 0 <= k <= Z.of_nat (length o) ->
                exists o', unescape_crs crs (Some o) k = Ok (Z.of_nat (length (m_crs m)), Some o') /\ filled o k (m_crs m) o')).
Proof. intros m H1 H2 H3. exists (serialized m). exact (serialized_round_trips m (conj H1 H2) H3). Qed.
Print Assumptions C31_round_trip_partial.

Example C31_round_trip_ex : carried_crs $"EPSG:""4326""" /\ carried_crs $"""OGC:\nCRS84""" /\ carried_crs $"{""a"": [1, {}]}" /\ carried_crs [].
Proof.
  split; [right|split; [left|split; [left|right]]].
  - split; [vm_compute; intuition discriminate | reflexivity].
  - split; [|reflexivity]. apply json_str. exists $"OGC:\nCRS84". split; [|reflexivity].
    repeat (apply chars_plain; [discriminate | discriminate |]). apply chars_escape.
    repeat (apply chars_plain; [discriminate | discriminate |]). apply chars_nil.
  - split; [|reflexivity].
    refine (json_object [($"""a""", $"[1, {}]")] $"""a"": [1, {}]" _).
    refine (json_member [] $"""a""" [] [32%N] $"[1, {}]" [] _ _ _ _ _ _); try apply Forall_nil; try (apply Forall_cons; [left; reflexivity | apply Forall_nil]).
    + exists $"a". split; [repeat constructor; discriminate | reflexivity].
    + refine (json_array $"1, {}" _).
      refine (json_item_more [] $"1" [] $" {}" _ _ _ _); try apply Forall_nil; try (apply Forall_cons; [left; reflexivity | apply Forall_nil]).
      * apply json_num. exists 49%N, []. split; [reflexivity|]. split; [vm_compute; tauto | constructor].
      * refine (json_item [32%N] $"{}" [] _ _ _); try apply Forall_nil; try (apply Forall_cons; [left; reflexivity | apply Forall_nil]). refine (json_object_empty [] _). constructor.
  - split; [intros [] | reflexivity].
Qed.

(** Whatever was read, from any text: writing it and reading that again gives the same, but for a CRS that does not count because
    its type is none. *)
Theorem C31_reread : forall past fuel b m, metadata_view_init past fuel b = Ok m -> exists text,
  (forall out n, n <= Z.of_nat (length out) -> exists out',
    serialize m out n = Ok (Z.of_nat (length text), out') /\
    if Z.of_nat (length text) <=? n then filled out n text out' else out' = out) /\
  (forall past fuel, (length text < fuel)%nat ->
    metadata_view_init past fuel text = Ok (Metadata (m_edges m) (m_crs_type m) (if m_crs_type m =? CRS_NONE then [] else m_crs m))).
Proof. exact reread. Qed.
Print Assumptions C31_reread.
Example C31_reread_ex : metadata_view_init (Some 0%N) 60 $"{ ""crs"" : ""a\\bA"" , ""edges"":""karney""}" = Ok (Metadata EDGE_KARNEY CRS_UNKNOWN $"""a\\bA""").
Proof. vm_compute. reflexivity. Qed.

(** With a backslash in a CRS that is not JSON, the announced size is larger than what is written, and what is returned
    cannot be read. *)
Theorem C31_refuted : exists m out size out', 0 <= m_edges m <= 5 /\ 0 <= m_crs_type m <= 5 /\
  length out = 64%nat /\ serialize m out 64 = Ok (size, out') /\
  metadata_view_init (Some 0%N) 65 (firstn (Z.to_nat size) out') = Err EINVAL.
Proof. destruct backslash_not_read_back as (m & out & size & out' & [H1 H2] & H3 & H4 & H5). exists m, out, size, out'. auto. Qed.
Print Assumptions C31_refuted.

(** ** C32 *)

(** A NUL byte inside an array (or object) makes the reader loop forever. *)
Theorem C32_refuted : exists b, forall past fuel, metadata_view_init past fuel b = NoFuel.
Proof. exists ($"{""a"":[" ++ [0%N]). exact nul_in_array. Qed.
Print Assumptions C32_refuted.

(** Without NUL bytes, it always returns, after no more turns than there are bytes. *)
Theorem C32_partial : forall past b fuel, Forall (fun c => c <> 0%N) b -> (length b < fuel)%nat ->
  metadata_view_init past fuel b <> NoFuel.
Proof. intros past b fuel. exact (view_init_terminates past fuel b). Qed.
Print Assumptions C32_partial.

Example C32_ex : Forall (fun c => c <> 0%N) $"{""a"":[[{""b"": [" /\ metadata_view_init (Some 0%N) 20 $"{""a"":[[{""b"": [" = Err EINVAL.
Proof. split; [repeat constructor; discriminate | vm_compute; reflexivity]. Qed.

(** ** C33 *)

(** The byte after the end is read, whether or not there is one. *)
Theorem C33_refuted : exists b, forall fuel, (length b < fuel)%nat -> metadata_view_init None fuel b = UB.
Proof. exists $"{""a"":". intros [|fuel] H; [cbn in H; lia|]. reflexivity. Qed.
Print Assumptions C33_refuted.

(** No more than that byte is read; it has no influence on the result; and it is not read if the text is accepted. *)
Theorem C33_partial : forall b fuel c,
  metadata_view_init (Some c) fuel b <> UB /\
  (forall c', metadata_view_init (Some c) fuel b = metadata_view_init (Some c') fuel b) /\
  (forall m, (length b < fuel)%nat -> metadata_view_init (Some c) fuel b = Ok m -> metadata_view_init None fuel b = Ok m).
Proof.
  intros b fuel c. split; [apply view_init_no_ub|]. split.
  - intros c'. rewrite (view_init_some c), (view_init_some c'). reflexivity.
  - intros m. apply view_init_inside.
Qed.
Print Assumptions C33_partial.

Example C33_ex : metadata_view_init (Some 34%N) 30 $"{""edges"":" = Err EINVAL /\
  metadata_view_init None 30 $"{""edges"": ""karney""}" = Ok (Metadata EDGE_KARNEY CRS_NONE []).
Proof. split; vm_compute; reflexivity. Qed.

(** ** C51: JSON objects are read as what they say *)

(** Every JSON object with distinct names is read as the metadata that it describes, and is refused exactly when it does not
    describe any. Missing: a crs_type that is not one of the documented names but has the length of one. *)
Theorem C51_json_partial : forall past fuel ms b, json_document ms b -> NoDup (map fst ms) -> plain_crs_type ms -> (length b < fuel)%nat ->
  metadata_view_init past fuel b = match described ms with Some m => Ok m | None => Err EINVAL end.
Proof. exact view_init_json. Qed.
Print Assumptions C51_json_partial.

Example C51_json_ex : exists ms b m, json_document ms b /\ NoDup (map fst ms) /\ plain_crs_type ms /\ described ms = Some m /\
  b = $"{ ""crs_type"" : ""srid"", ""edges"":""vincenty"" ,""crs"":""4326""}" /\ m = Metadata EDGE_VINCENTY CRS_SRID $"""4326""".
Proof.
  exists [(quoted $"crs_type", quoted $"srid"); (quoted $"edges", quoted $"vincenty"); (quoted $"crs", quoted $"4326")].
  exists $"{ ""crs_type"" : ""srid"", ""edges"":""vincenty"" ,""crs"":""4326""}". eexists.
  split; [|split; [|split; [|split; [|split; [reflexivity|]]]]].
  - exists [], [], $" ""crs_type"" : ""srid"", ""edges"":""vincenty"" ,""crs"":""4326""".
    split; [constructor|]. split; [constructor|]. split; [reflexivity|]. right.
    refine (json_member_more [32%N] (quoted $"crs_type") [32%N] [32%N] (quoted $"srid") [] _ _ _ _ _ _ _ _ _);
      try apply Forall_nil; try (apply Forall_cons; [left; reflexivity | apply Forall_nil]); try apply json_str; try (apply text_const; reflexivity).
    refine (json_member_more [32%N] (quoted $"edges") [] [] (quoted $"vincenty") [32%N] _ _ _ _ _ _ _ _ _);
      try apply Forall_nil; try (apply Forall_cons; [left; reflexivity | apply Forall_nil]); try apply json_str; try (apply text_const; reflexivity).
    refine (json_member [] (quoted $"crs") [] [] (quoted $"4326") [] _ _ _ _ _ _);
      try apply Forall_nil; try (apply Forall_cons; [left; reflexivity | apply Forall_nil]); try apply json_str; try (apply text_const; reflexivity).
  - repeat (apply NoDup_cons; [vm_compute; intuition discriminate|]). apply NoDup_nil.
  - intros v Hv _. vm_compute in Hv. injection Hv as <-. left. vm_compute. discriminate.
  - vm_compute. reflexivity.
  - reflexivity.
Qed.

(** Every text that is accepted is of this looser form (or empty), and it is read as what its members describe. *)
Theorem C51_accepted_partial : forall past fuel b m, metadata_view_init past fuel b = Ok m ->
  b = [] /\ m = Metadata EDGE_PLANAR CRS_NONE [] \/
  exists ms, loose_document ms b /\ (NoDup (map fst ms) -> plain_crs_type ms -> described ms = Some m).
Proof. exact view_init_accepted. Qed.
Print Assumptions C51_accepted_partial.

(** The looser form is not JSON: a comma may follow the last member. *)
Theorem C51_refuted : exists b m, metadata_view_init None 20 b = Ok m /\ forall ms, ~ json_document ms b.
Proof. exact trailing_comma_accepted. Qed.
Print Assumptions C51_refuted.

(** ** C34 *)

(** In every text that is accepted, each "edges" member is one of the six documented names or null, and the result is what the
    last of them says. (That each documented name is read as such is part of C51_json_partial.) *)
Theorem C34_edges : forall past fuel b m, metadata_view_init past fuel b = Ok m -> b <> [] ->
  exists ms, loose_document ms b /\
    Forall (fun kv => fst kv = quoted $"edges" -> edges_said (Some (snd kv)) <> None) ms /\
    Some (m_edges m) = edges_said (lookup $"edges" (rev ms)).
Proof. exact view_init_edges. Qed.
Print Assumptions C34_edges.

Example C34_edges_ex : metadata_view_init None 60 $"{""edges"":""thomas"",""edges"": null,""edges"" : ""andoyer""}" = Ok (Metadata EDGE_ANDOYER CRS_NONE []).
Proof. vm_compute. reflexivity. Qed.

(** The four documented names of crs_type are read as such, for every CRS; every other string that does not have the length of
    one of them is read as an unknown type, and everything that is not a string is refused. *)
Theorem C34_crs_type_partial : forall past fuel v crs b,
  json_document [(quoted $"crs", crs); (quoted $"crs_type", v)] b \/ json_document [(quoted $"crs_type", v); (quoted $"crs", crs)] b ->
  starts 34 crs || starts 123 crs = true -> accepted_value v = true -> (length b < fuel)%nat ->
  (starts 34 v = true -> meaning_of crs_type_names v <> None \/ forall n t, In (n, t) crs_type_names -> length v <> length (quoted n)) ->
  metadata_view_init past fuel b =
    if starts 34 v then Ok (Metadata EDGE_PLANAR (match meaning_of crs_type_names v with Some t => t | None => CRS_UNKNOWN end) crs)
    else Err EINVAL.
Proof. exact view_init_crs_type. Qed.
Print Assumptions C34_crs_type_partial.

Example C34_crs_type_ex : forall n t, In (n, t) crs_type_names ->
  metadata_view_init None 60 ($"{""crs"":""x"",""crs_type"":" ++ quoted n ++ $"}") = Ok (Metadata EDGE_PLANAR t $"""x""").
Proof. intros n t [[= <- <-]|[[= <- <-]|[[= <- <-]|[[= <- <-]|[]]]]]; vm_compute; reflexivity. Qed.

(** Any string as long as a documented name is read as that type. *)
Theorem C34_crs_type_refuted :
  metadata_view_init None 60 $"{""crs"":""x"",""crs_type"":""none""}" = Ok (Metadata EDGE_PLANAR CRS_SRID $"""x""") /\
  meaning_of crs_type_names (quoted $"none") = None.
Proof. split; vm_compute; reflexivity. Qed.
Print Assumptions C34_crs_type_refuted.

(** ** C35 *)

(** For every CRS there is one text: whatever the size of the buffer, at most that many bytes are written, they are the
    beginning of the text (and a NUL, if there is room), and the size of the text is returned. *)
Theorem C35_bounds : forall crs, exists text,
  (forall o n, 0 <= n <= Z.of_nat (length o) ->
    exists o', unescape_crs crs (Some o) n = Ok (Z.of_nat (length text), Some o') /\ filled o n text o') /\
  unescape_crs crs None 0 = Ok (Z.of_nat (length text), None).
Proof. intros crs. exists (unescape_text crs). split; [exact (unescape_fills crs) | exact (unescape_null crs)]. Qed.
Print Assumptions C35_bounds.

(** That text is the value of the JSON string, or the CRS itself if it is not a string. Missing: escapes other than those of the
    quote, the backslash and the slash, for which this is false. *)
Theorem C35_value_partial : forall crs t o n, crs_value crs = Some t ->
  (starts 34 crs = true -> json_string crs) -> (forall s, crs = quoted s -> plainly_escaped s = true) ->
  0 <= n <= Z.of_nat (length o) ->
  exists o', unescape_crs crs (Some o) n = Ok (Z.of_nat (length t), Some o') /\ filled o n t o'.
Proof. exact unescape_fills_value. Qed.
Print Assumptions C35_value_partial.

Example C35_value_ex : crs_value $"""a\""b\\c""" = Some $"a""b\c" /\ json_string $"""a\""b\\c""" /\
  (forall s, $"""a\""b\\c""" = quoted s -> plainly_escaped s = true) /\ crs_value $"EPSG:4326" = Some $"EPSG:4326".
Proof.
  split; [vm_compute; reflexivity|]. split; [|split; [|vm_compute; reflexivity]].
  - exists $"a\""b\\c". split; [|reflexivity]. apply chars_plain; [discriminate..|]. apply chars_escape. apply chars_plain; [discriminate..|].
    apply chars_escape. apply chars_plain; [discriminate..|]. apply chars_nil.
  - intros s E. apply (f_equal (fun l => removelast (tl l))) in E. change (tl (quoted s)) with (s ++ [34%N]) in E.
    rewrite removelast_last in E. subst s. vm_compute. reflexivity.
Qed.

(** The escape of a newline is read as the letter n. *)
Theorem C35_value_refuted : exists crs t, json_string crs /\ crs_value crs = Some t /\
  unescape_crs crs (Some (repeat 0%N 8)) 8 <> Ok (Z.of_nat (length t), Some (t ++ repeat 0%N (8 - length t))).
Proof.
  exists $"""a\n""", [97%N; 10%N]. split; [|split; [vm_compute; reflexivity | vm_compute; discriminate]].
  exists $"a\n". split; [|reflexivity]. apply chars_plain; [discriminate..|]. apply chars_escape. apply chars_nil.
Qed.
Print Assumptions C35_value_refuted.
