(** * Properties of the messages of C++ exceptions *)
From Verif Require Import Base BaseFacts Text TypesModel TypesSpec GeomSpec ArrowModel ArrayViewModel NativeSpec SerialSpec CppCoordModel
  CppWkbModel CppWkbSpec CppWkbWitness CppArrayModel CppArraySpec WktErrorModel WktErrorSpec CppErrorModel CppErrorSpec CppErrorProofs PropertiesCppArrays.
Local Open Scope Z_scope.

(** ** C80 *)

(** GEOARROW_THROW_NOT_OK around a call that returned [code]: nothing is thrown exactly for 0. Otherwise the exception has the code, and its
    message names the call and the code in decimal digits, and ends with the text of the error, if there is an error. *)
Theorem C80_errno : forall error call code shown,
  match error with None => shown = [] | Some memory => exists text, is_c_string memory text /\ shown = $": " ++ [10%N] ++ text end ->
  match throw_not_ok error call code with
  | Ok None => code = 0
  | Ok (Some (c, what)) => code <> 0 /\ c = code /\
      exists n, decimal_of (Z.abs_N code) n /\ what = call ++ $" failed with errno " ++ (if code <? 0 then $"-" else []) ++ n ++ shown
  | _ => False
  end.
Proof. exact thrown. Qed.
Print Assumptions C80_errno.

(** If the text was left by GeoArrowErrorSet, its first 1023 bytes are shown. With the empty text: as it is when nothing was set, because all
    callers give an error that is zero. *)
Theorem C80_text : forall text call code, ~ In 0%N text -> code <> 0 ->
  exists n, decimal_of (Z.abs_N code) n /\
    throw_not_ok (Some (snd (error_set text))) call code =
      Ok (Some (code, call ++ $" failed with errno " ++ (if code <? 0 then $"-" else []) ++ n ++ $": " ++ [10%N] ++ firstn 1023 text)).
Proof. exact thrown_text. Qed.
Print Assumptions C80_text.

Example C80_text_ex : snd (error_set []) = repeat 0%N 1024 /\ ~ In 0%N $"Expected valid GeoArrow JSON metadata" /\
  throw_not_ok (Some (snd (error_set $"no"))) $"f(x)" 75 = Ok (Some (75, $"f(x) failed with errno 75: " ++ [10%N] ++ $"no")).
Proof.
  split; [reflexivity|]. split; [|vm_compute; reflexivity]. intros H. vm_compute in H. repeat (destruct H as [H|H]; [discriminate H|]). destruct H.
Qed.

Example C80_errno_ex : is_c_string ($"oops" ++ [0; 7]%N) $"oops" /\
  throw_not_ok (Some ($"oops" ++ [0; 7]%N)) $"f(x)" 22 = Ok (Some (22, $"f(x) failed with errno 22: " ++ [10%N] ++ $"oops")) /\
  throw_not_ok None $"f(x)" (-5) = Ok (Some (-5, $"f(x) failed with errno -5")) /\ throw_not_ok None $"f(x)" 0 = Ok None.
Proof.
  split; [|repeat split; reflexivity]. split; [|exists [7%N]; reflexivity]. intros H. vm_compute in H.
  repeat (destruct H as [H|H]; [discriminate H|]). destruct H.
Qed.

(** The first element of a slice of a WKB array that is neither null nor an encoding is [b]. VisitVertices calls back with the vertices of
    the elements before it, and then throws. The message has the index of the element in the slice, and names an error that is true of [b].
    *)
Theorem C80_vertices : forall v a els ts o n b rest good, av_type v = TYPE_WKB -> serial_ok Offsets32 a -> serial_contents Offsets32 a els ->
  (forall b, In (Some b) els -> wf_bytes b) -> (o + n <= length els)%nat ->
  window els o n = good ++ Some b :: rest -> Forall2 denotes_tree good ts -> (~ exists t, tree_ok t /\ tree_bytes t = b) ->
  exists v', set_array v a = Ok v' /\
    let w := wkb_array_slice (wkb_array_init v') (Z.of_nat o) (Z.of_nat n) in
    forall dst, exists index reason, decimal_of (N.of_nat (length good)) index /\ wkb_defect b reason /\
      wkb_vertices_told dst w = Ok (map (as_dims dst) (trees_vertices ts),
                                    Some ($"Failed to parse WKB at index " ++ index ++ $" with error " ++ reason)).
Proof. exact wkb_bad_told. Qed.
Print Assumptions C80_vertices.

(** The same for VisitEdges. *)
Theorem C80_edges : forall v a els ts o n b rest good, av_type v = TYPE_WKB -> serial_ok Offsets32 a -> serial_contents Offsets32 a els ->
  (forall b, In (Some b) els -> wf_bytes b) -> (o + n <= length els)%nat ->
  window els o n = good ++ Some b :: rest -> Forall2 denotes_tree good ts -> (~ exists t, tree_ok t /\ tree_bytes t = b) ->
  exists v', set_array v a = Ok v' /\
    let w := wkb_array_slice (wkb_array_init v') (Z.of_nat o) (Z.of_nat n) in
    forall dst, exists index reason, decimal_of (N.of_nat (length good)) index /\ wkb_defect b reason /\
      wkb_edges_told dst w = Ok (map (both (as_dims dst)) (trees_edges ts),
                                 Some ($"Failed to parse WKB at index " ++ index ++ $" with error " ++ reason)).
Proof. exact wkb_bad_edges_told. Qed.
Print Assumptions C80_edges.

(** If all elements of the slice are null or encodings, nothing is thrown. *)
Theorem C80_good : forall v a els ts o n, av_type v = TYPE_WKB -> serial_ok Offsets32 a -> serial_contents Offsets32 a els ->
  (forall b, In (Some b) els -> wf_bytes b) -> (o + n <= length els)%nat -> Forall2 denotes_tree (window els o n) ts ->
  exists v', set_array v a = Ok v' /\
    let w := wkb_array_slice (wkb_array_init v') (Z.of_nat o) (Z.of_nat n) in
    forall dst, wkb_vertices_told dst w = Ok (map (as_dims dst) (trees_vertices ts), None) /\
      wkb_edges_told dst w = Ok (map (both (as_dims dst)) (trees_edges ts), None).
Proof. exact wkb_good_told. Qed.
Print Assumptions C80_good.

(** The array of C56_ex, whose third element has a byte order that does not exist; in a slice from its second element on the index is 1. *)
Example C80_ex : window C56_els 0 3 = [Some (tree_bytes sample); None] ++ Some [2; 0; 0; 0; 0]%N :: [] /\
  Forall2 denotes_tree [Some (tree_bytes sample); None] [Some sample; None] /\
  exists v v', array_view_init TYPE_WKB = Ok v /\ av_type v = TYPE_WKB /\ set_array v C56_array = Ok v' /\
    wkb_vertices_told XY (wkb_array_init v') =
      Ok ([[1; 2]; [4; 5]; [6; 7]]%N, Some $"Failed to parse WKB at index 2 with error INVALID_ENDIAN") /\
    wkb_edges_told XY (wkb_array_slice (wkb_array_init v') 1 2) = Ok ([], Some $"Failed to parse WKB at index 1 with error INVALID_ENDIAN") /\
    wkb_vertices_told XY (wkb_array_slice (wkb_array_init v') 0 2) = Ok ([[1; 2]; [4; 5]; [6; 7]]%N, None).
Proof.
  split; [reflexivity|]. split; [apply C56_ex|]. do 2 eexists. split; [reflexivity|]. split; [reflexivity|]. split; [reflexivity|].
  repeat split; vm_compute; reflexivity.
Qed.

(** The other errors: a geometry type that does not exist, too few and too many bytes. *)
Definition C80_one (b : bytes) : arrow_array :=
  ArrowArray 1 0 0 [None; Some (flat_map (le_bytes 4) [0; N.of_nat (length b)]%N); Some b] [].
Definition C80_told (b : bytes) : outcome (list coord * option bytes) :=
  do v <- array_view_init TYPE_WKB; do v' <- set_array v (C80_one b); wkb_vertices_told XY (wkb_array_init v').
Example C80_names_ex :
  C80_told [1; 8; 0; 0; 0]%N = Ok ([], Some $"Failed to parse WKB at index 0 with error INVALID_GEOMETRY_TYPE") /\
  C80_told [1; 1; 0; 0; 0; 0]%N = Ok ([], Some $"Failed to parse WKB at index 0 with error TOO_FEW_BYTES") /\
  C80_told (tree_bytes sample ++ [0%N]) = Ok ([], Some $"Failed to parse WKB at index 0 with error TOO_MANY_BYTES").
Proof. repeat split; vm_compute; reflexivity. Qed.
