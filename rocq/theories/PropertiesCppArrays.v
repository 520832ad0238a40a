(** * Properties of the C++ views of arrays *)
From Verif Require Import Base BaseFacts TypesModel TypesSpec GeomSpec ArrowModel ArrayViewModel NativeSpec SerialSpec
  CppCoordModel CppWkbModel CppWkbSpec CppWkbWitness CppArrayModel CppArraySpec CppArrayInit CppArrayMore CppWkbArrayProofs
  PropertiesArrays.
Local Open Scope Z_scope.

(** ** C41 *)

(** [a] is a valid array of one of the six native types other than boxes, with any offsets, and its elements are [els].
    [v] is a view of its type, used for other arrays before or not. The C++ array of the same nesting whose coordinate
    type [d'] has at most the ordinates of the array can be initialized from the view. Of every slice, VisitVertices
    calls back with the vertices of the elements that are not null, in order, cast to any type [dst]; VisitEdges with
    their edges; is_valid and is_null tell the nulls; and Coords() without nulls has the same vertices. *)
Theorem C41_visits : forall k l d d' v a els, supported k d l -> k <> KBox ->
  view_history (make_type (geometry_kind_code k) (dim_code d) (layout_code l)) v ->
  native_ok k l d a -> contents k l d a els -> (ndim d' <= ndim d)%nat ->
  exists v' arr, set_array v a = Ok v' /\ array_init (coord_size d') (array_depth k) v' = Ok arr /\
    forall o n, (o + n <= length els)%nat ->
      let w := array_slice arr (Z.of_nat o) (Z.of_nat n) in
      (forall dst, array_vertices d' dst (array_depth k) w =
                   Ok (map (fun p => as_dims dst (read_as d' p)) (elements_vertices (window els o n)))) /\
      kind_edges k d' (array_depth k) w = Ok (map (both (fun p => snd (read_as d' p))) (elements_edges (window els o n))) /\
      (forall i e, nth_error (window els o n) i = Some e ->
         array_is_valid w (Z.of_nat i) = Ok (match e with Some _ => true | None => false end) /\
         array_is_null w (Z.of_nat i) = Ok (match e with Some _ => false | None => true end)) /\
      (Forall (fun e => e <> None) (window els o n) -> exists cs, seq_coords (array_depth k) (ca_value w) = Ok cs /\
         forall dst, seq_vertices d' dst 0 cs =
                     Ok (map (fun p => as_dims dst (read_as d' p)) (elements_vertices (window els o n)))).
Proof. exact native_visits. Qed.
Print Assumptions C41_visits.

(** The whole array has as many elements as [els], and the iterator gives each of them its own vertices. *)
Theorem C41_elements : forall k l d d' v a els, supported k d l -> k <> KBox ->
  view_history (make_type (geometry_kind_code k) (dim_code d) (layout_code l)) v ->
  native_ok k l d a -> contents k l d a els -> (ndim d' <= ndim d)%nat ->
  exists v' arr, set_array v a = Ok v' /\ array_init (coord_size d') (array_depth k) v' = Ok arr /\
    seq_length (array_depth k) (ca_value arr) = Z.of_nat (length els) /\
    forall i g, nth_error els i = Some (Some g) -> forall dst,
      item_vertices d' dst (array_depth k) (ca_value arr) (Z.of_nat i) =
      Ok (map (fun p => as_dims dst (read_as d' p)) (geom_coords g)).
Proof. exact native_item. Qed.
Print Assumptions C41_elements.

(** A slice of a slice is a slice. *)
Theorem C41_slices : forall depth (arr : carray (seq_of depth)) o1 n1 o2 n2,
  array_slice (array_slice arr o1 n1) o2 n2 = array_slice arr (o1 + o2) n2.
Proof. exact slice_slice. Qed.
Print Assumptions C41_slices.

(** Init succeeds exactly for the nesting of the view's type and at most its number of ordinates; otherwise it returns
    EINVAL. *)
Theorem C41_init : forall k l d v size depth, supported k d l ->
  view_history (make_type (geometry_kind_code k) (dim_code d) (layout_code l)) v ->
  (depth = array_depth k /\ (size <= array_size k d)%nat -> exists arr, array_init size depth v = Ok arr) /\
  (~ (depth = array_depth k /\ (size <= array_size k d)%nat) -> array_init size depth v = Err EINVAL).
Proof. exact array_init_iff. Qed.
Print Assumptions C41_init.

(** The linestring array of C27_ex, with offsets and a null, read from its second element on. *)
Example C41_ex : native_ok KLinestring Separate XY C27_array /\ contents KLinestring Separate XY C27_array C27_els /\
  exists v v' arr, array_view_init (make_type 2 1 1) = Ok v /\ set_array v C27_array = Ok v' /\
    array_init 2 1 v' = Ok arr /\
    array_vertices XY XYZ 1 arr = Ok [[20; 21; qnan]; [30; 31; qnan]; [40; 41; qnan]]%N /\
    array_vertices XY XY 1 (array_slice arr 1 2) = Ok [[40; 41]]%N /\
    kind_edges KLinestring XY 1 arr = Ok [([20; 21], [30; 31])]%N /\
    array_is_null arr 1 = Ok true /\ array_init 3 1 v' = Err EINVAL /\ array_init 2 2 v' = Err EINVAL.
Proof.
  split; [apply C27_ex|]. split; [apply C27_ex|]. do 3 eexists. repeat (split; [reflexivity|]). reflexivity.
Qed.

(** ** C42 *)

(** An empty box: +infinity below and -infinity above, in all its dimensions. *)
Definition is_empty_box (d : dim) (b : list N) : Prop :=
  box_lower d b = repeat 0x7FF0000000000000%N (ndim d) /\ box_upper d b = repeat 0xFFF0000000000000%N (ndim d).

(** True for XY and XYZM (missing: XYZ and XYM, for which it is false). *)
Theorem C42_partial : is_empty_box XY (box_empty XY) /\ is_empty_box XYZM (box_empty XYZM).
Proof. repeat split; reflexivity. Qed.
Print Assumptions C42_partial.

(** BoxXYZ::Empty() and BoxXYM::Empty() give four of the six bounds: the lower bound of the third dimension is
    -infinity, and the upper bound of y and of the third dimension is 0. *)
Theorem C42_refuted : ~ is_empty_box XYZ (box_empty XYZ) /\ ~ is_empty_box XYM (box_empty XYM) /\
  box_upper XYZ (box_empty XYZ) = [0xFFF0000000000000; 0; 0]%N.
Proof. split; [|split; [|reflexivity]]; intros (H & _); discriminate H. Qed.
Print Assumptions C42_refuted.

(** ** C54 *)

(** For box arrays of every dimensionality, their slices, LowerBound() and UpperBound() have the length of the slice,
    the validity of its elements, and as coordinates the lower and the upper bounds of its boxes, which are also those
    of the boxes that the array itself gives. *)
Theorem C54_bounds : forall d v a, view_history (make_type 990 (dim_code d) 1) v -> native_ok KBox Separate d a ->
  exists v' arr, set_array v a = Ok v' /\ array_init (array_size KBox d) (array_depth KBox) v' = Ok arr /\
    forall o n, 0 <= o -> 0 <= n -> o + n <= aa_length a ->
      let w := array_slice arr o n in
      seq_length 0 (ca_value w) = n /\
      seq_length 0 (ca_value (lower_bound d w)) = n /\ seq_length 0 (ca_value (upper_bound d w)) = n /\
      forall i, 0 <= i < n -> exists lo hi, box_bounds_at d a (o + i) lo hi /\
        cseq_coord (ca_value (lower_bound d w)) i = Ok lo /\ cseq_coord (ca_value (upper_bound d w)) i = Ok hi /\
        (exists box, cseq_coord (ca_value w) i = Ok box /\ box_lower d box = lo /\ box_upper d box = hi) /\
        exists b, valid_at a (o + i) = Some b /\ array_is_valid w i = Ok b /\
          array_is_valid (lower_bound d w) i = Ok b /\ array_is_valid (upper_bound d w) i = Ok b.
Proof. exact box_array_ok. Qed.
Print Assumptions C54_bounds.

Definition C54_array : arrow_array :=
  ArrowArray 2 1 1 [Some [3%N]] (map (fun ws => C27_doubles ws 0) [[0; 1; 2]; [0; 3; 4]; [0; 5; 6]; [0; 7; 8]; [0; 9; 10]; [0; 11; 12]]%N).
Example C54_ex : native_ok KBox Separate XYM C54_array /\
  exists v v' arr, array_view_init (make_type 990 (dim_code XYM) 1) = Ok v /\ set_array v C54_array = Ok v' /\
    array_init (array_size KBox XYM) (array_depth KBox) v' = Ok arr /\
    cseq_coord (ca_value (lower_bound XYM (array_slice arr 0 2))) 0 = Ok [1; 3; 5]%N /\
    cseq_coord (ca_value (upper_bound XYM (array_slice arr 1 1))) 0 = Ok [8; 10; 12]%N /\
    array_is_valid (upper_bound XYM arr) 0 = Ok true /\ array_is_valid (lower_bound XYM arr) 1 = Ok false.
Proof.
  split.
  - split; [vm_compute; discriminate|]. split; [vm_compute; discriminate|]. split; [vm_compute; discriminate|]. split; [reflexivity|]. split; [reflexivity|].
    repeat (apply Forall_cons || apply Forall_nil); (split; [vm_compute; discriminate|]; split; [vm_compute; discriminate|]);
      eexists _, _; (split; [reflexivity|vm_compute; discriminate]).
  - do 3 eexists. repeat (split; [reflexivity|]). reflexivity.
Qed.

(** ** C55 *)

(** A sequence over memory with one coordinate every [stride] doubles: every slice has those coordinates. A null pointer
    is accepted only for no coordinates. *)
Theorem C55_interleaved : forall d b n stride, exists s, init_interleaved (coord_size d) n (RPtr b 0) stride = Ok s /\
  seq_length 0 s = n /\
  forall o m i c, length c = ndim d ->
    (forall j w, nth_error c j = Some w -> double_at b ((o + i) * stride + Z.of_nat j) = Some w) ->
    cseq_coord (seq_slice 0 s o m) i = Ok c.
Proof. exact interleaved_ok. Qed.
Print Assumptions C55_interleaved.

Theorem C55_null : forall d n stride, init_interleaved (coord_size d) n RNull stride =
  if n =? 0 then Ok (CSeq 0 0 (repeat RNull (coord_size d)) stride) else Err EINVAL.
Proof. exact interleaved_null. Qed.
Print Assumptions C55_null.

(** A sequence over one block of memory for each dimension. *)
Theorem C55_separated : forall bs n stride o m i c, length c = length bs ->
  (forall j b w, nth_error bs j = Some b -> nth_error c j = Some w -> double_at b ((o + i) * stride) = Some w) ->
  seq_length 0 (init_separated n (map (fun b => RPtr b 0) bs) stride) = n /\
  cseq_coord (seq_slice 0 (init_separated n (map (fun b => RPtr b 0) bs) stride) o m) i = Ok c.
Proof. exact separated_ok. Qed.
Print Assumptions C55_separated.

(** The iterators over dimension [j] of any sequence: moved by [i], the first one gives ordinate [j] of coordinate [i];
    moved by the length it is the last one; moving is additive, and ++ moves by one; the difference of two iterators
    is the number of coordinates between them, and they are equal exactly at the same coordinate. Missing: operator[]. *)
Theorem C55_iterators_partial : forall (s : cseq) j, (j < length (cs_values s))%nat ->
  exists b e, dbegin s j = Ok b /\ dend s j = Ok e /\
  it_add b (cs_length s) = e /\
  (cs_stride s <> 0 -> it_sub e b = Ok (cs_length s) /\
     forall m n, it_sub (it_add b m) (it_add b n) = Ok (m - n) /\ it_eqb (it_add b m) (it_add b n) = (m =? n)) /\
  (forall n, Nat.iter n it_next b = it_add b (Z.of_nat n)) /\ (forall m n, it_add (it_add b m) n = it_add b (m + n)) /\
  forall i c w, cseq_coord s i = Ok c -> nth_error c j = Some w -> it_deref (it_add b i) = Ok w.
Proof. exact dimension_ok. Qed.
Print Assumptions C55_iterators_partial.

(** operator[] gives ordinate [j] of coordinate [i] when the stride is 1 ... *)
Theorem C55_index_partial : forall (s : cseq) j, (j < length (cs_values s))%nat -> cs_stride s = 1 ->
  exists b, dbegin s j = Ok b /\
  forall i c w, cseq_coord s i = Ok c -> nth_error c j = Some w -> it_at b i = Ok w.
Proof. exact dimension_at_one. Qed.
Print Assumptions C55_index_partial.

(** ... and something else when it is not: dbegin(0)[1] of the interleaved coordinates (1, 2) and (3, 4) is 2. *)
Definition C55_memory : bytes := flat_map (le_bytes 8) [1; 2; 3; 4]%N.
Theorem C55_index_refuted : exists s b, init_interleaved (coord_size XY) 2 (RPtr C55_memory 0) 2 = Ok s /\
  cseq_coord s 1 = Ok [3; 4]%N /\ dbegin s 0 = Ok b /\ it_deref (it_add b 1) = Ok 3%N /\ it_at b 1 = Ok 2%N.
Proof. do 2 eexists. repeat (split; [reflexivity|]). reflexivity. Qed.
Print Assumptions C55_index_refuted.

Example C55_ex : (forall j w, nth_error [3; 4]%N j = Some w -> double_at C55_memory ((0 + 1) * 2 + Z.of_nat j) = Some w) /\
  (forall j b w, nth_error [C55_memory; C55_memory] j = Some b -> nth_error [2; 2]%N j = Some w ->
     double_at b ((1 + 0) * 1) = Some w).
Proof.
  split.
  - intros [|[|j]] w Hw; cbn in Hw; try (destruct j; discriminate); injection Hw as <-; reflexivity.
  - intros [|[|j]] b w Hb Hw; cbn in Hb, Hw; try (destruct j; discriminate); injection Hw as <-; injection Hb as <-; reflexivity.
Qed.

(** ** C56 *)

(** The elements of a WKB array are null or the encodings of [ts]. Over any slice, VisitVertices and VisitEdges call
    back with the vertices and the edges of the geometries, in order. *)
Theorem C56_visits : forall v a els ts o n, av_type v = TYPE_WKB -> serial_ok Offsets32 a -> serial_contents Offsets32 a els ->
  Forall2 denotes_tree els ts -> (o + n <= length ts)%nat ->
  exists v', set_array v a = Ok v' /\
    let w := wkb_array_slice (wkb_array_init v') (Z.of_nat o) (Z.of_nat n) in
    (forall dst, wkb_array_vertices dst w = Ok (map (as_dims dst) (trees_vertices (window ts o n)))) /\
    (forall dst, wkb_array_edges dst w = Ok (map (both (as_dims dst)) (trees_edges (window ts o n)))).
Proof. exact wkb_array_trees. Qed.
Print Assumptions C56_visits.

(** If an element of the slice that is not null is not an encoding, an exception is thrown. *)
Theorem C56_throws : forall v a els o n b, av_type v = TYPE_WKB -> serial_ok Offsets32 a -> serial_contents Offsets32 a els ->
  (forall b, In (Some b) els -> wf_bytes b) -> (o + n <= length els)%nat ->
  In (Some b) (window els o n) -> (~ exists t, tree_ok t /\ tree_bytes t = b) ->
  exists v', set_array v a = Ok v' /\
    let w := wkb_array_slice (wkb_array_init v') (Z.of_nat o) (Z.of_nat n) in
    forall dst, wkb_array_vertices dst w = Err THROWN /\ wkb_array_edges dst w = Err THROWN.
Proof. exact wkb_array_throws. Qed.
Print Assumptions C56_throws.

(** An array of an encoding of 87 bytes, a null and a text that is no encoding. *)
Definition C56_array : arrow_array :=
  ArrowArray 3 0 1 [Some [5%N]; Some (flat_map (le_bytes 4) [0; 87; 87; 92]%N); Some (tree_bytes sample ++ [2; 0; 0; 0; 0]%N)] [].
Definition C56_els : list (option bytes) := [Some (tree_bytes sample); None; Some [2; 0; 0; 0; 0]%N].
Example C56_ex : serial_ok Offsets32 C56_array /\ serial_contents Offsets32 C56_array C56_els /\
  Forall2 denotes_tree (firstn 2 C56_els) [Some sample; None] /\
  (forall b, In (Some b) C56_els -> wf_bytes b) /\ (~ exists t, tree_ok t /\ tree_bytes t = [2; 0; 0; 0; 0]%N) /\
  exists v v', array_view_init TYPE_WKB = Ok v /\ set_array v C56_array = Ok v' /\
    wkb_array_vertices XY (wkb_array_slice (wkb_array_init v') 0 2) = Ok [[1; 2]; [4; 5]; [6; 7]]%N /\
    wkb_array_edges XY (wkb_array_init v') = Err THROWN.
Proof.
  split; [|split; [|split; [|split; [|split]]]].
  - split; [vm_compute; discriminate|]. split; [vm_compute; discriminate|]. split; [reflexivity|]. split; [reflexivity|].
    do 3 eexists. split; [reflexivity|]. split; [discriminate|].
    split; [|reflexivity]. apply Forall_forall. intros x Hx. vm_compute in Hx.
    repeat (destruct Hx as [<-|Hx]; [reflexivity|]). destruct Hx.
  - split; [reflexivity|]. intros [|[|[|i]]] e He; cbn [nth_error C56_els] in He; try (destruct i; discriminate); injection He as <-.
    + split; [reflexivity|]. eexists. split; [reflexivity|]. exists (nth 2 (aa_buffers C56_array) None), 0.
      split; [|split; [|split]]; vm_compute; reflexivity.
    + reflexivity.
    + split; [reflexivity|]. eexists. split; [reflexivity|]. exists (nth 2 (aa_buffers C56_array) None), 87.
      split; [|split; [|split]]; vm_compute; reflexivity.
  - constructor; [split; [exact sample_ok|reflexivity]|]. constructor; [exact I|constructor].
  - intros b [H|[H|[H|[]]]]; try discriminate; injection H as <-; apply Forall_forall; intros x Hx; vm_compute in Hx;
      repeat (destruct Hx as [<-|Hx]; [reflexivity|]); destruct Hx.
  - intros (t & _ & E). destruct t as [[[] w s]|[[] w s]|[[] w s]|[[] w s]]; discriminate E.
  - do 2 eexists. split; [reflexivity|]. split; [reflexivity|]. split; vm_compute; reflexivity.
Qed.
