(** * C27, C28, C29, C43 and C17 (native arrays): bitmaps and native array views *)
From Verif Require Import Base BaseFacts TypesModel GeomSpec VisitorModel VisitorSpec VisitorFacts BufferModel ArrowModel
  BitmapModel BitmapSpec BitmapProofs FloatSpec ArrayViewModel NativeSpec NativeProofs NativeVisitProofs NativeShapeProofs.
Local Open Scope Z_scope.

(** ** C43 *)

(** Setting a range of bits sets exactly those. *)
Theorem C43_set_range : forall m start n v, 0 <= start -> 0 <= n -> start + n <= 8 * Z.of_nat (length m) ->
  exists m', bits_set_to m start n v = Ok m' /\ length m' = length m /\
  forall j, 0 <= j -> bit_of m' j = if (start <=? j) && (j <? start + n) then Some v else bit_of m j.
Proof. exact bits_set_to_ok. Qed.
Print Assumptions C43_set_range.

(** Reading gives the bit, and is undefined exactly outside the bitmap. *)
Theorem C43_get : forall m i, bit_get m i = match bit_of m i with Some b => Ok b | None => UB end.
Proof. exact bit_get_iff. Qed.
Print Assumptions C43_get.

(** After any history of appends, whatever fresh memory contains, the bitmap holds the appended bits and has their size. *)
Theorem C43_appends : forall junk runs, Forall (fun r => 0 <= snd r) runs ->
  exists bm, bitmap_appends junk bitmap_init runs = Ok bm /\
    bm_bits bm = Z.of_nat (length (run_bits runs)) /\
    w_size (bm_buffer bm) = bytes_needed (Z.of_nat (length (run_bits runs))) /\
    holds_bits (firstn (Z.to_nat (w_size (bm_buffer bm))) (w_mem (bm_buffer bm))) (run_bits runs).
Proof. exact bitmap_history_ok. Qed.
Print Assumptions C43_appends.

Example C43_ex : exists bm, bitmap_appends (fun n => N.of_nat n) bitmap_init [(true, 3); (false, 9); (true, 0); (true, 7)] = Ok bm /\
  firstn 3 (w_mem (bm_buffer bm)) = [7; 240; 7]%N /\ w_size (bm_buffer bm) = 3 /\ bm_bits bm = 19.
Proof. eexists. vm_compute. repeat split. Qed.

(** ** C27 *)

(** A valid array of any native type with the contents [els] can be set on a view with any history, and visiting the
    window of [n] elements from [o] on makes exactly the calls of those elements. Offsets at every level are free. *)
Theorem C27_window : forall k l d v a els, supported k d l ->
  view_history (make_type (geometry_kind_code k) (dim_code d) (layout_code l)) v ->
  native_ok k l d a -> contents k l d a els -> (k = KBox -> d = XY) ->
  exists v', set_array v a = Ok v' /\
    forall o n, (o + n <= length els)%nat ->
      trace (visit_native v' (Z.of_nat o) (Z.of_nat n)) = (flat_map canon_feature (window els o n), Ok tt).
Proof. exact native_visit_ok. Qed.
Print Assumptions C27_window.

(** Visiting two consecutive windows is visiting their union, for every view and every visitor. *)
Theorem C27_consecutive : forall S (vis : visitor S) v o n m s, 0 <= n -> 0 <= m ->
  run vis (visit_native v o (n + m)) s =
  run vis (pbind (visit_native v o n) (fun _ => visit_native v (o + n) m)) s.
Proof. exact @visit_native_app. Qed.
Print Assumptions C27_consecutive.

(** A linestring array with an offset at both levels, a null and an empty linestring. *)
Definition C27_doubles (ws : list N) (off : Z) : arrow_array :=
  ArrowArray (Z.of_nat (length ws) - off) off 0 [None; Some (flat_map (le_bytes 8) ws)] [].
Definition C27_array : arrow_array :=
  ArrowArray 3 1 1 [Some [11%N]; Some (flat_map (le_bytes 4) [0; 1; 3; 3; 4]%N)]
    [ArrowArray 4 1 0 [None] [C27_doubles [0; 10; 20; 30; 40]%N 0; C27_doubles [9; 1; 11; 21; 31; 41]%N 1]].
Definition C27_els : list (option geom) := [Some (GLine XY [[20; 21]; [30; 31]]%N); None; Some (GLine XY [[40; 41]]%N)].

Example C27_ex : native_ok KLinestring Separate XY C27_array /\ contents KLinestring Separate XY C27_array C27_els.
Proof.
  split.
  - split; [vm_compute; discriminate|]. split; [vm_compute; discriminate|]. split; [vm_compute; discriminate|].
    eexists _, _, _. split; [reflexivity|]. split; [reflexivity|]. split.
    + split; [vm_compute; discriminate|]. split; [vm_compute; discriminate|]. split; [reflexivity|]. split; [reflexivity|].
      constructor; [|constructor; [|constructor]]; (split; [vm_compute; discriminate|]; split; [vm_compute; discriminate|]);
        eexists _, _; (split; [reflexivity|vm_compute; discriminate]).
    + intros _. eexists. split; [reflexivity|]. split; [repeat constructor|].
      intros i Hi. cbn [C27_array aa_length] in Hi. assert (i = 0 \/ i = 1 \/ i = 2) as [->|[->| ->]] by lia;
        eexists _, _; (split; [vm_compute; reflexivity|]; split; [vm_compute; reflexivity|]; vm_compute; repeat split; discriminate).
  - split; [reflexivity|].
    intros [|[|[|i]]] e He; cbn in He; try (destruct i; discriminate); injection He as <-.
    + split; [reflexivity|]. eexists; split; [|reflexivity].
      eexists _, _, _, _. do 4 (split; [vm_compute; reflexivity|]). split; [vm_compute; reflexivity|].
      intros [|[|kk]] c Hc; cbn in Hc; try (destruct kk; discriminate); injection Hc as <-; split; try reflexivity;
        intros [|[|j]] w Hw; cbn in Hw; try (destruct j; discriminate); injection Hw as <-; vm_compute; reflexivity.
    + reflexivity.
    + split; [reflexivity|]. eexists; split; [|reflexivity].
      eexists _, _, _, _. do 4 (split; [vm_compute; reflexivity|]). split; [vm_compute; reflexivity|].
      intros [|kk] c Hc; cbn in Hc; try (destruct kk; discriminate); injection Hc as <-; split; try reflexivity;
        intros [|[|j]] w Hw; cbn in Hw; try (destruct j; discriminate); injection Hw as <-; vm_compute; reflexivity.
Qed.

(** ** C28 *)

(** A valid array is accepted and every window inside it is visited without an access outside the buffers. *)
Theorem C28_safe : forall k l d v a, supported k d l ->
  view_history (make_type (geometry_kind_code k) (dim_code d) (layout_code l)) v ->
  native_ok k l d a ->
  exists v', set_array v a = Ok v' /\
    forall o n, 0 <= o -> 0 <= n -> o + n <= aa_length a ->
      snd (trace (visit_native v' o n)) = if (geometry_kind_code k =? 990) && negb (dim_code d =? 1) then Err ENOTSUP else Ok tt.
Proof. exact native_visit_safe. Qed.
Print Assumptions C28_safe.

(** An array whose counts do not match is never accepted: the counts of list arrays, of the coordinate array's children
    and of their buffers. Missing: the number of buffers of the coordinate (or box) array itself. *)
Theorem C28_accepts_partial : forall k l d v, supported k d l ->
  view_history (make_type (geometry_kind_code k) (dim_code d) (layout_code l)) v ->
  forall a v', set_array v a = Ok v' -> native_counted k l d a.
Proof. exact set_array_accepts. Qed.
Print Assumptions C28_accepts_partial.

(** It is rejected with EINVAL if the ends of the offsets of the non-empty lists on the way can be read. *)
Theorem C28_rejects_partial : forall k l d v, supported k d l ->
  view_history (make_type (geometry_kind_code k) (dim_code d) (layout_code l)) v ->
  forall a, offsets_readable k a -> ~ native_counted k l d a -> set_array v a = Err EINVAL.
Proof. exact set_array_rejects. Qed.
Print Assumptions C28_rejects_partial.

(** The full property is false: a point array with a wrong number of buffers is accepted ... *)
Theorem C28_surplus_buffer_refuted : exists a v v', ~ native_shape KPoint Separate XY a /\
  view_history (make_type 1 1 1) v /\ set_array v a = Ok v'.
Proof. exact surplus_buffer. Qed.
Print Assumptions C28_surplus_buffer_refuted.

(** ... or, when it has none, its first buffer pointer is read all the same. *)
Theorem C28_no_buffers_refuted : exists a v, ~ native_shape KPoint Separate XY a /\
  view_history (make_type 1 1 1) v /\ set_array v a = UB.
Proof. exact missing_buffer. Qed.
Print Assumptions C28_no_buffers_refuted.

(** A linestring array with two children is rejected. *)
Example C28_ex : let a := ArrowArray 0 0 0 [None; None] [C27_array; C27_array] in
  offsets_readable KLinestring a /\ ~ native_counted KLinestring Separate XY a.
Proof.
  cbv zeta. split.
  - split; [cbn; lia|]. intros child E. discriminate.
  - intros ((_ & H) & _). discriminate.
Qed.

(** ** C29 *)

(** Each element of a box array is null or the polygon [box_geom] of its corners. *)
Theorem C29_boxes : forall v a els, view_history (make_type 990 1 1) v ->
  native_ok KBox Separate XY a -> contents KBox Separate XY a els ->
  exists v', set_array v a = Ok v' /\
    trace (visit_native v' 0 (aa_length a)) = (flat_map canon_feature els, Ok tt).
Proof. exact box_visit_ok. Qed.
Print Assumptions C29_boxes.

(** A box without points is an empty polygon; any other one is a closed ring through its four corners. *)
Theorem C29_ring : forall x0 y0 x1 y1,
  (double_lt x1 x0 = true \/ double_lt y1 y0 = true -> box_geom x0 y0 x1 y1 = GPoly XY []) /\
  (double_lt x1 x0 = false -> double_lt y1 y0 = false ->
   exists ring, box_geom x0 y0 x1 y1 = GPoly XY [ring] /\ length ring = 5%nat /\ nth_error ring 0 = nth_error ring 4 /\
     forall c, In c ring <-> exists x y, c = [x; y] /\ (x = x0 \/ x = x1) /\ (y = y0 \/ y = y1)).
Proof. exact box_geom_ring. Qed.
Print Assumptions C29_ring.

(** Boxes with other dimensions are refused before any call. *)
Theorem C29_other_dimensions : forall d v a, d <> XY -> view_history (make_type 990 (dim_code d) 1) v ->
  native_ok KBox Separate d a ->
  exists v', set_array v a = Ok v' /\ forall o n, trace (visit_native v' o n) = ([], Err ENOTSUP).
Proof. exact box_refused. Qed.
Print Assumptions C29_other_dimensions.

(** 1.0 = 0x3ff0..., 2.0 = 0x4000...: a box and an empty one *)
Definition C29_array : arrow_array :=
  let one := 4607182418800017408%N in let two := 4611686018427387904%N in
  ArrowArray 2 0 0 [None] (map (fun ws => C27_doubles ws 0) [[one; two]; [one; one]; [two; one]; [two; two]]).
Example C29_ex : native_ok KBox Separate XY C29_array /\
  exists els, contents KBox Separate XY C29_array els /\ nth_error els 1 = Some (Some (GPoly XY [])).
Proof.
  assert (O : native_ok KBox Separate XY C29_array).
  { split; [exact I|]. split; [vm_compute; discriminate|]. split; [vm_compute; discriminate|]. split; [reflexivity|]. split; [reflexivity|].
    repeat (apply Forall_cons || apply Forall_nil); (split; [vm_compute; discriminate|]; split; [vm_compute; discriminate|]);
      eexists _, _; (split; [reflexivity|vm_compute; discriminate]). }
  split; [exact O|].
  exists [Some (box_geom 4607182418800017408 4607182418800017408 4611686018427387904 4611686018427387904);
          Some (box_geom 4611686018427387904 4607182418800017408 4607182418800017408 4611686018427387904)].
  split; [split; [reflexivity|]|vm_compute; reflexivity].
  intros [|[|i]] e He; cbn [nth_error] in He; try (destruct i; discriminate); injection He as <-.
  - split; [reflexivity|]. split; [reflexivity|]. eexists _, _, _, _. split; [|reflexivity].
    intros [|[|[|[|j]]]] w Hw; cbn in Hw; try (destruct j; discriminate); injection Hw as <-; vm_compute; reflexivity.
  - split; [reflexivity|]. split; [reflexivity|]. eexists _, _, _, _. split; [|reflexivity].
    intros [|[|[|[|j]]]] w Hw; cbn in Hw; try (destruct j; discriminate); injection Hw as <-; vm_compute; reflexivity.
Qed.

(** ** C17, for native arrays: any view, set to anything or not at all, and any window *)
Theorem C17_native_visit : forall v o n,
  nested_prefix (fst (trace (visit_native v o n))) /\
  (forall u, snd (trace (visit_native v o n)) = Ok u -> well_nested (fst (trace (visit_native v o n)))).
Proof. exact (fun v o n => nests_prefix _ (nests_visit_native v o n)). Qed.
Print Assumptions C17_native_visit.

Theorem C17_native_visit_error : forall v o n codes m,
  (forall k, (k < m)%nat -> codes k = 0) -> codes m <> 0 -> (m < length (fst (trace (visit_native v o n))))%nat ->
  run (scripted codes) (visit_native v o n) [] = Some (firstn (S m) (fst (trace (visit_native v o n))), Err (codes m)).
Proof. exact (fun v o n codes m => lawful_propagates _ codes m (lawful_visit_native v o n)). Qed.
Print Assumptions C17_native_visit_error.
