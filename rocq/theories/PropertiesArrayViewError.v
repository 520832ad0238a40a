(** * C75: error messages about native arrays are true *)
From Verif Require Import Base Text TypesModel TypesSpec GeomSpec ArrowModel ArrayViewModel NativeSpec ArrayViewErrorModel ArrayViewErrorSpec ArrayViewErrorProofs.
Local Open Scope Z_scope.

(** A view of a native type after any history, and any array on which no memory is read that is not there: the array is taken and the
    message stays as it was, or it is refused with EINVAL and a message that is true of it.
    Missing: arrays on which other memory is read (C28_no_buffers_refuted), and serialized types. *)
Theorem C75_message_partial : forall k l d v, supported k d l ->
  view_history (make_type (geometry_kind_code k) (dim_code d) (layout_code l)) v ->
  forall before a, set_array v a <> UB ->
  (exists v', set_array v a = Ok v' /\ set_array_told before v a = Ok (0, before)) \/
  (set_array v a = Err EINVAL /\ exists text r, set_array_told before v a = Ok (EINVAL, text ++ [0%N] ++ r) /\ array_complaint k l d a text).
Proof. exact set_told. Qed.
Print Assumptions C75_message_partial.

(** What the messages say is a reason: an array of which one of the texts is true is never taken ... *)
Theorem C75_reason : forall k l d v, supported k d l ->
  view_history (make_type (geometry_kind_code k) (dim_code d) (layout_code l)) v ->
  forall a text v', array_complaint k l d a text -> set_array v a <> Ok v'.
Proof. exact complaint_never_taken. Qed.
Print Assumptions C75_reason.

(** ... and it is refused with EINVAL if the ends of the offsets of the non-empty lists on the way can be read. *)
Theorem C75_refused : forall k l d v, supported k d l ->
  view_history (make_type (geometry_kind_code k) (dim_code d) (layout_code l)) v ->
  forall a text, offsets_readable k a -> array_complaint k l d a text -> set_array v a = Err EINVAL.
Proof. exact complaint_rejected. Qed.
Print Assumptions C75_refused.

(** Linestrings whose coordinates have three children, in a view of linestrings of two dimensions. *)
Definition C75_child : arrow_array := ArrowArray 0 0 0 [None; None] [].
Definition C75_array : arrow_array := ArrowArray 0 0 0 [None; None] [ArrowArray 0 0 0 [None] [C75_child; C75_child; C75_child]].
Example C75_ex : exists v r, view_history (make_type 2 1 1) v /\ set_array v C75_array <> UB /\ offsets_readable KLinestring C75_array /\
  array_complaint KLinestring Separate XY C75_array
    $"Unexpected number of children for struct coordinate array in GeoArrowArrayViewSetArray()" /\
  set_array_told [] v C75_array =
    Ok (EINVAL, $"Unexpected number of children for struct coordinate array in GeoArrowArrayViewSetArray()" ++ [0%N] ++ r).
Proof.
  eexists. eexists. split; [apply vh_init; vm_compute; reflexivity|]. split; [vm_compute; discriminate|].
  split. { split; [cbn; lia | intros c _; exact I]. }
  split; [|vm_compute; reflexivity].
  apply (wrong_struct_children _ _ _ _ (ArrowArray 0 0 0 [None] [C75_child; C75_child; C75_child])); [discriminate | reflexivity | | discriminate].
  split; [reflexivity|]. eexists. split; reflexivity.
Qed.

(** The full property is false: an array of large WKB, which has three buffers as it must, is refused because of the number of buffers
    of a list array. *)
Theorem C75_large_refuted : exists v a r, view_history TYPE_LARGE_WKB v /\ length (aa_buffers a) = 3%nat /\ aa_children a = [] /\
  set_array_told [] v a = Ok (EINVAL, $"Unexpected number of buffers in list array in GeoArrowArrayViewSetArray()" ++ [0%N] ++ r).
Proof.
  eexists. exists (ArrowArray 0 0 0 [None; Some (repeat 0%N 8); None] []). eexists.
  split; [apply vh_init; vm_compute; reflexivity|]. split; [reflexivity|]. split; [reflexivity|]. vm_compute. reflexivity.
Qed.
Print Assumptions C75_large_refuted.
