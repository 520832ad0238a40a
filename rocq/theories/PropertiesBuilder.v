(** * Properties of arrays built buffer by buffer *)
From Verif Require Import Base TypesModel GeomSpec CoordsModel BufferModel ArrowModel BuilderModel BuilderSpec BuilderRun BuilderProofs NativeWriterModel.
Local Open Scope Z_scope.

(** C30: for every type and every sequence of calls that fill buffers, GeoArrowBuilderFinish returns exactly the array these
    buffers make up if they fit together, and EINVAL if they do not. *)
Theorem C30_finish : forall junk t code ops, (forall i j, is_byte (junk i j)) -> kind_ok t -> In code (type_codes t) ->
  ops_wf (buffer_count t) (fun _ => false) ops ->
  exists b0 b, builder_init code = Ok b0 /\ run_ops junk b0 ops = Ok b /\
    (fits t (ops_validity ops) (ops_buffers t ops) ->
       exists b', builder_finish b = Ok (assembled t (ops_validity ops) (ops_buffers t ops), b')) /\
    (~ fits t (ops_validity ops) (ops_buffers t ops) -> builder_finish b = Err EINVAL).
Proof. exact (fun junk t code ops H => finish_consistent junk H t code ops). Qed.
Print Assumptions C30_finish.

(** C30: the builder starts afresh after each array. *)
Theorem C30_arrays : forall junk t code batches, (forall i j, is_byte (junk i j)) -> kind_ok t -> In code (type_codes t) ->
  Forall (ops_wf (buffer_count t) (fun _ => false)) batches ->
  Forall (fun ops => fits t (ops_validity ops) (ops_buffers t ops)) batches ->
  exists b0, builder_init code = Ok b0 /\
    run_arrays junk b0 batches = Ok (map (fun ops => assembled t (ops_validity ops) (ops_buffers t ops)) batches).
Proof. exact (fun junk t code batches H => arrays_ok junk H t code batches). Qed.
Print Assumptions C30_arrays.

(** Two linestrings, (1 2, 3 4) and an empty one, with a bitmap; and one with a wrong last offset. *)
Definition demo_ops (last : N) : list bop :=
  [BReserve 0 8; BAppend 0 [3%N]; BAppend 1 (le_bytes 4 0); BAppend 1 (le_bytes 4 2 ++ le_bytes 4 last);
   BSet 2 (le_bytes 8 100 ++ le_bytes 8 101); BAppend 3 (le_bytes 8 200); BAppend 3 (le_bytes 8 201)].
Example C30_example :
  kind_ok (ANative KLinestring Separate XY) /\ In 2 (type_codes (ANative KLinestring Separate XY)) /\
  ops_wf (buffer_count (ANative KLinestring Separate XY)) (fun _ => false) (demo_ops 2) /\
  fits (ANative KLinestring Separate XY) (ops_validity (demo_ops 2)) (ops_buffers (ANative KLinestring Separate XY) (demo_ops 2)) /\
  ~ fits (ANative KLinestring Separate XY) (ops_validity (demo_ops 3)) (ops_buffers (ANative KLinestring Separate XY) (demo_ops 3)) /\
  assembled (ANative KLinestring Separate XY) (ops_validity (demo_ops 2)) (ops_buffers (ANative KLinestring Separate XY) (demo_ops 2)) =
    ArrowArray 2 0 (-1) [Some [3%N]; Some (le_bytes 4 0 ++ le_bytes 4 2 ++ le_bytes 4 2)]
      [ArrowArray 2 0 0 [None]
        [ArrowArray 2 0 0 [None; Some (le_bytes 8 100 ++ le_bytes 8 101)] [];
         ArrowArray 2 0 0 [None; Some (le_bytes 8 200 ++ le_bytes 8 201)] []]].
Proof.
  split; [discriminate|]. split; [left; reflexivity|]. split.
  { repeat match goal with
           | |- ops_wf _ _ _ => cbn [ops_wf demo_ops]
           | |- _ /\ _ => split
           | |- op_wf _ _ => split
           end; try reflexivity; try (cbn; lia); repeat constructor. }
  split; [split; [|split]|split; [|reflexivity]].
  - intros v E. injection E as <-. right. vm_compute. discriminate.
  - cbn [lists_fit firstn n_lists ops_buffers]. split; [|exact I]. right. exists 0, 2. vm_compute. repeat split; discriminate.
  - repeat constructor; vm_compute; discriminate.
  - intros (_ & (H & _) & _). destruct H as [H|(f & l & H1 & H2 & H3 & H4)]; [discriminate|]. vm_compute in H2. injection H2 as <-.
    vm_compute in H4. destruct H4 as (_ & H4). apply H4. reflexivity.
Qed.

(** C50: appending bytes, reserving and replacing buffers never touches memory outside them: part of [C30_finish], in which
    [run_ops] is [Ok]. The two typed helpers do not have this property when they are mixed with those calls. *)

(** The result of a call. *)
Ltac result_of e k := let r := eval vm_compute in e in match r with Ok ?x => k x end.
Local Notation zeros := (fun _ _ => 0%N).

(** Four offsets after five bytes: the capacity check rounds the size down. *)
Theorem C50_offset_append_refuted : exists b0 b1 b2, builder_init 2 = Ok b0 /\ append_buffer (fun _ _ => 0%N) b0 1 [0; 0; 0; 0; 0]%N = Ok b1 /\
  run_offsets (fun _ _ => 0%N) b1 0 [0; 0; 0] = Ok b2 /\ offset_append (fun _ _ => 0%N) b2 0 0 = UB.
Proof.
  result_of (builder_init 2) ltac:(fun b0 =>
  result_of (append_buffer zeros b0 1 [0; 0; 0; 0; 0]%N) ltac:(fun b1 =>
  result_of (run_offsets zeros b1 0 [0; 0; 0]) ltac:(fun b2 => exists b0, b1, b2))).
  repeat apply conj; vm_compute; reflexivity.
Qed.
Print Assumptions C50_offset_append_refuted.

(** Two points (XY, separated) after reserving memory for the last ordinate: the capacity of the last buffer is taken for that
    of the other one. *)
Theorem C50_coords_append_refuted : exists b0 b1 b2, builder_init 1 = Ok b0 /\ reserve_buffer (fun _ _ => 0%N) b0 2 80 = Ok b1 /\
  coords_append (fun _ _ => 0%N) b1 [1; 2]%N (source_view 2) 1 0 1 = Ok b2 /\
  coords_append (fun _ _ => 0%N) b2 [3; 4]%N (source_view 2) 1 0 1 = UB.
Proof.
  result_of (builder_init 1) ltac:(fun b0 =>
  result_of (reserve_buffer zeros b0 2 80) ltac:(fun b1 =>
  result_of (coords_append zeros b1 [1; 2]%N (source_view 2) 1 0 1) ltac:(fun b2 => exists b0, b1, b2))).
  repeat apply conj; vm_compute; reflexivity.
Qed.
Print Assumptions C50_coords_append_refuted.

(** Coordinate bytes appended directly to a buffer disappear with the first coordinate appended through
    GeoArrowBuilderCoordsAppend: the array has one point, not two. *)
Theorem C50_mixed_coords_refuted : exists b0 b1 b2 b3 a b4, builder_init 1 = Ok b0 /\
  append_buffer (fun _ _ => 0%N) b0 1 (le_bytes 8 1) = Ok b1 /\ append_buffer (fun _ _ => 0%N) b1 2 (le_bytes 8 2) = Ok b2 /\
  coords_append (fun _ _ => 0%N) b2 [3; 4]%N (source_view 2) 1 0 1 = Ok b3 /\ builder_finish b3 = Ok (a, b4) /\
  aa_length a = 1.
Proof.
  result_of (builder_init 1) ltac:(fun b0 =>
  result_of (append_buffer zeros b0 1 (le_bytes 8 1)) ltac:(fun b1 =>
  result_of (append_buffer zeros b1 2 (le_bytes 8 2)) ltac:(fun b2 =>
  result_of (coords_append zeros b2 [3; 4]%N (source_view 2) 1 0 1) ltac:(fun b3 =>
  result_of (builder_finish b3) ltac:(fun r => exists b0, b1, b2, b3, (fst r), (snd r)))))).
  repeat apply conj; vm_compute; reflexivity.
Qed.
Print Assumptions C50_mixed_coords_refuted.
