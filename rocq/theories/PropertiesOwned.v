(** * Properties of memory that is given to builders *)
From Coq Require Import Permutation.
From Verif Require Import Base TypesModel GeomSpec ArrowModel BuilderModel BuilderSpec BuilderRun OwnedModel OwnedSpec OwnedProofs.
Local Open Scope Z_scope.

(** C67: whatever a program does with a builder and its arrays (calls may fail), every object that was moved into the builder has been
    deleted exactly once when the builder is destroyed and the arrays are released. *)
Theorem C67_once : forall junk t calls p rs, build_session junk t calls = Ok (p, rs) -> all_released p ->
  Permutation (given_objects calls) (pr_freed p).
Proof. exact freed_once. Qed.
Print Assumptions C67_once.

(** C67: at every point of a program that moves different objects into the builder, no object was deleted twice, and none that belongs to
    an array that is not released. *)
Theorem C67_not_before : forall junk t calls p rs, build_session junk t calls = Ok (p, rs) -> NoDup (given_objects calls) ->
  NoDup (pr_freed p) /\ forall k objects, nth_error (pr_arrays p) k = Some (Some objects) -> forall o, In o objects -> ~ In o (pr_freed p).
Proof. exact not_before. Qed.
Print Assumptions C67_not_before.

(** C67: for every type, and batches of calls that fill buffers that fit together and do not append to memory that was given: every call
    succeeds, the arrays are the ones that these buffers make up, the k-th array owns the objects that were given last for its buffers,
    and every other object has been deleted. What is missing: [C67_null_refuted], [C67_appended_refuted]. *)
Theorem C67_arrays_partial : forall junk t code batches, (forall i j, is_byte (junk i j)) -> kind_ok t -> In code (type_codes t) ->
  Forall (fun batch => fills_all (fun _ => []) (fst batch) (snd batch) /\ ops_wf (buffer_count t) (fun _ => false) (snd batch) /\
                       fits t (ops_validity (snd batch)) (ops_buffers t (snd batch))) batches ->
  exists p rs, build_session junk code (flat_map (fun batch => fst batch ++ [BFinish]) batches) = Ok (p, rs) /\
    Forall (fun r => fst r = 0) rs /\
    arrays_of rs = map (fun batch => assembled t (ops_validity (snd batch)) (ops_buffers t (snd batch))) batches /\
    pr_arrays p = map (fun batch => Some (kept (buffer_count t) (fst batch))) batches /\
    Permutation (flat_map (fun batch => given_objects (fst batch)) batches) (pr_freed p ++ flat_map (fun batch => kept (buffer_count t) (fst batch)) batches).
Proof. exact (fun junk t code batches H => session_arrays junk H t code batches). Qed.
Print Assumptions C67_arrays_partial.

(** Containers without elements, whose data() is NULL: the buffers fit together (an array of no points), but Finish fails with ENOMEM,
    and the container is deleted. *)
Theorem C67_null_refuted :
  fits (ANative KPoint Separate XY) (ops_validity [BSet 1 []; BSet 2 []]) (ops_buffers (ANative KPoint Separate XY) [BSet 1 []; BSet 2 []]) /\
  forall junk, exists p, build_session junk 1 [BSetBufferWrapped 1 (Wrapped 7 None); BSetBufferWrapped 2 (Wrapped 8 None); BFinish] =
    Ok (p, [(0, None); (0, None); (ENOMEM, None)]) /\ pr_freed p = [7%nat].
Proof.
  split.
  - split; [intros v E; discriminate|]. split; [exact I|]. repeat constructor; vm_compute; discriminate.
  - intros junk. eexists. split; vm_compute; reflexivity.
Qed.
Print Assumptions C67_null_refuted.

(** One point whose x is given, then an append to x, which fails; Finish makes an array all the same, with whatever is in fresh memory
    for x. *)
Theorem C67_appended_refuted : forall junk, exists p a y,
  build_session junk 1 [BSetBufferWrapped 1 (Wrapped 7 (Some (le_bytes 8 1))); BSetBufferWrapped 2 (Wrapped 8 (Some (le_bytes 8 2)));
                        BAppendToBuffer 1 (le_bytes 8 3); BFinish] = Ok (p, [(0, None); (0, None); (ENOMEM, None); (0, Some a)]) /\
  aa_children a = [ArrowArray 1 0 0 [None; Some (map (junk 7%nat) (seq 0 8))] []; y].
Proof. intros junk. eexists. eexists. eexists. split; vm_compute; reflexivity. Qed.
Print Assumptions C67_appended_refuted.

(** Linestrings: a vector of offsets that is replaced by another one, a vector for x, y appended; then an array of none with offsets
    appended as such. *)
Definition demo_batches : list (list build_call * list bop) :=
  [([BSetBufferWrapped 1 (Wrapped 0 (Some (le_bytes 4 0 ++ le_bytes 4 9))); BSetBufferWrapped 1 (Wrapped 1 (Some (le_bytes 4 0 ++ le_bytes 4 2)));
     BSetBufferWrapped 2 (Wrapped 2 (Some (le_bytes 8 100 ++ le_bytes 8 101))); BReserveBuffer 3 8; BAppendToBuffer 3 (le_bytes 8 200 ++ le_bytes 8 201)],
    [BSet 1 (le_bytes 4 0 ++ le_bytes 4 9); BSet 1 (le_bytes 4 0 ++ le_bytes 4 2); BSet 2 (le_bytes 8 100 ++ le_bytes 8 101); BReserve 3 8;
     BAppend 3 (le_bytes 8 200 ++ le_bytes 8 201)]);
   ([BAppendToOffsetBuffer 0 [0]; BAppendToOffsetBuffer 0 [0; 0]; BSetBufferWrapped 2 (Wrapped 3 (Some []))],
    [BAppend 1 (le_bytes 4 0); BAppend 1 (le_bytes 4 0 ++ le_bytes 4 0); BSet 2 []])].
Example C67_ex :
  Forall (fun batch => fills_all (fun _ => []) (fst batch) (snd batch) /\
            ops_wf (buffer_count (ANative KLinestring Separate XY)) (fun _ => false) (snd batch) /\
            fits (ANative KLinestring Separate XY) (ops_validity (snd batch)) (ops_buffers (ANative KLinestring Separate XY) (snd batch))) demo_batches /\
  map (fun batch => kept 4 (fst batch)) demo_batches = [[1%nat; 2%nat]; [3%nat]] /\
  exists p rs, build_session (fun _ _ => 0%N) 2
      (flat_map (fun batch => fst batch ++ [BFinish]) demo_batches ++ [BSetBufferWrapped 4 (Wrapped 4 None); BDestroy; BReleaseArray 1; BReleaseArray 0]) = Ok (p, rs) /\
    all_released p /\ pr_freed p = [0; 4; 3; 1; 2]%nat.
Proof.
  split; [|split; [reflexivity|]].
  - apply Forall_cons; [|apply Forall_cons; [|constructor]]; cbn [fst snd demo_batches].
    + split; [repeat (split; [split; reflexivity|]); exact I|]. split.
      * repeat match goal with |- op_wf _ _ /\ _ => split | |- op_wf _ _ => split | |- _ = false /\ _ => split; [reflexivity|] | |- ops_wf _ _ _ => cbn [ops_wf] end;
          cbn; try lia; repeat constructor.
      * split; [intros v E; discriminate|]. split; [|repeat constructor; vm_compute; discriminate].
        split; [|exact I]. right. exists 0, 2. vm_compute. repeat split; discriminate.
    + split; [split; [split; [reflexivity|split; reflexivity]|split; [split; [reflexivity|split; reflexivity]|split; [split; reflexivity|exact I]]]|]. split.
      * repeat match goal with |- op_wf _ _ /\ _ => split | |- op_wf _ _ => split | |- _ = false /\ _ => split; [reflexivity|] | |- ops_wf _ _ _ => cbn [ops_wf] end;
          cbn; try lia; repeat constructor.
      * split; [intros v E; discriminate|]. split; [|repeat constructor; vm_compute; discriminate].
        split; [|exact I]. right. exists 0, 0. vm_compute. repeat split; discriminate.
  - eexists. eexists. split; [vm_compute; reflexivity|]. split; [split; [reflexivity|repeat constructor]|reflexivity].
Qed.
