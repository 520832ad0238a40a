(** * Properties of the memory that objects hold *)
From Coq Require Import Permutation.
From Verif Require Import Base TypesModel BufferModel OwnedModel AllocModel AllocSpec AllocProofs.
Local Open Scope Z_scope.

(** C68: whatever a program does with its objects, and whichever allocations fail for the objects, for their buffers and for schemas: no
    memory is used or freed after it was freed, or freed twice, if no allocation for an array fails and no deep copy is made while buffers
    cannot grow. What is missing: [C68_array_refuted], [C68_box_refuted], [C68_deep_copy_refuted]. *)
Theorem C68_safe_partial : forall fails calls, always fails ForArray -> always fails ForBuffer \/ Forall not_deep_copy calls ->
  exists s codes h, mem_calls fails start_state calls no_memory = Ok (s, codes, h) /\ NoDup (state_blocks s) /\ incl (state_blocks s) (h_live h).
Proof.
  intros fails calls A N. destruct (programs_safe fails A calls N) as (s & codes & h & E). exists s, codes, h. split; [exact E|].
  exact (programs_keep fails A calls s codes h N E).
Qed.
Print Assumptions C68_safe_partial.

(** C68: if only allocations for the objects fail, and every kernel is started once, and no writer of an unsupported type is asked for,
    then the memory there is, is what the program's objects, schemas and arrays hold: none once everything was reset and released. What
    is missing: [C68_unsupported_refuted], [C68_restarted_refuted], [C68_buffer_refuted], [C68_schema_refuted]. *)
Theorem C68_released_partial : forall fails calls s codes h, always fails ForArray -> always fails ForBuffer -> always fails ForSchema ->
  Forall supported calls -> started_once false calls -> mem_calls fails start_state calls no_memory = Ok (s, codes, h) ->
  Permutation (h_live h) (state_blocks s) /\ (all_reset s -> h_live h = []).
Proof.
  intros fails calls s codes h A B C D E R. pose proof (programs_release fails A calls s codes h B C D E R) as P. split; [exact P|].
  intros (G & Rd & W & K & O). unfold state_blocks in P. rewrite G, Rd, W, K, O in P. apply Permutation_sym, Permutation_nil in P. exact P.
Qed.
Print Assumptions C68_released_partial.

Definition never (p : purpose) (n : nat) : bool := false.
(** The allocation with this number fails. *)
Definition only (k : nat) (p : purpose) (n : nat) : bool := Nat.eqb n k.

(** No allocation fails. A writer of large or view arrays: ENOTSUP, and the memory of the writer is not freed. *)
Theorem C68_unsupported_refuted : exists h, mem_calls never start_state [WriterInit AsUnsupported] no_memory = Ok (start_state, [ENOTSUP], h) /\ h_live h = [0%nat].
Proof. eexists. split; reflexivity. Qed.
Print Assumptions C68_unsupported_refuted.

(** No allocation fails. A kernel that is started again: both calls succeed, the first reader is not freed. *)
Theorem C68_restarted_refuted : exists s h,
  mem_calls never start_state [KernelInit VisitVoidAgg; KernelStart NeedsWkt false AsWkx 1; ReleaseOut; KernelStart NeedsWkt false AsWkx 1; ReleaseOut; KernelRelease]
    no_memory = Ok (s, [0; 0; 0; 0; 0; 0], h) /\ all_reset s /\ h_live h = [2; 1]%nat.
Proof. eexists. eexists. split; [vm_compute; reflexivity|]. split; [repeat split|reflexivity]. Qed.
Print Assumptions C68_restarted_refuted.

(** A buffer that cannot grow: the call fails with ENOMEM, and what was written before is neither there nor freed. *)
Theorem C68_buffer_refuted : exists s h,
  mem_calls (only 3) start_state [WriterInit AsWkx; WriterAppend [(2%nat, false)]; WriterAppend [(2%nat, true)]; WriterReset] no_memory =
    Ok (s, [0; 0; ENOMEM; 0], h) /\ all_reset s /\ h_live h = [2%nat].
Proof. eexists. eexists. split; [vm_compute; reflexivity|]. split; [repeat split|reflexivity]. Qed.
Print Assumptions C68_buffer_refuted.

(** The third part of the schema of a native writer cannot be allocated: the first two are not freed. *)
Theorem C68_schema_refuted : exists s h,
  mem_calls (only 5) start_state [WriterInit (AsNative 3 0 4)] no_memory = Ok (s, [ENOMEM], h) /\ all_reset s /\ h_live h = [4; 3]%nat.
Proof. eexists. eexists. split; [vm_compute; reflexivity|]. split; [repeat split|reflexivity]. Qed.
Print Assumptions C68_schema_refuted.

(** A native writer whose next array cannot be allocated: Finish fails with ENOMEM, and the next call uses memory that was freed. *)
Theorem C68_array_refuted :
  (exists s h, mem_calls (only 6) start_state [WriterInit (AsNative 2 0 1); WriterAppend [(1%nat, false)]; WriterFinish false false] no_memory =
    Ok (s, [0; 0; ENOMEM], h)) /\
  mem_calls (only 6) start_state [WriterInit (AsNative 2 0 1); WriterAppend [(1%nat, false)]; WriterFinish false false; WriterFinish false false] no_memory = UB.
Proof. split; [eexists; eexists|]; vm_compute; reflexivity. Qed.
Print Assumptions C68_array_refuted.

(** A box kernel whose array cannot be allocated uses the array all the same. *)
Theorem C68_box_refuted :
  mem_calls (only 3) start_state [KernelInit Box; KernelStart NeedsNone false AsWkx 1; KernelPushBatch [] [] false false false true] no_memory = UB.
Proof. reflexivity. Qed.
Print Assumptions C68_box_refuted.

(** A geometry with a node and coordinates; a deep copy into it that can replace the coordinates but not the nodes fails with ENOMEM, and
    the node points to the coordinates that were freed. *)
Theorem C68_deep_copy_refuted :
  (exists s h, mem_calls (only 4) start_state [GeometryInit; GeometryAppendNode false; GeometryReserveCoords false; GeometryVisit; GeometryDeepCopy true true]
    no_memory = Ok (s, [0; 0; 0; 0; ENOMEM], h)) /\
  mem_calls (only 4) start_state [GeometryInit; GeometryAppendNode false; GeometryReserveCoords false; GeometryVisit; GeometryDeepCopy true true; GeometryVisit]
    no_memory = UB.
Proof. split; [eexists; eexists|]; vm_compute; reflexivity. Qed.
Print Assumptions C68_deep_copy_refuted.

(** A program with every sort of object, in which the first attempts at a reader, a writer and a kernel fail. *)
Definition demo_fails (p : purpose) (n : nat) : bool :=
  match p with ForObject => Nat.eqb n 1 || Nat.eqb n 8 || Nat.eqb n 19 | _ => false end.
Definition demo_calls : list mem_call :=
  [GeometryInit; ReaderInit NeedsWkb; ReaderInit NeedsWkb; ReaderVisit [false; true]; WriterInit (AsNative 3 1 2); WriterInit (AsNative 3 1 2);
   WriterAppend [(1%nat, false); (0%nat, false); (2%nat, true)]; KernelInit FormatWkt; KernelInit FormatWkt; GeometryAppendNode false;
   GeometryDeepCopy true true; GeometryVisit; KernelStart NeedsWkb false AsWkx 1; KernelPushBatch [true; true] [(2%nat, true); (1%nat, false)] false false false false;
   WriterFinish false true; KernelFinish []; GeometryReset; ReaderReset; WriterReset; KernelRelease; ReleaseOut; ReleaseOut; ReleaseOut].
Example C68_ex :
  always demo_fails ForArray /\ always demo_fails ForBuffer /\ always demo_fails ForSchema /\ Forall supported demo_calls /\ started_once false demo_calls /\
  exists s codes h, mem_calls demo_fails start_state demo_calls no_memory = Ok (s, codes, h) /\ all_reset s /\ h_live h = [] /\
    codes = [0; ENOMEM; 0; 0; ENOMEM; 0; 0; ENOMEM; 0; 0; 0; 0; 0; 0; 0; 0; 0; 0; 0; 0; 0; 0; 0].
Proof.
  split; [intros n; reflexivity|]. split; [intros n; reflexivity|]. split; [intros n; reflexivity|].
  split; [repeat (apply Forall_cons; [exact I|]); constructor|]. split; [cbn; auto|].
  eexists. eexists. eexists. split; [vm_compute; reflexivity|]. split; [repeat split|]. split; reflexivity.
Qed.
