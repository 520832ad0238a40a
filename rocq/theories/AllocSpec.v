(** * Programs, and allocations that fail *)
From Verif Require Import Base AllocModel.

(** No allocation for this purpose fails. *)
Definition always (fails : purpose -> nat -> bool) (p : purpose) : Prop := forall n, fails p n = false.

(** The program has nothing left: every object was reset or never initialized, every schema and array was released. *)
Definition all_reset (s : state) : Prop :=
  gs_geometry s = None /\ gs_reader s = None /\ gs_writer s = None /\ gs_kernel s = None /\ gs_outs s = [].

(** The call is not a deep copy. *)
Definition not_deep_copy (call : mem_call) : Prop := match call with GeometryDeepCopy _ _ => False | _ => True end.

(** The call does not ask for a writer of large or view arrays. *)
Definition supported (call : mem_call) : Prop :=
  match call with WriterInit AsUnsupported | KernelStart _ _ AsUnsupported _ => False | _ => True end.

(** Kernels are started once. *)
Fixpoint started_once (started : bool) (calls : list mem_call) : Prop :=
  match calls with
  | [] => True
  | KernelStart _ _ _ _ :: calls => started = false /\ started_once true calls
  | KernelRelease :: calls => started_once false calls
  | _ :: calls => started_once started calls
  end.
