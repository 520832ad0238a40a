(** * Programs that give memory to builders *)
From Verif Require Import Base ArrowModel BuilderSpec OwnedModel.
Local Open Scope Z_scope.

(** The objects that a program moves into the builder. *)
Definition given_objects (calls : list build_call) : list nat :=
  flat_map (fun call => match call with BSetBufferWrapped _ w => [wr_object w] | _ => [] end) calls.

(** Nothing is left: the builder is destroyed, and every array released. *)
Definition all_released (p : program) : Prop := pr_builder p = None /\ Forall (fun a => a = None) (pr_arrays p).

(** ** Filling one array *)

(** A call that fills a buffer, as one of those of BuilderSpec.v: [content] is what the buffers hold. Memory that is given is not at
    NULL, except that there may be no bitmap; offsets are appended to whole offsets. *)
Definition fills (content : nat -> bytes) (call : build_call) (o : bop) : Prop :=
  match call, o with
  | BSetBufferWrapped i w, BSet j bs =>
      i = Z.of_nat j /\ match j with O => wr_memory w = (match bs with [] => None | _ => Some bs end) | S _ => wr_memory w = Some bs end
  | BAppendToBuffer i bs', BAppend j bs => i = Z.of_nat j /\ bs' = bs
  | BAppendToOffsetBuffer i vs, BAppend j bs =>
      i + 1 = Z.of_nat j /\ blen (content j) mod 4 = 0 /\ bs = flat_map (fun v => le_bytes 4 (Z.to_N (v mod 2 ^ 32))) vs
  | BReserveBuffer i n', BReserve j n => i = Z.of_nat j /\ n' = n
  | _, _ => False
  end.
Fixpoint fills_all (content : nat -> bytes) (calls : list build_call) (ops : list bop) : Prop :=
  match calls, ops with
  | [], [] => True
  | call :: calls, o :: ops => fills content call o /\ fills_all (fun j => op_bytes j (content j) o) calls ops
  | _, _ => False
  end.

(** The object that was given last for buffer [j], and those of all [n] buffers. *)
Definition last_given (calls : list build_call) (j : nat) : option nat :=
  fold_left (fun acc call => match call with BSetBufferWrapped i w => if i =? Z.of_nat j then Some (wr_object w) else acc | _ => acc end)
    calls None.
Definition kept (n : nat) (calls : list build_call) : list nat :=
  flat_map (fun j => match last_given calls j with Some o => [o] | None => [] end) (seq 0 n).

(** The arrays that calls returned. *)
Definition arrays_of (rs : list (Z * option arrow_array)) : list arrow_array :=
  flat_map (fun r => match snd r with Some a => [a] | None => [] end) rs.
