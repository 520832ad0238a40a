(** * What reader objects are to do *)
From Verif Require Import Base GeomSpec NativeSpec CppReaderModel.
Local Open Scope Z_scope.

(** Calls of a right program, if the arrays [gone] were given away or released before and [cur] is the one that is read: no array is used after
    it was given away or released, and none is visited after it was released. [expected] are the features that the visits are for, if
    array [i] has the features [features i]. *)
Inductive reads (features : nat -> list (option geom)) : list nat -> option nat -> list reader_call -> list (list (option geom)) -> Prop :=
  | reads_end gone cur : reads features gone cur [] []
  | reads_given gone cur i calls expected : ~ In i gone -> reads features (i :: gone) (Some i) calls expected -> reads features gone cur (RSetArray i :: calls) expected
  | reads_shown gone cur i calls expected : ~ In i gone -> reads features gone (Some i) calls expected -> reads features gone cur (RSetArrayNonOwning i :: calls) expected
  | reads_visit gone i o n calls expected : (o + n <= length (features i))%nat -> reads features gone (Some i) calls expected ->
      reads features gone (Some i) (RVisit (Z.of_nat o) (Z.of_nat n) :: calls) (window (features i) o n :: expected)
  | reads_release gone cur i calls expected : ~ In i gone -> reads features (i :: gone) (if match cur with Some c => Nat.eqb c i | None => false end then None else cur) calls expected ->
      reads features gone cur (RRelease i :: calls) expected.

(** The arrays that are given to the reader, and those that the user releases *)
Definition given (calls : list reader_call) : list nat := flat_map (fun c => match c with RSetArray i => [i] | _ => [] end) calls.
Definition released_by_user (calls : list reader_call) : list nat := flat_map (fun c => match c with RRelease i => [i] | _ => [] end) calls.
Definition last_of (l : list nat) : list nat := match rev l with [] => [] | i :: _ => [i] end.
