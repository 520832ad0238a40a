(** * Reader objects in C++: class ArrayReader of hpp/array_reader.hpp *)
From Verif Require Import Base TypesModel GeomSpec VisitorModel ArrowModel WktReaderModel ArrayReaderModel CppWkbModel CppWriterModel.
Local Open Scope Z_scope.

(** The arrays of a program are numbered. The struct ArrowArray with which the user got array [i] stays where it is; its release
    callback is called at most once if the program is right, and the buffers are gone then. *)
Section Reader.
  Variable arrays : nat -> arrow_array.
  Variable parse : bytes -> option N.
  (** The states in which earlier visits left the readers of the serialized encodings, for each visit *)
  Variable wkt_state : nat -> Z -> rst.
  Variable wkb_state : nat -> Z -> bool.

  (** Whose buffers the array view of the reader points into: none at first, an array's, or what a call that failed left there
      (simplification: not modelled, so that it must not be used) *)
  Inductive pointee := PNothing | PArray (i : nat) | PUnknown.

  (** Lines 76-78: the members reader_ and array_ ([ro_held]: whether array_.array has a release callback, and of which array), and the
      program around it: structs of the user that have no release callback any more, and arrays that were released. *)
  Record reader_object := ReaderObject { ro_reader : areader; ro_points : pointee; ro_held : option nat; ro_moved : list nat; ro_released : list nat }.

  (** Lines 30-32: the constructor from a type *)
  Definition new_reader (t : Z) : outcome reader_object := do r <- throw_not_ok (reader_init t); Ok (ReaderObject r PNothing None [] []).

  Definition among (i : nat) (l : list nat) : bool := existsb (Nat.eqb i) l.

  (** Lines 54-57: SetArrayNonOwning. An exception does not end the program. *)
  Definition cpp_set_array_non_owning (o : reader_object) (i : nat) : outcome reader_object :=
    if among i (ro_released o) then UB
    else
      match reader_set_array (ro_reader o) (arrays i) with
      | Ok r => Ok (ReaderObject r (PArray i) (ro_held o) (ro_moved o) (ro_released o))
      | Err _ => Ok (ReaderObject (ro_reader o) PUnknown (ro_held o) (ro_moved o) (ro_released o))
      | UB => UB
      | NoFuel => NoFuel
      end.
  (** Lines 48-52: SetArray *)
  Definition cpp_set_array (o : reader_object) (i : nat) : outcome reader_object :=
    cpp_set_array_non_owning (ReaderObject (ro_reader o) (ro_points o) (Some i) (i :: ro_moved o) (ro_released o)) i.
  (** Lines 59-63: Visit, without where messages go *)
  Definition cpp_visit (j : nat) (o : reader_object) (offset length : Z) : prog unit :=
    match ro_points o with
    | PUnknown => Ret UB
    | PArray i => if among i (ro_released o) then Ret UB else reader_visit parse (wkt_state j) (wkb_state j) (ro_reader o) offset length
    | PNothing => reader_visit parse (wkt_state j) (wkb_state j) (ro_reader o) offset length
    end.
  (** Lines 42-46, and internal.hpp lines 20-27: the destructors. The arrays that were released when they are done *)
  Definition cpp_destroy (o : reader_object) : list nat := ro_released o ++ match ro_held o with Some i => [i] | None => [] end.

  (** A program: calls of the methods, and of the release callback that the user has. To use a struct that has none is wrong. *)
  Inductive reader_call := RSetArray (i : nat) | RSetArrayNonOwning (i : nat) | RVisit (offset length : Z) | RRelease (i : nat).
  Definition reader_step (j : nat) (o : reader_object) (call : reader_call) : outcome (list (prog unit) * reader_object) :=
    match call with
    | RSetArray i => if among i (ro_moved o) then UB else do o <- cpp_set_array o i; Ok ([], o)
    | RSetArrayNonOwning i => if among i (ro_moved o) then UB else do o <- cpp_set_array_non_owning o i; Ok ([], o)
    | RVisit offset length => Ok ([cpp_visit j o offset length], o)
    | RRelease i =>
        if among i (ro_moved o) then UB
        else Ok ([], ReaderObject (ro_reader o) (ro_points o) (ro_held o) (i :: ro_moved o) (ro_released o ++ [i]))
    end.
  Fixpoint reader_calls (j : nat) (o : reader_object) (calls : list reader_call) : outcome (list (prog unit) * reader_object) :=
    match calls with
    | [] => Ok ([], o)
    | call :: calls => do (v, o) <- reader_step j o call; do (vs, o) <- reader_calls (S j) o calls; Ok (v ++ vs, o)
    end.
  (** What is visited, and the arrays that were released, in that order *)
  Definition reader_session (t : Z) (calls : list reader_call) : outcome (list (prog unit) * list nat) :=
    do o <- new_reader t; do (visits, o) <- reader_calls 0 o calls; Ok (visits, cpp_destroy o).
End Reader.
