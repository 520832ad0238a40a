(** * Writer objects in C++: class ArrayWriter of hpp/array_writer.hpp *)
From Verif Require Import Base TypesModel FloatModel GeomSpec VisitorModel VisitorSpec ArrowModel WktWriterModel WkbWriterModel NativeWriterModel ArrayReaderModel KernelModel ConversionModel CppWkbModel.
Local Open Scope Z_scope.

Section Writer.
  Variable print_double : N -> Z -> bytes.
  Variable junk : nat -> nat -> N.

  (** Lines 126-127: the members. [None] while visitor_.coords is NULL. *)
  Record writer_object := WriterObject { wo_writer : awriter; wo_visitor : option (visitor awriter) }.

  (** exception.hpp lines 24-34: GEOARROW_THROW_NOT_OK *)
  Definition throw_not_ok {A} (m : outcome A) : outcome A := match m with Err _ => Err THROWN | _ => m end.

  (** Lines 89-91: the constructor from a type *)
  Definition new_writer (t : Z) : outcome writer_object := do w <- throw_not_ok (array_writer_init junk t); Ok (WriterObject w None).

  (** Lines 103-105: SetPrecision *)
  Definition cpp_set_precision (o : writer_object) (precision : Z) : outcome writer_object :=
    do w <- throw_not_ok (set_precision (wo_writer o) precision); Ok (WriterObject w (wo_visitor o)).
  (** Lines 107-110: SetFlatMultipoint, which calls GeoArrowArrayWriterSetPrecision *)
  Definition cpp_set_flat_multipoint (o : writer_object) (flat_multipoint : bool) : outcome writer_object :=
    do w <- throw_not_ok (set_precision (wo_writer o) (if flat_multipoint then 1 else 0)); Ok (WriterObject w (wo_visitor o)).
  (** Lines 112-118: visitor *)
  Definition cpp_visitor (o : writer_object) : outcome (visitor awriter * writer_object) :=
    match wo_visitor o with
    | Some v => Ok (v, o)
    | None => do v <- throw_not_ok (array_visitor print_double junk (wo_writer o)); Ok (v, WriterObject (wo_writer o) (Some v))
    end.
  (** Lines 120-123: Finish *)
  Definition cpp_finish (o : writer_object) : outcome (arrow_array * writer_object) :=
    match array_finish junk (wo_writer o) with
    | Some (w, c, Some a) => if c =? 0 then Ok (a, WriterObject w (wo_visitor o)) else Err THROWN
    | Some (_, _, None) => Err THROWN
    | None => UB
    end.

  (** A user's calls, and calls of the visitor that the object gives; the user goes on as long as nothing fails. *)
  Inductive writer_call := CallSetPrecision (precision : Z) | CallSetFlatMultipoint (flat : bool) | CallVisit (evs : list event) | CallFinish.
  Definition writer_step (o : writer_object) (call : writer_call) : outcome (list arrow_array * writer_object) :=
    match call with
    | CallSetPrecision precision => do o <- cpp_set_precision o precision; Ok ([], o)
    | CallSetFlatMultipoint flat => do o <- cpp_set_flat_multipoint o flat; Ok ([], o)
    | CallVisit evs =>
        do (v, o) <- cpp_visitor o;
        match feed v (wo_writer o) evs with
        | Some (w, c) => if c =? 0 then Ok ([], WriterObject w (wo_visitor o)) else Err c
        | None => UB
        end
    | CallFinish => do (a, o) <- cpp_finish o; Ok ([a], o)
    end.
  Fixpoint writer_calls (o : writer_object) (calls : list writer_call) : outcome (list arrow_array * writer_object) :=
    match calls with
    | [] => Ok ([], o)
    | call :: calls => do (a, o) <- writer_step o call; do (b, o) <- writer_calls o calls; Ok (a ++ b, o)
    end.
  Definition writer_session (t : Z) (calls : list writer_call) : outcome (list arrow_array) :=
    do o <- new_writer t; do (arrays, _) <- writer_calls o calls; Ok arrays.
End Writer.
