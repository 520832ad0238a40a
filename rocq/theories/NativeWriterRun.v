(** * Sequences of calls to a native writer *)
From Verif Require Import Base GeomSpec VisitorModel VisitorSpec NodesModel ArrowModel BuilderModel NativeWriterModel.
Local Open Scope Z_scope.

Section Junk.
  Variable junk : nat -> nat -> N.

  (** GeoArrowNativeWriterAppendNull, or GeoArrowNativeWriterAppend of nodes and the memory they point into. *)
  Definition append_item (w : nwriter) (i : option (mem * list node)) : vres nwriter :=
    match i with Some (m, nodes) => append_geom junk w m nodes | None => append_null junk w end.

  (** One call after the other; the code of the first that fails. *)
  Fixpoint append_items (w : nwriter) (items : list (option (mem * list node))) : outcome nwriter :=
    match items with
    | [] => Ok w
    | i :: r =>
        match append_item w i with
        | VRet w' c => if c =? 0 then append_items w' r else Err c
        | VUB => UB
        end
    end.

  (** One array after the other from the same writer. *)
  Fixpoint write_arrays (w : nwriter) (batches : list (list (option (mem * list node)))) : outcome (list arrow_array) :=
    match batches with
    | [] => Ok []
    | items :: r =>
        do w <- append_items w items;
        do (a, w) <- writer_finish junk w;
        do rest <- write_arrays w r;
        Ok (a :: rest)
    end.

  (** Through the visitor: any sequence of calls, then GeoArrowNativeWriterFinish, again and again. *)
  Fixpoint visit_arrays (v : visitor nwriter) (w : nwriter) (batches : list (list event)) : outcome (list arrow_array) :=
    match batches with
    | [] => Ok []
    | evs :: r =>
        match feed v w evs with
        | Some (w, c) =>
            if c =? 0 then
              do (a, w) <- writer_finish junk w;
              do rest <- visit_arrays v w r;
              Ok (a :: rest)
            else Err c
        | None => UB
        end
    end.
End Junk.
