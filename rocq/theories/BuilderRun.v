(** * Array types and sequences of builder calls *)
From Verif Require Import Base TypesModel GeomSpec ArrowModel BuilderModel BuilderSpec.
Local Open Scope Z_scope.

(** The type codes of an array kind. *)
Definition type_codes (t : array_kind) : list Z :=
  match t with
  | ANative k l d => [make_type (geometry_kind_code k) (dim_code d) (layout_code l)]
  | ABinary false => [TYPE_WKB; TYPE_WKT]
  | ABinary true => [TYPE_LARGE_WKB; TYPE_LARGE_WKT]
  end.
Definition kind_ok (t : array_kind) : Prop := match t with ANative k l d => supported k d l | ABinary _ => True end.

Section Junk.
  Variable junk : nat -> nat -> N.

  Definition run_op (b : builder) (o : bop) : outcome builder :=
    match o with
    | BAppend i bs => append_buffer junk b (Z.of_nat i) bs
    | BReserve i n => reserve_buffer junk b (Z.of_nat i) n
    | BSet i bs => set_owned_buffer b (Z.of_nat i) bs
    end.
  Fixpoint run_ops (b : builder) (ops : list bop) : outcome builder :=
    match ops with [] => Ok b | o :: r => do b <- run_op b o; run_ops b r end.

  (** One array after the other from the same builder. *)
  Fixpoint run_arrays (b : builder) (batches : list (list bop)) : outcome (list arrow_array) :=
    match batches with
    | [] => Ok []
    | ops :: r =>
        do b <- run_ops b ops;
        do (a, b) <- builder_finish b;
        do rest <- run_arrays b r;
        Ok (a :: rest)
    end.

  (** GeoArrowBuilderOffsetAppend of one offset after the other. *)
  Fixpoint run_offsets (b : builder) (i : Z) (vs : list Z) : outcome builder :=
    match vs with [] => Ok b | v :: r => do b <- offset_append junk b i v; run_offsets b i r end.
End Junk.
