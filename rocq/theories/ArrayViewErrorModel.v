(** * The messages of GeoArrowArrayViewSetArray: src/geoarrow/array_view.c *)
From Verif Require Import Base Text TypesModel BufferModel ArrowModel ArrayViewModel WktErrorModel.
Local Open Scope Z_scope.

(** What a function does: it goes on ([Took]), or sets the message and returns EINVAL ([Complained]), or reads memory that is not
    there or overflows ([Crashed]). The functions below are those of ArrayViewModel.v with the texts. *)
Inductive reply (A : Type) := Took (a : A) | Complained (text : bytes) | Crashed.
Arguments Took {A}. Arguments Complained {A}. Arguments Crashed {A}.
Definition reply_then {A B} (m : reply A) (k : A -> reply B) : reply B :=
  match m with Took a => k a | Complained text => Complained text | Crashed => Crashed end.
(** Reading memory. *)
Definition taken_from {A} (o : outcome A) : reply A := match o with Ok a => Took a | _ => Crashed end.
(** The end of the messages. *)
Definition in_set_array (text : bytes) : bytes := text ++ $" in GeoArrowArrayViewSetArray()".

(** array_view.c lines 127-138 and 232-242: the loops over the children; [text] is their message *)
Fixpoint e_child_values (text : bytes) (n : nat) (children : list arrow_array) : reply (list rptr) :=
  match n with
  | O => Took []
  | S n' =>
      match children with
      | [] => Crashed
      | ch :: r =>
          if negb (Z.of_nat (length (aa_buffers ch)) =? 2) then Complained (in_set_array text)
          else
            reply_then (taken_from (or_ub (nth_error (aa_buffers ch) 1))) (fun b =>
            reply_then (e_child_values text n' r) (fun rest =>
            Took (rptr_add (rptr_of b) (8 * aa_offset ch) :: rest)))
      end
  end.

(** array_view.c lines 105-174: the coordinate array. In the last message there is no "in". *)
Definition e_set_coord_array (v : aview) (a : arrow_array) (level : nat) : reply aview :=
  reply_then (taken_from (coord_count v a level)) (fun n_coords =>
  let n_values := Z.to_nat (rc_n_values (av_coords v)) in
  if av_ctype v =? CT_SEPARATE then
    if negb (Z.of_nat (length (aa_children a)) =? rc_n_values (av_coords v))
    then Complained (in_set_array $"Unexpected number of children for struct coordinate array")
    else
      reply_then (e_child_values $"Unexpected number of buffers for struct coordinate array child" n_values (aa_children a)) (fun values =>
      Took (with_coords v n_coords (values ++ skipn n_values (rc_values (av_coords v)))))
  else if av_ctype v =? CT_INTERLEAVED then
    match aa_children a with
    | [ch] =>
        if negb (Z.of_nat (length (aa_buffers ch)) =? 2)
        then Complained (in_set_array $"Unexpected number of buffers for interleaved coordinate array child")
        else
          reply_then (taken_from (or_ub (nth_error (aa_buffers ch) 1))) (fun b =>
          Took (with_coords v n_coords
                  (map (fun i => rptr_add (rptr_of b) (8 * (aa_offset ch + Z.of_nat i))) (seq 0 n_values) ++
                   skipn n_values (rc_values (av_coords v)))))
    | _ => Complained (in_set_array $"Unexpected number of children for interleaved coordinate array")
    end
  else Complained $"Unexpected coordinate type GeoArrowArrayViewSetArray()").

(** array_view.c lines 98-204: GeoArrowArrayViewSetArrayInternal *)
Fixpoint e_set_array_internal (v : aview) (a : arrow_array) (level : nat) : reply aview :=
  let '(ArrowArray length offset _ buffers children) := a in
  let v := with_level v level offset length in
  if Z.of_nat level =? av_n_offsets v then e_set_coord_array v a level
  else if negb (Z.of_nat (Datatypes.length buffers) =? 2)
  then Complained (in_set_array $"Unexpected number of buffers in list array")
  else
    match children with
    | [child] =>
        reply_then
          (if 0 <? length then
             reply_then (taken_from (or_ub (nth_error buffers 1))) (fun b =>
             let p := rptr_of b in
             reply_then (taken_from (load_int32 p offset)) (fun first =>
             reply_then (taken_from (load_int32 p (offset + length))) (fun last =>
             Took (with_offsets v level p first last))))
           else Took (with_offsets v level (RPtr zero_int32 0) 0 0))
          (fun v => e_set_array_internal v child (S level))
    | _ => Complained (in_set_array $"Unexpected number of children in list array")
    end.

(** array_view.c lines 216-245: GeoArrowArrayViewSetArrayBox *)
Definition e_set_array_box (v : aview) (a : arrow_array) : reply aview :=
  let v := with_level v 0 (aa_offset a) (aa_length a) in
  if negb (Z.of_nat (length (aa_children a)) =? rc_n_values (av_coords v))
  then Complained (in_set_array $"Unexpected number of children for box array struct")
  else
    let n_values := Z.to_nat (rc_n_values (av_coords v)) in
    reply_then (e_child_values $"Unexpected number of buffers for box array child" n_values (aa_children a)) (fun values =>
    Took (with_coords v (aa_length a) (values ++ skipn n_values (rc_values (av_coords v))))).

(** array_view.c lines 247-269: GeoArrowArrayViewSetArray *)
Definition e_set_array (v : aview) (a : arrow_array) : reply aview :=
  reply_then
    (if (av_type v =? TYPE_WKT) || (av_type v =? TYPE_WKB) then taken_from (set_array_serialized v a)
     else if (av_type v =? 990) || (av_type v =? 1990) || (av_type v =? 2990) || (av_type v =? 3990)
     then e_set_array_box v a
     else e_set_array_internal v a 0)
    (fun v => reply_then (taken_from (or_ub (nth_error (aa_buffers a) 0))) (fun b0 => Took (with_validity v (rptr_of b0)))).

(** The code and the message after the call; [before] is the message before it. *)
Definition set_array_told (before : bytes) (v : aview) (a : arrow_array) : outcome (Z * bytes) :=
  match e_set_array v a with
  | Took _ => Ok (0, before)
  | Complained text => Ok (EINVAL, snd (error_set text))
  | Crashed => UB
  end.
