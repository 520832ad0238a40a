(** * Memory that is given to a builder: class ArrayBuilder of hpp/array_writer.hpp, and the buffers with deallocators below it *)
From Verif Require Import Base TypesModel BitmapModel BufferModel ArrowModel BuilderModel.
Local Open Scope Z_scope.

Definition ENOMEM : Z := 12.

(** An object that is moved into the builder: its number, and the memory that it gives access to. [None]: data() is NULL, as it may
    be for a container without elements. *)
Record wrapped := Wrapped { wr_object : nat; wr_memory : option bytes }.

(** The allocator of a buffer, when it is one made by ArrowBufferDeallocator (nanoarrow.c lines 268-277): the object that its free
    callback deletes, and whether the data of the buffer is NULL. *)
Record owner := Owner { own_object : nat; own_null : bool }.

(** The builder, with the allocators of its buffers ([None]: the default one). A buffer whose memory was freed has no memory and the
    size it had; builder->view still has the old pointer then, and a capacity that is equal to that size. *)
Record owned := Owned { ow_builder : builder; ow_owners : list (option owner) }.

Section Junk.
  Variable junk : nat -> nat -> N.

  (** ** Calls on the builder: the builder, the objects that are deleted, in order, and the code that is returned (or thrown) *)
  Definition result := (owned * list nat * Z)%type.

  Definition owner_at (s : owned) (i : Z) : option owner := nth (Z.to_nat i) (ow_owners s) None.
  Definition owned_objects (l : list (option owner)) : list nat :=
    flat_map (fun o => match o with Some o => [own_object o] | None => [] end) l.

  (** builder.c lines 133-149: GeoArrowBuilderReserveBuffer; nanoarrow.h lines 2554-2575 (ArrowBufferReserve) and nanoarrow.c lines
      247-266 (ArrowBufferDeallocatorReallocate without NANOARROW_DEBUG), geoarrow's wrapper around free in builder.c lines 156-163 *)
  Definition own_reserve (s : owned) (i additional : Z) : outcome result :=
    do c <- get_buf (ow_builder s) i;
    if w_size (bf c) + additional <=? w_cap (bf c) then Ok (s, [], 0)
    else
      match owner_at s i with
      | Some o =>
          Ok (Owned (set_buf (ow_builder s) i {| bf_id := bf_id c; bf := {| w_mem := []; w_size := w_size (bf c) |} |})
                (set_nth (Z.to_nat i) None (ow_owners s)), [own_object o], ENOMEM)
      | None => do b <- reserve_buffer junk (ow_builder s) i additional; Ok (Owned b (ow_owners s), [], 0)
      end.

  (** The copy at the end of an append, if there was room *)
  Definition own_copy (r : result) (i : Z) (bs : bytes) : outcome result :=
    let '(s, freed, code) := r in
    if code =? 0 then do b <- append_buffer_unsafe (ow_builder s) i bs; Ok (Owned b (ow_owners s), freed, 0)
    else Ok r.
  (** A copy of no bytes to memory that is gone does nothing. *)
  Definition gone (c : cbuf) (bs : bytes) : bool := (w_cap (bf c) <? w_size (bf c)) && (Z.of_nat (length bs) =? 0).

  (** Lines 64-68: AppendToBuffer; geoarrow_type_inline.h lines 691-702: GeoArrowBuilderAppendBuffer *)
  Definition own_append (s : owned) (i : Z) (bs : bytes) : outcome result :=
    do c <- get_buf (ow_builder s) i;
    if gone c bs then Ok (s, [], 0)
    else
      let n := Z.of_nat (length bs) in
      do r <- (if w_size (bf c) + n <=? w_cap (bf c) then Ok (s, [], 0) else own_reserve s i n);
      own_copy r i bs.

  (** Lines 70-75: AppendToOffsetBuffer; geoarrow_type_inline.h lines 789-801: GeoArrowBuilderOffsetAppend of int32_t values *)
  Definition offset_bytes (vs : list Z) : bytes := flat_map (fun v => le_bytes 4 (Z.to_N (v mod 4294967296))) vs.
  Definition own_append_offsets (s : owned) (i : Z) (vs : list Z) : outcome result :=
    do c <- get_buf (ow_builder s) (i + 1);
    if gone c (offset_bytes vs) then Ok (s, [], 0)
    else
      let n := Z.of_nat (length vs) in
      do r <- (if w_size (bf c) / 4 + n <=? w_cap (bf c) / 4 then Ok (s, [], 0) else own_reserve s (i + 1) (n * 4));
      own_copy r (i + 1) (offset_bytes vs).

  (** Lines 47-62: SetBufferWrapped(i, obj), with builder.c lines 166-201: GeoArrowBuilderSetOwnedBuffer, where ArrowBufferReset
      (nanoarrow.h lines 2515-2519) frees what was there. (Lines 35-45, the other SetBufferWrapped, is a template that cannot be
      instantiated: it gives the builder in the place of a pointer to it.) *)
  Definition cpp_set_buffer_wrapped (s : owned) (i : Z) (w : wrapped) : outcome result :=
    match set_owned_buffer (ow_builder s) i (match wr_memory w with Some bs => bs | None => [] end) with
    | Ok b =>
        Ok (Owned b (set_nth (Z.to_nat i) (Some (Owner (wr_object w) (match wr_memory w with Some _ => false | None => true end))) (ow_owners s)),
            owned_objects [owner_at s i], 0)
    | Err code => Ok (s, [wr_object w], code)
    | UB => UB
    | NoFuel => NoFuel
    end.

  (** nanoarrow.c lines 2753-2780: ArrowArrayFinalizeBuffers: every NULL buffer that is not a bitmap gets memory, in the order in which
      the builder counts its buffers. Simplification: memory for a buffer of no bytes is not modelled; the buffer shows no bytes with
      and without it. *)
  Definition finalize_buffer (s : owned) (i : Z) : outcome result :=
    do c <- get_buf (ow_builder s) i;
    match owner_at s i with
    | Some o => if own_null o then own_reserve s i 1 else Ok (s, [], 0)
    | None => if w_cap (bf c) <? w_size (bf c) then own_reserve s i 1 else Ok (s, [], 0)
    end.
  Fixpoint finalize_buffers (s : owned) (is : list nat) : outcome result :=
    match is with
    | [] => Ok (s, [], 0)
    | i :: is =>
        do (s, freed, code) <- finalize_buffer s (Z.of_nat i);
        if code =? 0 then do (s, freed', code) <- finalize_buffers s is; Ok (s, freed ++ freed', code)
        else Ok (s, freed, code)
    end.

  (** Lines 28-31: Finish; builder.c lines 206-288. The array that is returned has the buffers, with their allocators. *)
  Definition cpp_builder_finish (s : owned) : outcome (result * option (arrow_array * list nat)) :=
    do (s, freed, code) <- finalize_buffers s (seq 1 (length (ow_owners s) - 1));
    if code =? 0 then
      match builder_finish (ow_builder s) with
      | Ok (a, b) => Ok (Owned b (repeat None (length (ow_owners s))), freed, 0, Some (a, owned_objects (ow_owners s)))
      | Err code => Ok (s, freed, code, None)
      | UB => UB
      | NoFuel => NoFuel
      end
    else Ok (s, freed, code, None).

  (** Lines 12-14: the constructor *)
  Definition new_builder (t : Z) : outcome owned := do b <- builder_init t; Ok (Owned b (repeat None (length (bd_bufs b)))).

  (** ** Programs *)

  (** The builder, until it is destroyed; for every array that it made the objects that it owns, until it is released; and the objects
      that were deleted, in order. An exception does not end the program. *)
  Record program := Program { pr_builder : option owned; pr_arrays : list (option (list nat)); pr_freed : list nat }.

  Inductive build_call :=
  | BSetBufferWrapped (i : Z) (w : wrapped)
  | BAppendToBuffer (i : Z) (bs : bytes)
  | BAppendToOffsetBuffer (i : Z) (vs : list Z)
  | BReserveBuffer (i n : Z)
  | BFinish
  | BReleaseArray (k : nat)
  | BDestroy.

  Definition after (p : program) (r : result) : program * Z * option arrow_array :=
    let '(s, freed, code) := r in (Program (Some s) (pr_arrays p) (pr_freed p ++ freed), code, None).

  (** A call: the program, the code, and the array. To release an array twice, or to use a builder that was destroyed, is wrong. *)
  Definition build_step (p : program) (call : build_call) : outcome (program * Z * option arrow_array) :=
    match call, pr_builder p with
    | BReleaseArray k, b =>
        match nth k (pr_arrays p) None with
        | Some objects => Ok (Program b (set_nth k None (pr_arrays p)) (pr_freed p ++ objects), 0, None)
        | None => UB
        end
    | _, None => UB
    | BDestroy, Some s => Ok (Program None (pr_arrays p) (pr_freed p ++ owned_objects (ow_owners s)), 0, None)
    | BSetBufferWrapped i w, Some s => do r <- cpp_set_buffer_wrapped s i w; Ok (after p r)
    | BAppendToBuffer i bs, Some s => do r <- own_append s i bs; Ok (after p r)
    | BAppendToOffsetBuffer i vs, Some s => do r <- own_append_offsets s i vs; Ok (after p r)
    | BReserveBuffer i n, Some s => do r <- own_reserve s i n; Ok (after p r)
    | BFinish, Some s =>
        do (r, a) <- cpp_builder_finish s;
        match a with
        | Some (a, objects) =>
            let '(s, freed, code) := (r : result) in Ok (Program (Some s) (pr_arrays p ++ [Some objects]) (pr_freed p ++ freed), code, Some a)
        | None => Ok (after p r)
        end
    end.
  (** A program, and what its calls returned *)
  Fixpoint build_calls (p : program) (calls : list build_call) : outcome (program * list (Z * option arrow_array)) :=
    match calls with
    | [] => Ok (p, [])
    | call :: calls =>
        do (p, code, a) <- build_step p call;
        do (p, rs) <- build_calls p calls;
        Ok (p, (code, a) :: rs)
    end.
  Definition build_session (t : Z) (calls : list build_call) : outcome (program * list (Z * option arrow_array)) :=
    do s <- new_builder t; build_calls (Program (Some s) [] []) calls.
End Junk.
