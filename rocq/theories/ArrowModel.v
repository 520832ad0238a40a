(** * Arrow arrays and read-only memory *)
From Verif Require Import Base BufferModel.
Local Open Scope Z_scope.

(** struct ArrowArray (src/vendor/nanoarrow/nanoarrow.h lines 109-124): [n_buffers] and [n_children] are the lengths of
    the two lists; a NULL buffer is [None]. Simplifications: the entries of [children] are never NULL; there is no
    dictionary, release callback or private data. *)
Inductive arrow_array :=
| ArrowArray (length offset null_count : Z) (buffers : list (option bytes)) (children : list arrow_array).

Definition aa_length (a : arrow_array) : Z := let (n, _, _, _, _) := a in n.
Definition aa_offset (a : arrow_array) : Z := let (_, o, _, _, _) := a in o.
Definition aa_null_count (a : arrow_array) : Z := let (_, _, c, _, _) := a in c.
Definition aa_buffers (a : arrow_array) : list (option bytes) := let (_, _, _, b, _) := a in b.
Definition aa_children (a : arrow_array) : list arrow_array := let (_, _, _, _, c) := a in c.

(** A pointer to constant memory: NULL, or a byte offset into an object. Simplification: adding to NULL gives NULL. *)
Inductive rptr := RNull | RPtr (obj : bytes) (off : Z).

Definition rptr_of (b : option bytes) : rptr := match b with Some b => RPtr b 0 | None => RNull end.
Definition rptr_add (p : rptr) (k : Z) : rptr := match p with RNull => RNull | RPtr b o => RPtr b (o + k) end.

(** ((const int32_t* )p)[i] *)
Definition load_int32 (p : rptr) (i : Z) : outcome Z :=
  match p with
  | RNull => UB
  | RPtr b o => do bs <- or_ub (slice b (o + 4 * i) 4); Ok (to_int32 (Z.of_N (le_val bs)))
  end.

(** ((const double* )p)[i] *)
Definition load_double (p : rptr) (i : Z) : outcome N :=
  match p with
  | RNull => UB
  | RPtr b o => do bs <- or_ub (slice b (o + 8 * i) 8); Ok (le_val bs)
  end.
