(** * Base: bytes, machine words, outcomes, memory blocks *)
From Coq Require Export List NArith ZArith Lia Bool Arith.
From Coq Require Export ZifyBool ZifyNat ZifyN.
Export ListNotations.

Global Arguments N.add : simpl never.
Global Arguments N.mul : simpl never.
Global Arguments N.sub : simpl never.
Global Arguments N.div : simpl never.
Global Arguments N.modulo : simpl never.
Global Arguments N.pow : simpl never.
Global Arguments N.eqb : simpl never.
Global Arguments N.ltb : simpl never.
Global Arguments N.leb : simpl never.
Global Arguments N.of_nat : simpl never.
Global Arguments N.to_nat : simpl never.
Global Arguments Z.add : simpl never.
Global Arguments Z.mul : simpl never.
Global Arguments Z.sub : simpl never.
Global Arguments Z.div : simpl never.
Global Arguments Z.modulo : simpl never.
Global Arguments Z.of_nat : simpl never.
Global Arguments Z.to_nat : simpl never.
Global Arguments Z.eqb : simpl never.
Global Arguments Z.ltb : simpl never.
Global Arguments Z.leb : simpl never.

(** ** Error codes used by the library (errno.h on Linux) *)
Definition EAGAIN : Z := 11.
Definition EINVAL : Z := 22.
Definition EOVERFLOW : Z := 75.
Definition ENOTSUP : Z := 95.

(** ** Outcomes of a C function

    [Ok a]: returned [GEOARROW_OK], with result [a].
    [Err c]: returned the error code [c].
    [UB]: the C program performed an access that has no defined meaning (a read or write outside an object, a use of
    an uninitialised value, a signed overflow).
    [NoFuel]: the model ran out of fuel. *)
Inductive outcome (A : Type) : Type :=
| Ok (a : A)
| Err (code : Z)
| UB
| NoFuel.
Arguments Ok {A} _.
Arguments Err {A} _.
Arguments UB {A}.
Arguments NoFuel {A}.

Definition obind {A B} (m : outcome A) (k : A -> outcome B) : outcome B :=
  match m with
  | Ok a => k a
  | Err c => Err c
  | UB => UB
  | NoFuel => NoFuel
  end.

Notation "'do' x <- m ; k" := (obind m (fun x => k))
  (at level 200, x pattern, m at level 100, k at level 200).
Notation "'check' m ; k" := (obind m (fun _ => k))
  (at level 200, m at level 100, k at level 200).

(** ** Bytes *)

(** A byte string: numbers below 256. *)
Definition byte := N.
Definition bytes := list N.
Definition is_byte (b : N) : Prop := (b < 256)%N.
Definition wf_bytes (l : bytes) : Prop := Forall is_byte l.

(** The [k] low bytes of [n], least significant first. *)
Fixpoint le_bytes (k : nat) (n : N) : bytes :=
  match k with
  | O => []
  | S k' => (n mod 256)%N :: le_bytes k' (n / 256)%N
  end.

(** The number whose bytes, least significant first, are [l]. *)
Fixpoint le_val (l : bytes) : N :=
  match l with
  | [] => 0%N
  | b :: r => (b + 256 * le_val r)%N
  end.

(** Big-endian counterparts. *)
Definition be_bytes (k : nat) (n : N) : bytes := rev (le_bytes k n).
Definition be_val (l : bytes) : N := le_val (rev l).

Definition u32_max1 : N := 4294967296%N.                  (* 2^32 *)
Definition u64_max1 : N := 18446744073709551616%N.        (* 2^64 *)
Definition wrap32 (n : N) : N := (n mod u32_max1)%N.
Definition wrap64 (n : N) : N := (n mod u64_max1)%N.

(** Reading [k] bytes of [l] at offset [p]: [None] when any of them lies outside. *)
Definition slice (l : bytes) (p : Z) (k : nat) : option bytes :=
  if (0 <=? p)%Z && (p + Z.of_nat k <=? Z.of_nat (length l))%Z
  then Some (firstn k (skipn (Z.to_nat p) l))
  else None.

(** ** Four-element C arrays (one entry per possible dimension) *)
Record quad (A : Type) : Type := Quad { q0 : A; q1 : A; q2 : A; q3 : A }.
Arguments Quad {A} _ _ _ _.
Arguments q0 {A} _.
Arguments q1 {A} _.
Arguments q2 {A} _.
Arguments q3 {A} _.

(** Element access. An index outside 0..3 is [None], which callers turn into [UB]. *)
Definition qget {A} (q : quad A) (j : nat) : option A :=
  match j with
  | 0 => Some (q0 q) | 1 => Some (q1 q) | 2 => Some (q2 q) | 3 => Some (q3 q)
  | _ => None
  end.
Definition qset {A} (q : quad A) (j : nat) (a : A) : quad A :=
  match j with
  | 0 => Quad a (q1 q) (q2 q) (q3 q)
  | 1 => Quad (q0 q) a (q2 q) (q3 q)
  | 2 => Quad (q0 q) (q1 q) a (q3 q)
  | _ => Quad (q0 q) (q1 q) (q2 q) a
  end.
Definition qconst {A} (a : A) : quad A := Quad a a a a.

(** [option] to [outcome]: [None] is an access outside an object. *)
Definition or_ub {A} (o : option A) : outcome A :=
  match o with Some a => Ok a | None => UB end.

(** ** Memory blocks

    A pointer is a block number and a byte offset. Pointers never cross blocks. *)
Definition mem := list bytes.
Definition ptr := (nat * Z)%type.

Definition ptr_add (p : ptr) (k : Z) : ptr := (fst p, (snd p + k)%Z).

Definition load_bytes (m : mem) (p : ptr) (k : nat) : option bytes :=
  match nth_error m (fst p) with
  | Some b => slice b (snd p) k
  | None => None
  end.

(** memcpy of eight bytes into a (little-endian host) 64 bit word. *)
Definition load64 (m : mem) (p : ptr) : option N :=
  match load_bytes m p 8 with
  | Some b => Some (le_val b)
  | None => None
  end.
