(** * Arrow binary and string arrays *)
From Verif Require Import Base.
Local Open Scope Z_scope.

(** An array as its consumer sees it: one validity bit per element (or no bitmap: all valid), int32 offsets into one
    data buffer. *)
Record binary_array := BinaryArray {
  ba_length : Z;
  ba_null_count : Z;
  ba_validity : option (list bool);
  ba_offsets : list Z;
  ba_data : bytes
}.

Definition element (a : binary_array) (i : nat) : option bytes :=
  match nth_error (ba_offsets a) i, nth_error (ba_offsets a) (S i) with
  | Some o, Some o' => if o <=? o' then slice (ba_data a) o (Z.to_nat (o' - o)) else None
  | _, _ => None
  end.
Definition is_valid (a : binary_array) (i : nat) : option bool :=
  match ba_validity a with
  | None => Some true
  | Some bits => nth_error bits i
  end.

Definition count_nulls {A} (els : list (option A)) : Z :=
  Z.of_nat (length (filter (fun e => match e with None => true | Some _ => false end) els)).

(** [array_holds a els]: the array has exactly the elements [els], [None] being a null (whose bytes are empty). *)
Record array_holds (a : binary_array) (els : list (option bytes)) : Prop := {
  ah_length : ba_length a = Z.of_nat (length els);
  ah_nulls : ba_null_count a = count_nulls els;
  ah_first : nth_error (ba_offsets a) 0 = Some 0;
  ah_offsets : length (ba_offsets a) = S (length els);
  ah_fit : Forall (fun o => 0 <= o < 2 ^ 31) (ba_offsets a);
  ah_bits : forall bits, ba_validity a = Some bits -> length bits = length els;
  ah_elements : forall i e, nth_error els i = Some e ->
    element a i = Some (match e with Some b => b | None => [] end) /\
    is_valid a i = Some (match e with Some _ => true | None => false end)
}.
