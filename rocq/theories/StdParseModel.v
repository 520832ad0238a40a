(** * Reading doubles with the C library *)
(** src/geoarrow/double_parse_std.c: GeoArrowFromChars of builds without fast_float. *)
From Verif Require Import Base.

(** What a C function sees of a string in memory: the bytes before the first NUL. *)
Fixpoint c_string (memory : bytes) : bytes :=
  match memory with
  | [] => []
  | c :: r => if (c =? 0)%N then [] else c :: c_string r
  end.
(** memcpy and the assignment of the NUL at the start of an array of [size] bytes; outside of it is undefined. *)
Definition stored (size : Z) (memory : bytes) : outcome bytes := if (Z.of_nat (length memory) <=? size)%Z then Ok memory else UB.

Section Strtod.
(** strtod of the C library: the value (as a 64-bit pattern) and the number of bytes before *end_ptr *)
Variable strtod : bytes -> N * nat.

(** Lines 10-35: GeoArrowFromChars *)
Definition from_chars_std (t : bytes) : outcome N :=
  match t with
  | [] => Err EINVAL
  | _ =>
      let size_bytes := Z.of_nat (length t) in
      if (64 <=? size_bytes)%Z then Err EINVAL
      else
        do src_copy <- stored 64 (t ++ [0%N]);
        let '(result, end_ptr) := strtod (c_string src_copy) in
        if Nat.eqb end_ptr (length t) then Ok result else Err EINVAL
  end.

(** The parser of wkt_reader.c lines 124-136 (ReadOrdinate) *)
Definition std_parse (t : bytes) : option N := match from_chars_std t with Ok f => Some f | _ => None end.
End Strtod.
