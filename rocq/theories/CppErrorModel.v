(** * Messages of exceptions: src/geoarrow/hpp/exception.hpp and src/geoarrow/hpp/wkb_util.hpp *)
From Verif Require Import Base Text GeomSpec ArrowModel ArrayViewModel CppCoordModel CppWkbModel CppArrayModel WktErrorModel.
Local Open Scope Z_scope.

(** std::to_string of an int or an int64_t *)
Definition to_string (z : Z) : bytes := if z <? 0 then $"-" ++ print_ld (Z.to_N (- z)) else print_ld (Z.to_N z).

(** ** GEOARROW_THROW_NOT_OK *)

(** A char array as a C string: the bytes before the first NUL. [None]: there is none, and reading goes on beyond the array. *)
Fixpoint c_text (memory : bytes) : option bytes :=
  match memory with
  | [] => None
  | c :: r => if (c =? 0)%N then Some [] else option_map (cons c) (c_text r)
  end.

(** exception.hpp lines 23-34 and 54-67: the code and the message of the exception that is thrown for [code], the result of the call
    [call] as it is spelled in the source. [error] is the message of the GeoArrowError, if there is one. [Ok None]: nothing is thrown.
    Simplification: GEOARROW_DEBUG, which adds the place in the source, is off. *)
Definition throw_not_ok (error : option bytes) (call : bytes) (code : Z) : outcome (option (Z * bytes)) :=
  if code =? 0 then Ok None
  else
    let msg := call ++ $" failed with errno " ++ to_string code in
    match error with
    | None => Ok (Some (code, msg))
    | Some memory => do t <- or_ub (c_text memory); Ok (Some (code, msg ++ $": " ++ [10%N] ++ t))
    end.

(** ** Arrays of WKB *)

(** wkb_util.hpp lines 314-329: ErrorToString *)
Definition error_to_string (st : status) : bytes :=
  match st with
  | OK => $"OK"
  | TOO_FEW_BYTES => $"TOO_FEW_BYTES"
  | TOO_MANY_BYTES => $"TOO_MANY_BYTES"
  | INVALID_ENDIAN => $"INVALID_ENDIAN"
  | INVALID_GEOMETRY_TYPE => $"INVALID_GEOMETRY_TYPE"
  end.

(** wkb_util.hpp lines 545-553 within the loops of [wkb_collect] (CppArrayModel.v): what was called back with, and the message of the
    exception that ended the iteration, if one did. An exception of [body] is [Err]. *)
Fixpoint wkb_collect_told {A} (n : nat) (i : Z) (s : wkbseq) (valid : Z -> outcome bool)
    (body : bytes -> wgeom -> outcome (list A)) (p : pstate) (g : wgeom) : outcome (list A * option bytes) :=
  match n with
  | O => Ok ([], None)
  | S n' =>
      do ok <- valid i;
      if ok : bool then
        do b <- seq_blob s i;
        do (st, _, p, g) <- parse_view b p g;
        match st with
        | OK =>
            do x <- body b g;
            do (y, what) <- wkb_collect_told n' (i + 1) s valid body p g;
            Ok (x ++ y, what)
        | _ => Ok ([], Some ($"Failed to parse WKB at index " ++ to_string i ++ $" with error " ++ error_to_string st))
        end
      else wkb_collect_told n' (i + 1) s valid body p g
  end.

(** wkb_util.hpp lines 566-578, and array_util.hpp lines 1026-1065, as [wkb_visit], [wkb_array_vertices] and [wkb_array_edges] *)
Definition wkb_visit_told {A} (body : bytes -> wgeom -> outcome (list A)) (a : carray wkbseq) : outcome (list A * option bytes) :=
  let s := ca_value a in
  if bs_length s <? 0 then UB
  else wkb_collect_told (Z.to_nat (bs_length s)) 0 s (fun i => valid_index (ca_validity a) (i + bs_offset s)) body
                        fresh_parser fresh_geometry.
Definition wkb_vertices_told (dst : dim) (a : carray wkbseq) : outcome (list coord * option bytes) :=
  wkb_visit_told (fun b g => geometry_vertices b dst g) a.
Definition wkb_edges_told (dst : dim) (a : carray wkbseq) : outcome (list (coord * coord) * option bytes) :=
  wkb_visit_told (fun b g => geometry_edges b dst g) a.
