(** * The messages of the metadata reader: src/geoarrow/metadata.c *)
From Verif Require Import Base Text BufferModel MetadataModel WktErrorModel.
Local Open Scope Z_scope.

(** The bytes of a C string: those before the first NUL. *)
Fixpoint up_to_nul (t : bytes) : bytes :=
  match t with c :: r => if (c =? 0)%N then [] else c :: up_to_nul r | [] => [] end.

Section Messages.
  (** The byte after the end of the metadata, if it can be read (as in MetadataModel.v). *)
  Variable past : option N.

  (** [%.*s] with [(int)size] and a pointer to the last bytes [t] of the metadata: no more bytes than the precision, but all up
      to a NUL if it is negative. Simplification: more than one byte beyond the metadata is never readable. *)
  Definition print_precision (size : Z) (t : bytes) : outcome bytes :=
    if to_int32 size <? 0 then
      if existsb (N.eqb 0) t then Ok (up_to_nul t)
      else match past with Some 0%N => Ok t | _ => UB end
    else Ok (up_to_nul (firstn (Z.to_nat (to_int32 size)) t)).

  (** metadata.c lines 292-340: the message after GeoArrowMetadataViewInit; [before] is what it was. ArrowErrorSet
      (src/vendor/nanoarrow/nanoarrow.c lines 31-50) is the same as GeoArrowErrorSet. Simplification: [vsnprintf] does not fail
      for messages of 2^31 bytes and more. *)
  Definition metadata_message (fuel : nat) (b before : bytes) : outcome bytes :=
    match b with
    | [] => Ok before
    | _ :: _ =>
        match parse_json past fuel (Metadata EDGE_PLANAR CRS_NONE []) (skip_whitespace b) with
        | Ok (_, s) =>
            match skip_whitespace s with
            | [] => Ok before
            | (_ :: _) as rest =>
                do t <- print_precision (Z.of_nat (length rest)) rest;
                Ok (snd (error_set ($"Expected JSON object with no trailing characters but found trailing '" ++ t ++ $"'")))
            end
        | Err _ =>
            do t <- print_precision (Z.of_nat (length b)) b;
            Ok (snd (error_set ($"Expected valid GeoArrow JSON metadata but got '" ++ t ++ $"'")))
        | UB => UB
        | NoFuel => NoFuel
        end
    end.
End Messages.
