(** * The messages of the WKB reader: src/geoarrow/wkb_reader.c *)
From Verif Require Import Base Text TypesModel NodesModel WkbReaderModel WktErrorModel.
Local Open Scope Z_scope.

(** What a function of the reader does: it goes on ([Fine]), or sets the message and returns a code ([Said]), or reads outside of the
    input ([Wild]). [Exhausted]: the model's fuel is. *)
Inductive told (A : Type) := Fine (a : A) | Said (code : Z) (text : bytes) | Wild | Exhausted.
Arguments Fine {A}. Arguments Said {A}. Arguments Wild {A}. Arguments Exhausted {A}.
Definition and_then {A B} (m : told A) (k : A -> told B) : told B :=
  match m with Fine a => k a | Said code text => Said code text | Wild => Wild | Exhausted => Exhausted end.

(** [%ld] of a number that is not negative, and of [data - data0]. Simplification: long has 64 bits. *)
Definition ld (z : Z) : bytes := print_ld (Z.to_N z).

Section Reader.
  Variable src : bytes.

  (** wkb_reader.c lines 21-33: WKBReaderReadEndian *)
  Definition m_endian (s : rstate) : told rstate :=
    if 0 <? rs_size s then
      match slice src (rs_pos s) 1 with
      | Some b => Fine {| rs_pos := rs_pos s + 1; rs_size := rs_size s - 1; rs_swap := negb (N.eqb (le_val b) 1) |}
      | None => Wild
      end
    else Said EINVAL ($"Expected endian byte but found end of buffer at byte " ++ ld (rs_pos s)).

  (** wkb_reader.c lines 35-50: WKBReaderReadUInt32 *)
  Definition m_u32 (s : rstate) : told (rstate * N) :=
    if 4 <=? rs_size s then
      match slice src (rs_pos s) 4 with
      | Some b => Fine ({| rs_pos := rs_pos s + 4; rs_size := rs_size s - 4; rs_swap := rs_swap s |},
                        if rs_swap s then bswap32 (le_val b) else le_val b)
      | None => Wild
      end
    else Said EINVAL ($"Expected uint32 but found end of buffer at byte " ++ ld (rs_pos s)).

  (** wkb_reader.c lines 52-75: WKBReaderReadNodeCoordinates, without what it does to the node *)
  Definition m_coordinates (s : rstate) (n_coords coord_size : N) : told rstate :=
    let bytes_needed := Z.of_N (wrap32 (n_coords * coord_size) * 8) in
    if rs_size s <? bytes_needed then
      Said EINVAL ($"Expected coordinate sequence of " ++ ld (Z.of_N n_coords) ++ $" coords (" ++ ld bytes_needed ++ $" bytes) but found " ++
                   ld (rs_size s) ++ $" bytes remaining at byte " ++ ld (rs_pos s))
    else Fine {| rs_pos := rs_pos s + bytes_needed; rs_size := rs_size s; rs_swap := rs_swap s |}.

  (** [for (uint32_t i = 0; i < size; i++)], wkb_reader.c lines 169 and 190 *)
  Fixpoint m_times (fuel : nat) (rd : rstate -> told rstate) (n : N) (s : rstate) : told rstate :=
    if N.eqb n 0 then Fine s
    else
      match fuel with
      | O => Exhausted
      | S f => and_then (rd s) (m_times f rd (n - 1))
      end.

  (** wkb_reader.c lines 169-177: one ring *)
  Definition m_ring (coord_size : N) (s : rstate) : told rstate :=
    and_then (m_u32 s) (fun '(s, ring_size) => m_coordinates s ring_size coord_size).

  (** wkb_reader.c lines 77-204: WKBReaderReadNodeGeometry; line 82: the position of the type *)
  Fixpoint m_geometry (fuel : nat) (level : N) (s : rstate) : told rstate :=
    match fuel with
    | O => Exhausted
    | S f =>
        and_then (m_endian s) (fun s =>
        let at_type := rs_pos s in
        and_then (m_u32 s) (fun '(s, w) =>
        and_then (if ewkb_has w EWKB_SRID_BIT then and_then (m_u32 s) (fun '(s, _) => Fine s) else Fine s) (fun s =>
        let '(g, z, m) := resolve_type w in
        and_then (if negb (N.eqb g 1) then m_u32 s else Fine (s, 1%N)) (fun '(s, size) =>
        let coord_size := (2 + b2n z + b2n m)%N in
        if (N.eqb g 1 || N.eqb g 2) then m_coordinates s size coord_size
        else if N.eqb g 3 then
          if N.eqb level 255 then Said ENOTSUP $"WKBReader exceeded maximum recursion"
          else m_times f (m_ring coord_size) size s
        else if (N.eqb g 4 || N.eqb g 5 || N.eqb g 6 || N.eqb g 7) then
          if N.eqb level 255 then Said ENOTSUP $"WKBReader exceeded maximum recursion"
          else m_times f (m_geometry f (level + 1)%N) size s
        else Said EINVAL ($"Expected valid geometry type code but found " ++ ld (Z.of_N g) ++ $" at byte " ++ ld at_type)))))
    end.

  (** wkb_reader.c lines 244-267: GeoArrowWKBReaderRead; [swap0] is left over from the call before *)
  Definition m_read (swap0 : bool) : told rstate :=
    m_geometry (S (length src)) 0 {| rs_pos := 0; rs_size := Z.of_nat (length src); rs_swap := swap0 |}.
  (** The message afterwards; [before] is what it was. *)
  Definition wkb_message (swap0 : bool) (before : bytes) : bytes :=
    match m_read swap0 with Said _ text => snd (error_set text) | _ => before end.
End Reader.
