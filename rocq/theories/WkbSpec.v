(** * Well-known binary *)
From Verif Require Import Base GeomSpec.
Local Open Scope N_scope.

Inductive endian := LE | BE.
Definition endian_byte (e : endian) : N := match e with LE => 1 | BE => 0 end.
Definition enc32 (e : endian) (n : N) : bytes := match e with LE => le_bytes 4 n | BE => be_bytes 4 n end.
Definition enc64 (e : endian) (n : N) : bytes := match e with LE => le_bytes 8 n | BE => be_bytes 8 n end.

Definition enc_coord (e : endian) (c : coord) : bytes := flat_map (enc64 e) c.
Definition enc_coords (e : endian) (cs : list coord) : bytes := flat_map (enc_coord e) cs.

(** How a header spells its type: ISO (thousands give the dimensions) or EWKB (high bits give them), and an optional
    embedded SRID. *)
Inductive style := Iso | Ewkb.
Definition has_z (d : dim) : bool := match d with XYZ | XYZM => true | _ => false end.
Definition has_m (d : dim) : bool := match d with XYM | XYZM => true | _ => false end.
Definition type_word (s : style) (srid : option N) (d : dim) (base : N) : N :=
  match s with
  | Iso => base + 1000 * (dimN d - 1)
  | Ewkb => base + (if has_z d then 2 ^ 31 else 0) + (if has_m d then 2 ^ 30 else 0)
  end + match srid with Some _ => 2 ^ 29 | None => 0 end.
Definition enc_header (e : endian) (s : style) (srid : option N) (d : dim) (base : N) : bytes :=
  [endian_byte e] ++ enc32 e (type_word s srid d base) ++ match srid with Some n => enc32 e n | None => [] end.

Definition enc_ring (e : endian) (cs : list coord) : bytes := enc32 e (N.of_nat (length cs)) ++ enc_coords e cs.
Definition count_ok {A} (l : list A) : Prop := N.of_nat (length l) < 2 ^ 32.
Definition srid_ok (srid : option N) : Prop := match srid with Some n => n < 2 ^ 32 | None => True end.

(** [wkb g b]: the bytes [b] are an encoding of [g]. Every (sub)geometry chooses its own byte order and style.
    WKB has no empty points: a point always has one coordinate. *)
Inductive wkb : geom -> bytes -> Prop :=
| wkb_point e s srid d c : srid_ok srid ->
    wkb (GPoint d [c]) (enc_header e s srid d 1 ++ enc_coord e c)
| wkb_line e s srid d cs : srid_ok srid -> count_ok cs ->
    wkb (GLine d cs) (enc_header e s srid d 2 ++ enc32 e (N.of_nat (length cs)) ++ enc_coords e cs)
| wkb_poly e s srid d rings : srid_ok srid -> count_ok rings -> Forall count_ok rings ->
    wkb (GPoly d rings) (enc_header e s srid d 3 ++ enc32 e (N.of_nat (length rings)) ++ flat_map (enc_ring e) rings)
| wkb_coll e s srid k d parts b : srid_ok srid -> count_ok parts -> wkb_parts parts b ->
    wkb (GColl k d parts) (enc_header e s srid d (coll_code k) ++ enc32 e (N.of_nat (length parts)) ++ b)
with wkb_parts : list geom -> bytes -> Prop :=
| wkb_nil : wkb_parts [] []
| wkb_cons g gs b1 b2 : wkb g b1 -> wkb_parts gs b2 -> wkb_parts (g :: gs) (b1 ++ b2).

(** The encoding the library writes: little-endian ISO, an empty point spelled as a point of NaNs. *)
Definition iso_header (d : dim) (base : N) : bytes := [1] ++ le_bytes 4 (base + 1000 * (dimN d - 1)).
Definition nan_coord (d : dim) : coord := repeat qnan (ndim d).
Fixpoint iso_wkb (g : geom) : bytes :=
  match g with
  | GPoint d [] => iso_header d 1 ++ enc_coord LE (nan_coord d)
  | GPoint d cs => iso_header d 1 ++ enc_coords LE cs
  | GLine d cs => iso_header d 2 ++ le_bytes 4 (N.of_nat (length cs)) ++ enc_coords LE cs
  | GPoly d rings => iso_header d 3 ++ le_bytes 4 (N.of_nat (length rings)) ++ flat_map (enc_ring LE) rings
  | GColl k d parts =>
      iso_header d (coll_code k) ++ le_bytes 4 (N.of_nat (length parts)) ++
      (fix go gs := match gs with [] => [] | g :: gs => iso_wkb g ++ go gs end) parts
  end.

(** What a reader of that encoding sees: empty points have become points of NaNs. *)
Fixpoint nan_points (g : geom) : geom :=
  match g with
  | GPoint d [] => GPoint d [nan_coord d]
  | GColl k d parts => GColl k d ((fix go gs := match gs with [] => [] | g :: gs => nan_points g :: go gs end) parts)
  | _ => g
  end.

(** The first type word of a blob (its second to fifth byte, in the byte order announced by the first), and the
    geometry type it announces. *)
Definition first_type_word (b : bytes) : option N :=
  match b with
  | e :: w0 :: w1 :: w2 :: w3 :: _ => Some (if e =? 1 then le_val [w0; w1; w2; w3] else le_val [w3; w2; w1; w0])
  | _ => None
  end.
Definition announced_type (b : bytes) : option N :=
  match first_type_word b with
  | Some w => Some (N.land w 0xffff mod 1000)
  | None => None
  end.
