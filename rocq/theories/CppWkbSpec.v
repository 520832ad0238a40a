(** * What the C++ WKB parser should do *)
From Verif Require Import Base TypesSpec GeomSpec WkbSpec.
Local Open Scope N_scope.

(** A geometry together with the choices its encoding makes. A header has a byte order, a type word and, when bit 29
    of the word is set, an SRID. *)
Record header := Header { h_endian : endian; h_word : N; h_srid : option N }.

Inductive tree :=
| TPoint (h : header) (d : dim) (c : coord)
| TLine (h : header) (d : dim) (cs : list coord)
| TPoly (h : header) (d : dim) (rings : list (list coord))
| TColl (h : header) (k : coll) (d : dim) (parts : list tree).

(** The geometry. *)
Fixpoint tree_geom (t : tree) : geom :=
  match t with
  | TPoint _ d c => GPoint d [c]
  | TLine _ d cs => GLine d cs
  | TPoly _ d rings => GPoly d rings
  | TColl _ k d parts => GColl k d (map tree_geom parts)
  end.

(** Its bytes. *)
Definition header_bytes (h : header) : bytes :=
  [endian_byte (h_endian h)] ++ enc32 (h_endian h) (h_word h) ++
  match h_srid h with Some n => enc32 (h_endian h) n | None => [] end.
Definition count_bytes {A} (h : header) (l : list A) : bytes := enc32 (h_endian h) (N.of_nat (length l)).
Fixpoint tree_bytes (t : tree) : bytes :=
  match t with
  | TPoint h d c => header_bytes h ++ enc_coord (h_endian h) c
  | TLine h d cs => header_bytes h ++ enc_ring (h_endian h) cs
  | TPoly h d rings => header_bytes h ++ count_bytes h rings ++ flat_map (enc_ring (h_endian h)) rings
  | TColl h k d parts => header_bytes h ++ count_bytes h parts ++ flat_map tree_bytes parts
  end.

(** [announces w srid d base]: the type word [w] stands for type [base] with dimensions [d], and an SRID follows it if
    [srid] is one. The low 24 bits hold the ISO code: its last three digits are the type; its thousands are 1 for Z,
    2 for M and 3 for both. Bits 31 and 30 also announce Z and M. Other bits and thousands above 3 have no effect. *)
Definition iso_code (w : N) : N := w mod 2 ^ 24.
Definition announces (w : N) (srid : option N) (d : dim) (base : N) : Prop :=
  w < 2 ^ 32 /\ iso_code w mod 1000 = base /\
  (N.testbit w 29 = true <-> srid <> None) /\
  (has_z d = true <-> N.testbit w 31 = true \/ iso_code w / 1000 = 1 \/ iso_code w / 1000 = 3) /\
  (has_m d = true <-> N.testbit w 30 = true \/ iso_code w / 1000 = 2 \/ iso_code w / 1000 = 3).

Definition header_ok (h : header) (d : dim) (base : N) : Prop :=
  announces (h_word h) (h_srid h) d base /\ srid_ok (h_srid h).

(** The trees that have an encoding: headers announce what follows, coordinates have the right size and counts fit in
    32 bits. *)
Inductive tree_ok : tree -> Prop :=
| ok_point h d c : header_ok h d 1 -> wf_coord d c -> tree_ok (TPoint h d c)
| ok_line h d cs : header_ok h d 2 -> wf_seq d cs -> count_ok cs -> tree_ok (TLine h d cs)
| ok_poly h d rings : header_ok h d 3 -> Forall (wf_seq d) rings -> Forall count_ok rings -> count_ok rings ->
    tree_ok (TPoly h d rings)
| ok_coll h k d parts : header_ok h d (coll_code k) -> count_ok parts -> Forall tree_ok parts ->
    tree_ok (TColl h k d parts).

(** The header of a tree. *)
Definition tree_header (t : tree) : header :=
  match t with TPoint h _ _ | TLine h _ _ | TPoly h _ _ | TColl h _ _ _ => h end.
Definition tree_dim (t : tree) : dim := match t with TPoint _ d _ | TLine _ d _ | TPoly _ d _ | TColl _ _ d _ => d end.
Definition tree_code (t : tree) : N := geom_code (tree_geom t).

(** The SRID the API reports: 0xFFFFFFFF for none. *)
Definition reported_srid (srid : option N) : N := match srid with Some n => n | None => 2 ^ 32 - 1 end.

(** The coordinate sequences directly in a geometry, and its members. *)
Definition tree_sequences (t : tree) : list (list coord) :=
  match t with TPoint _ _ c => [[c]] | TLine _ _ cs => [cs] | TPoly _ _ rings => rings | TColl _ _ _ _ => [] end.
Definition tree_parts (t : tree) : list tree := match t with TColl _ _ _ parts => parts | _ => [] end.

(** A sequence located in the blob: [n] coordinates of dimensions [d] in byte order [e] from byte [p] on, one after the
    other, are [cs]. *)
Definition located (blob : bytes) (p : Z) (e : endian) (cs : list coord) : Prop :=
  exists before after, blob = before ++ enc_coords e cs ++ after /\ p = Z.of_nat (length before).

(** The vertices of a geometry in the order of the encoding, each with the dimensions of the geometry it belongs to. *)
Fixpoint tree_vertices (t : tree) : list (dim * coord) :=
  match t with
  | TPoint _ d c => [(d, c)]
  | TLine _ d cs => map (fun c => (d, c)) cs
  | TPoly _ d rings => map (fun c => (d, c)) (concat rings)
  | TColl _ _ _ parts => flat_map tree_vertices parts
  end.

(** Consecutive pairs. *)
Fixpoint pairs {A} (l : list A) : list (A * A) :=
  match l with
  | a :: (b :: _) as r => (a, b) :: pairs r
  | _ => []
  end.

(** The edges: the segments of linestrings and rings, in order; a point (also a member of a multipoint) is an edge from
    the point to itself. Everything in a multipoint counts as a point. *)
Definition degenerate {A} (l : list A) : list (A * A) := map (fun v => (v, v)) l.
Fixpoint tree_edges (t : tree) : list ((dim * coord) * (dim * coord)) :=
  match t with
  | TPoint _ d c => [((d, c), (d, c))]
  | TLine _ d cs => pairs (map (fun c => (d, c)) cs)
  | TPoly _ d rings => flat_map (fun cs => pairs (map (fun c => (d, c)) cs)) rings
  | TColl _ CMultipoint _ _ => degenerate (tree_vertices t)
  | TColl _ _ _ parts => flat_map tree_edges parts
  end.

(** A vertex handed to a callback that asks for dimensions [dst]: missing ordinates are NaN. *)
Definition as_dims (dst : dim) (v : dim * coord) : coord := convert_coord (fst v) dst (snd v).
Definition both {A B} (f : A -> B) (p : A * A) : B * B := (f (fst p), f (snd p)).

(** [b] begins with [p]. *)
Definition prefix (p b : bytes) : Prop := exists rest, b = p ++ rest.
Definition strict_prefix (p b : bytes) : Prop := exists rest, rest <> [] /\ b = p ++ rest.
