(** * C01, C02, C03: type ids, byte order, coordinate copies *)
From Verif Require Import Base TypesModel TypesSpec TypesProofs CoordsModel CoordsSpec CoordsProofs.
Local Open Scope Z_scope.

(** ** C01 *)

Theorem C01_make_type_parts : forall k d l, supported k d l ->
  let t := make_type (geometry_kind_code k) (dim_code d) (layout_code l) in
  geometry_type_from_type t = geometry_kind_code k /\
  dimensions_from_type t = dim_code d /\
  coord_type_from_type t = layout_code l /\
  In t native_type_ids.
Proof. exact make_type_parts. Qed.
Print Assumptions C01_make_type_parts.

Example C01_make_type_parts_ex : supported KMultipolygon XYZM Interleaved /\ make_type 6 4 2 = 13006.
Proof. split; [discriminate|reflexivity]. Qed.

Theorem C01_make_type_injective : forall k1 d1 l1 k2 d2 l2, supported k1 d1 l1 -> supported k2 d2 l2 ->
  make_type (geometry_kind_code k1) (dim_code d1) (layout_code l1) =
  make_type (geometry_kind_code k2) (dim_code d2) (layout_code l2) ->
  k1 = k2 /\ d1 = d2 /\ l1 = l2.
Proof. exact make_type_injective. Qed.
Print Assumptions C01_make_type_injective.

Theorem C01_make_type_unknown : forall g d c,
  g = 0 \/ d = 0 \/ c = 0 \/ (g = 990 /\ c <> 1) -> make_type g d c = 0.
Proof. exact make_type_unknown. Qed.
Print Assumptions C01_make_type_unknown.

(** Over all integers used as type ids: recomposition is the identity on the native ids and nothing else. *)
Theorem C01_recompose : forall t, 0 <= t ->
  let r := make_type (geometry_type_from_type t) (dimensions_from_type t) (coord_type_from_type t) in
  (In t native_type_ids -> r = t) /\ (~ In t native_type_ids -> r = 0).
Proof. exact recompose. Qed.
Print Assumptions C01_recompose.

Example C01_recompose_ex :
  In 12003 native_type_ids /\ ~ In 7 native_type_ids /\ ~ In 100001 native_type_ids.
Proof.
  split; [|split].
  - apply in_dec_b. reflexivity.
  - intros H. cbn in H. repeat (destruct H as [H|H]; [discriminate|]). exact H.
  - intros H. cbn in H. repeat (destruct H as [H|H]; [discriminate|]). exact H.
Qed.

(** The C++ traits agree with the C functions. *)
Theorem C01_cpp_traits : forall k d l,
  let t := traits_type_id (geometry_kind_code k) (dim_code d) (layout_code l) in
  traits_geometry_type t = geometry_kind_code k /\
  traits_dimensions t = dim_code d /\
  traits_coord_type t = layout_code l /\
  (supported k d l -> t = make_type (geometry_kind_code k) (dim_code d) (layout_code l)).
Proof.
  exact (fun k d l => match traits_parts k d l with
                      | conj A (conj B C) => conj A (conj B (conj C (fun H => eq_sym (make_type_traits k d l H))))
                      end).
Qed.
Print Assumptions C01_cpp_traits.

(** ** C02 *)

Theorem C02_bswap32 : forall x, (x < 2 ^ 32)%N ->
  le_bytes 4 (bswap32 x) = rev (le_bytes 4 x) /\ (bswap32 x < 2 ^ 32)%N /\ bswap32 (bswap32 x) = x.
Proof. exact (fun x H => conj (bswap32_spec x H) (conj (bswap32_bound x H) (bswap32_involutive x H))). Qed.
Print Assumptions C02_bswap32.

Theorem C02_bswap64 : forall x, (x < 2 ^ 64)%N ->
  le_bytes 8 (bswap64 x) = rev (le_bytes 8 x) /\ (bswap64 x < 2 ^ 64)%N /\ bswap64 (bswap64 x) = x.
Proof. exact (fun x H => conj (bswap64_spec x H) (conj (bswap64_bound x H) (bswap64_involutive x H))). Qed.
Print Assumptions C02_bswap64.

Example C02_ex : (0x0102030405060708 < 2 ^ 64)%N /\ bswap64 0x0102030405060708 = 0x0807060504030201%N.
Proof. split; reflexivity. Qed.

(** ** C03 *)

(** The source coordinates [so .. so+n) in memory are [coords 0 .. coords (n-1)]; the destination cells exist, are
    pairwise distinct, and do not overlap the source. Then the copy succeeds, every destination coordinate is the source
    coordinate converted to the destination's dimensions, and nothing else changes. *)
Theorem C03_coord_view_copy : forall src dst sd dd so dof n m0 coords,
  (forall i, in_range n i -> read_coord m0 src sd (so + i) (coords i)) ->
  (forall i j, in_range n i -> (j < ndim dd)%nat -> m0 (cell dst (dof + i) j) <> None) ->
  (forall i j i' j', in_range n i -> in_range n i' -> (j < ndim dd)%nat -> (j' < ndim dd)%nat ->
     cell dst (dof + i) j = cell dst (dof + i') j' -> i = i' /\ j = j') ->
  (forall i j i' j', in_range n i -> in_range n i' -> (j < ndim sd)%nat -> (j' < ndim dd)%nat ->
     cell src (so + i) j <> cell dst (dof + i') j') ->
  cv_n_values dst = Z.of_nat (ndim dd) ->
  exists m',
    coord_view_copy src (dim_code sd) so dst (dim_code dd) dof n m0 = Ok m' /\
    (forall i, in_range n i -> read_coord m' dst dd (dof + i) (convert_coord sd dd (coords i))) /\
    (forall a, (forall i j, in_range n i -> (j < ndim dd)%nat -> a <> cell dst (dof + i) j) -> m' a = m0 a).
Proof. exact coord_view_copy_correct. Qed.
Print Assumptions C03_coord_view_copy.

(** A concrete case: two interleaved XYZM coordinates copied into the second and third row of a separated XYM view. *)
Definition C03_src : cview :=
  {| cv_values := Quad (0%nat, 0) (0%nat, 1) (0%nat, 2) (0%nat, 3); cv_n_values := 4; cv_stride := 4 |}.
Definition C03_dst : cview :=
  {| cv_values := Quad (1%nat, 0) (2%nat, 0) (3%nat, 0) (0%nat, 0); cv_n_values := 3; cv_stride := 1 |}.
Definition C03_mem : dmem := fun a =>
  match fst a with
  | 0%nat => if (0 <=? snd a) && (snd a <? 8) then Some (Z.to_N (100 + snd a)) else None
  | 1%nat | 2%nat | 3%nat => if (0 <=? snd a) && (snd a <? 4) then Some 7%N else None
  | _ => None
  end.
Definition C03_coords (i : Z) : list N :=
  [Z.to_N (100 + 4 * i); Z.to_N (101 + 4 * i); Z.to_N (102 + 4 * i); Z.to_N (103 + 4 * i)].

Example C03_ex_hypotheses :
  (forall i, in_range 2 i -> read_coord C03_mem C03_src XYZM (0 + i) (C03_coords i)) /\
  (forall i j, in_range 2 i -> (j < ndim XYM)%nat -> C03_mem (cell C03_dst (1 + i) j) <> None) /\
  (forall i j i' j', in_range 2 i -> in_range 2 i' -> (j < ndim XYM)%nat -> (j' < ndim XYM)%nat ->
     cell C03_dst (1 + i) j = cell C03_dst (1 + i') j' -> i = i' /\ j = j') /\
  (forall i j i' j', in_range 2 i -> in_range 2 i' -> (j < ndim XYZM)%nat -> (j' < ndim XYM)%nat ->
     cell C03_src (0 + i) j <> cell C03_dst (1 + i') j') /\
  cv_n_values C03_dst = Z.of_nat (ndim XYM) /\
  convert_coord XYZM XYM (C03_coords 1) = [104; 105; 107]%N.
Proof.
  assert (forall i, in_range 2 i -> i = 0 \/ i = 1) as H2 by (unfold in_range; lia).
  assert (forall j, (j < 3)%nat -> j = 0 \/ j = 1 \/ j = 2)%nat as H3 by lia.
  assert (forall j, (j < 4)%nat -> j = 0 \/ j = 1 \/ j = 2 \/ j = 3)%nat as H4 by lia.
  split; [|split; [|split; [|split]]].
  - intros i Hi. split; [reflexivity|]. intros j Hj.
    destruct (H2 i Hi) as [->| ->], (H4 j Hj) as [->|[->|[->| ->]]]; reflexivity.
  - intros i j Hi Hj. destruct (H2 i Hi) as [->| ->], (H3 j Hj) as [->|[->| ->]]; discriminate.
  - intros i j i' j' Hi Hi' Hj Hj'.
    destruct (H2 i Hi) as [->| ->], (H2 i' Hi') as [->| ->], (H3 j Hj) as [->|[->| ->]], (H3 j' Hj') as [->|[->| ->]];
      intros E; try discriminate E; auto.
  - intros i j i' j' Hi Hi' Hj Hj'.
    destruct (H2 i Hi) as [->| ->], (H2 i' Hi') as [->| ->], (H4 j Hj) as [->|[->|[->| ->]]],
      (H3 j' Hj') as [->|[->| ->]]; intros E; discriminate E.
  - split; reflexivity.
Qed.
