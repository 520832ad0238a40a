From Verif Require Import Base BaseFacts TypesModel TypesProofs GeomSpec WkbSpec NodesModel WkbReaderModel WkbReaderProofs.
Local Open Scope Z_scope.

(** ** Termination on every input *)

(** A parsing step that never runs out of fuel, and that uses up input when it succeeds. *)
Definition progress (rd : rstate -> outcome (rstate * list node)) (bound : Z) : Prop :=
  forall s, 0 <= rs_size s < bound ->
    rd s <> NoFuel /\ forall s' ns, rd s = Ok (s', ns) -> 0 <= rs_size s' < rs_size s.

Lemma read_endian_prog src s : read_endian src s <> NoFuel /\
  forall s', read_endian src s = Ok s' -> 0 <= rs_size s' < rs_size s.
Proof.
  unfold read_endian. destruct (Z.ltb_spec 0 (rs_size s)); [|split; [discriminate|discriminate]].
  destruct (slice _ _ _); cbn [or_ub obind]; (split; [discriminate|]); intros s' E; [|discriminate].
  injection E as <-. cbn. lia.
Qed.

Lemma read_u32_prog src s : read_u32 src s <> NoFuel /\
  forall s' n, read_u32 src s = Ok (s', n) -> 0 <= rs_size s' < rs_size s.
Proof.
  unfold read_u32. destruct (Z.leb_spec 4 (rs_size s)); [|split; [discriminate|discriminate]].
  destruct (slice _ _ _); cbn [or_ub obind]; (split; [discriminate|]); intros s' n E; [|discriminate].
  injection E as <- _. cbn. lia.
Qed.

Lemma read_node_coordinates_size s n c nd : read_node_coordinates s n c nd <> NoFuel /\
  forall s' nd', read_node_coordinates s n c nd = Ok (s', nd') -> rs_size s' = rs_size s.
Proof.
  unfold read_node_coordinates. destruct (_ <? _); (split; [discriminate|]); intros s' nd' E; [discriminate|].
  injection E as <- _. reflexivity.
Qed.

Lemma read_n_prog rd bound f n : progress rd bound ->
  forall s, 0 <= rs_size s < bound -> rs_size s < Z.of_nat f ->
    read_n f rd n s <> NoFuel /\ forall s' ns, read_n f rd n s = Ok (s', ns) -> 0 <= rs_size s' <= rs_size s.
Proof.
  intros Hrd. revert n; induction f as [|f IH]; intros n s Hs Hf; [lia|].
  cbn [read_n]. destruct (N.eqb n 0).
  { split; [discriminate|]. intros s' ns E. injection E as <- _. lia. }
  destruct (Hrd s Hs) as [Hnf Hok].
  destruct (rd s) as [[s1 a]| | |] eqn:E1; cbn [obind];
    [|split; discriminate|split; discriminate|congruence].
  specialize (Hok _ _ eq_refl).
  destruct (IH (n - 1)%N s1 ltac:(lia) ltac:(lia)) as [Hnf2 Hok2].
  destruct (read_n f rd (n - 1) s1) as [[s2 b]| | |] eqn:E2; cbn [obind];
    [|split; discriminate|split; discriminate|congruence].
  split; [discriminate|]. intros s' ns E. injection E as <- _. specialize (Hok2 _ _ eq_refl). lia.
Qed.

Lemma read_ring_prog src c t bound : progress (read_ring src c t) bound.
Proof.
  intros s Hs. unfold read_ring. destruct (read_u32_prog src s) as [Hnf Hok].
  destruct (read_u32 src s) as [[s1 n]| | |]; cbn [obind]; [|split; discriminate|split; discriminate|congruence].
  specialize (Hok _ _ eq_refl).
  match goal with |- context[read_node_coordinates s1 n c ?nd] => destruct (read_node_coordinates_size s1 n c nd) as [Hnf2 Hok2];
    destruct (read_node_coordinates s1 n c nd) as [[s2 nd2]| | |] end; cbn [obind];
    [|split; discriminate|split; discriminate|congruence].
  split; [discriminate|]. intros s' ns E. injection E as <- _. specialize (Hok2 _ _ eq_refl). lia.
Qed.

Lemma read_header_prog src s : read_header src s <> NoFuel /\
  forall s' t, read_header src s = Ok (s', t) -> 0 <= rs_size s' /\ rs_size s' + 1 < rs_size s.
Proof.
  unfold read_header. destruct (read_endian_prog src s) as [A1 B1].
  destruct (read_endian src s) as [s1| | |]; cbn [obind]; [|split; discriminate|split; discriminate|congruence].
  specialize (B1 _ eq_refl). destruct (read_u32_prog src s1) as [A2 B2].
  destruct (read_u32 src s1) as [[s2 w]| | |]; cbn [obind]; [|split; discriminate|split; discriminate|congruence].
  specialize (B2 _ _ eq_refl).
  destruct (ewkb_has w EWKB_SRID_BIT); cbn [obind].
  - destruct (read_u32_prog src s2) as [A3 B3].
    destruct (read_u32 src s2) as [[s3 w3]| | |]; cbn [obind]; [|split; discriminate|split; discriminate|congruence].
    specialize (B3 _ _ eq_refl). split; [discriminate|]. intros s' t E. injection E as <- _. lia.
  - split; [discriminate|]. intros s' t E. injection E as <- _. lia.
Qed.

Lemma read_geometry_prog src f lvl : progress (read_geometry src f lvl) (Z.of_nat f).
Proof.
  revert lvl; induction f as [|f IH]; intros lvl s Hs; [lia|].
  rewrite read_geometry_unfold. destruct (read_header_prog src s) as [A1 B1].
  destruct (read_header src s) as [[s1 [[g z] m]]| | |]; cbn [obind];
    [|split; discriminate|split; discriminate|congruence].
  specialize (B1 _ _ eq_refl).
  set (rd := if negb (g =? 1)%N then read_u32 src s1 else Ok (s1, 1%N)).
  assert (rd <> NoFuel /\ forall s' n, rd = Ok (s', n) -> 0 <= rs_size s' <= rs_size s1) as [A2 B2].
  { subst rd. destruct (negb (g =? 1)%N).
    - destruct (read_u32_prog src s1) as [A B]. split; [exact A|]. intros s' n E. specialize (B _ _ E). lia.
    - split; [discriminate|]. intros s' n E. injection E as <- _. lia. }
  destruct rd as [[s2 size]| | |]; cbn [obind]; [|split; discriminate|split; discriminate|congruence].
  specialize (B2 _ _ eq_refl). cbv zeta.
  destruct ((g =? 1)%N || (g =? 2)%N).
  { match goal with |- context[read_node_coordinates ?a ?b ?c ?nd] =>
      destruct (read_node_coordinates_size a b c nd) as [A3 B3]; destruct (read_node_coordinates a b c nd) as [[s3 nd3]| | |] end;
      cbn [obind]; [|split; discriminate|split; discriminate|congruence].
    specialize (B3 _ _ eq_refl). split; [discriminate|]. intros s' ns E. injection E as <- _. lia. }
  destruct (g =? 3)%N.
  { destruct (lvl =? 255)%N; [split; discriminate|].
    match goal with |- context[read_n f ?r size s2] =>
      destruct (read_n_prog r (Z.of_nat f) f size (read_ring_prog _ _ _ _) s2 ltac:(lia) ltac:(lia)) as [A3 B3];
      destruct (read_n f r size s2) as [[s3 ns3]| | |] end;
      cbn [obind]; [|split; discriminate|split; discriminate|congruence].
    specialize (B3 _ _ eq_refl). split; [discriminate|]. intros s' ns E. injection E as <- _. lia. }
  destruct (_ || _); [|split; discriminate].
  destruct (lvl =? 255)%N; [split; discriminate|].
  match goal with |- context[read_n f ?r size s2] =>
    destruct (read_n_prog r (Z.of_nat f) f size (IH _) s2 ltac:(lia) ltac:(lia)) as [A3 B3];
    destruct (read_n f r size s2) as [[s3 ns3]| | |] end;
    cbn [obind]; [|split; discriminate|split; discriminate|congruence].
  specialize (B3 _ _ eq_refl). split; [discriminate|]. intros s' ns E. injection E as <- _. lia.
Qed.

Lemma wkb_read_terminates src swap0 : wkb_read_from src swap0 <> NoFuel.
Proof.
  unfold wkb_read_from.
  destruct (read_geometry_prog src (S (length src)) 0%N
    {| rs_pos := 0; rs_size := Z.of_nat (length src); rs_swap := swap0 |}) as [A _]; [cbn; lia|].
  destruct (read_geometry _ _ _ _) as [[s ns]| | |]; cbn [obind]; try discriminate. congruence.
Qed.

(** ** Bounds *)

(** A blob that claims a second collection member after its last byte: the remaining-size counter is stale by the
    coordinates of the first member, so the reader looks beyond the end. *)
Definition short_collection : bytes :=
  ([1] ++ le_bytes 4 7 ++ le_bytes 4 2 ++
   [1] ++ le_bytes 4 1 ++ le_bytes 8 0 ++ le_bytes 8 0)%N.

Lemma short_collection_ub : wkb_read short_collection = UB.
Proof. vm_compute. reflexivity. Qed.

(** A nine byte linestring announcing 2^31 XY coordinates: the size computation wraps to zero and the reader succeeds. *)
Definition huge_linestring : bytes := ([1] ++ le_bytes 4 2 ++ le_bytes 4 2147483648)%N.

Lemma short_collection_wf : wf_bytes short_collection.
Proof. repeat constructor. Qed.

Lemma huge_linestring_accepted : exists src nd, wf_bytes src /\ length src = 9%nat /\
  wkb_read src = Ok [nd] /\ nd_type nd = 2%N /\ nd_size nd = 2147483648%N /\
  forall i j, 0 <= i -> (j < 2)%nat -> node_ordinate (wkb_mem src) nd i j = None.
Proof.
  exists huge_linestring. eexists. split; [repeat constructor|]. split; [reflexivity|].
  split; [vm_compute; reflexivity|]. split; [reflexivity|]. split; [reflexivity|].
  intros i j Hi Hj. unfold node_ordinate.
  destruct j as [|[|j]]; [| |lia]; cbn [qget nd_coords nd_stride q0 q1 q2 q3]; unfold load64, load_bytes, ptr_add;
    cbn [fst snd wkb_mem nth_error];
    (destruct (slice _ _ _) eqn:E; [|reflexivity]);
    destruct (proj1 (slice_some_iff _ _ _) (ex_intro _ _ E)) as [_ H];
    change (Z.of_nat (length huge_linestring)) with 9 in H; lia.
Qed.

(** While nothing but one sequence follows the header, every access is inside the buffer. *)
Definition in_sync (src : bytes) (s : rstate) : Prop := 0 <= rs_pos s /\ rs_pos s + rs_size s = Z.of_nat (length src).

Lemma read_endian_sync src s : in_sync src s -> read_endian src s <> UB /\
  forall s', read_endian src s = Ok s' -> in_sync src s'.
Proof.
  intros [H1 H2]. unfold read_endian. destruct (Z.ltb_spec 0 (rs_size s)); [|split; discriminate].
  destruct (proj2 (slice_some_iff src (rs_pos s) 1)) as [b Eb]; [lia|]. rewrite Eb. cbn [or_ub obind].
  split; [discriminate|]. intros s' E. injection E as <-. unfold in_sync. cbn. lia.
Qed.

Lemma read_u32_sync src s : in_sync src s -> read_u32 src s <> UB /\
  forall s' n, read_u32 src s = Ok (s', n) -> in_sync src s'.
Proof.
  intros [H1 H2]. unfold read_u32. destruct (Z.leb_spec 4 (rs_size s)); [|split; discriminate].
  destruct (proj2 (slice_some_iff src (rs_pos s) 4)) as [b Eb]; [lia|]. rewrite Eb. cbn [or_ub obind].
  split; [discriminate|]. intros s' n E. injection E as <- _. unfold in_sync. cbn. lia.
Qed.

Lemma read_header_sync src s : in_sync src s -> read_header src s <> UB /\
  forall s' t, read_header src s = Ok (s', t) -> in_sync src s'.
Proof.
  intros H. unfold read_header. destruct (read_endian_sync src s H) as [A1 B1].
  destruct (read_endian src s) as [s1| | |]; cbn [obind]; [|split; discriminate|congruence|split; discriminate].
  specialize (B1 _ eq_refl). destruct (read_u32_sync src s1 B1) as [A2 B2].
  destruct (read_u32 src s1) as [[s2 w]| | |]; cbn [obind]; [|split; discriminate|congruence|split; discriminate].
  specialize (B2 _ _ eq_refl).
  destruct (ewkb_has w EWKB_SRID_BIT); cbn [obind].
  - destruct (read_u32_sync src s2 B2) as [A3 B3].
    destruct (read_u32 src s2) as [[s3 w3]| | |]; cbn [obind]; [|split; discriminate|congruence|split; discriminate].
    specialize (B3 _ _ eq_refl). split; [discriminate|]. intros s' t E. injection E as <- _. exact B3.
  - split; [discriminate|]. intros s' t E. injection E as <- _. exact B2.
Qed.

(** The base type of the first header of a blob. *)
Definition root_base (src : bytes) : option N :=
  match read_header src {| rs_pos := 0; rs_size := Z.of_nat (length src); rs_swap := false |} with
  | Ok (_, (g, _, _)) => Some g
  | _ => None
  end.

Lemma resolve_dims_num z m : num_dimensions (Z.of_N (resolve_dims z m)) = Some (Z.of_N (2 + b2n z + b2n m)).
Proof. destruct z, m; reflexivity. Qed.

Lemma single_sequence_in_bounds src :
  (forall g, root_base src = Some g -> g <> 3 /\ g <> 4 /\ g <> 5 /\ g <> 6 /\ g <> 7)%N ->
  wkb_read src <> UB /\
  forall nodes, wkb_read src = Ok nodes ->
    exists nd n, nodes = [nd] /\ num_dimensions (Z.of_N (nd_dims nd)) = Some (Z.of_nat n) /\ (2 <= n <= 4)%nat /\
      ((nd_size nd * N.of_nat n < 2 ^ 32)%N ->
       forall i j, 0 <= i < Z.of_N (nd_size nd) -> (j < n)%nat -> node_ordinate (wkb_mem src) nd i j <> None).
Proof.
  intros Hroot. unfold wkb_read, wkb_read_from. unfold root_base in Hroot.
  set (s0 := {| rs_pos := 0; rs_size := Z.of_nat (length src); rs_swap := false |}) in *.
  rewrite read_geometry_unfold.
  assert (in_sync src s0) as H0 by (unfold in_sync; cbn; lia).
  destruct (read_header_sync src s0 H0) as [A1 B1].
  destruct (read_header src s0) as [[s1 [[g z] m]]| | |]; cbn [obind];
    [|split; discriminate|congruence|split; discriminate].
  specialize (B1 _ _ eq_refl). specialize (Hroot _ eq_refl).
  set (rd := if negb (g =? 1)%N then read_u32 src s1 else Ok (s1, 1%N)).
  assert (rd <> UB /\ forall s' n, rd = Ok (s', n) -> in_sync src s') as [A2 B2].
  { subst rd. destruct (negb (g =? 1)%N).
    - apply read_u32_sync. exact B1.
    - split; [discriminate|]. intros s' n E. injection E as <- _. exact B1. }
  destruct rd as [[s2 size]| | |]; cbn [obind]; [|split; discriminate|congruence|split; discriminate].
  specialize (B2 _ _ eq_refl). cbv zeta.
  destruct ((g =? 1)%N || (g =? 2)%N) eqn:Eg.
  2:{ destruct (N.eqb_spec g 3); [lia|]. destruct (N.eqb_spec g 4); [lia|]. destruct (N.eqb_spec g 5); [lia|].
      destruct (N.eqb_spec g 6); [lia|]. destruct (N.eqb_spec g 7); [lia|]. cbn [orb obind]. split; discriminate. }
  match goal with |- context[read_node_coordinates _ _ _ ?n] => set (nd := n) end.
  unfold read_node_coordinates.
  destruct (Z.ltb_spec (rs_size s2) (Z.of_N (wrap32 (size * (2 + b2n z + b2n m)) * 8))) as [Hlt|Hge];
    [cbn [obind]; split; discriminate|].
  cbn [obind]. split; [discriminate|]. intros nodes E. injection E as <-.
  set (k := (2 + b2n z + b2n m)%N) in *.
  assert (exists d, k = N.of_nat (ndim d) /\ resolve_dims z m = dimN d) as (d & Ek & Ed).
  { subst k. destruct z, m; [exists XYZM|exists XYZ|exists XYM|exists XY]; split; reflexivity. }
  eexists _, (ndim d). split; [reflexivity|].
  match goal with |- context[nd_dims ?n] => set (nd' := n) end.
  assert (node_meta nd' = node_meta nd) as Hmeta.
  { subst nd'. destruct (size =? 0)%N; [reflexivity|]. apply set_coords_meta. }
  assert (nd_dims nd' = dimN d /\ nd_size nd' = size) as [Hd Hsz].
  { unfold node_meta in Hmeta. injection Hmeta as M1 M2 M3 M4 M5. split; [rewrite M3; subst nd; exact Ed|rewrite M1; reflexivity]. }
  rewrite Hd, Hsz. split; [destruct d; reflexivity|]. split; [destruct d; cbn; lia|].
  intros Hlim i j Hi Hj. rewrite Ek in Hge. rewrite wrap32_small in Hge by exact Hlim.
  subst nd'. destruct (N.eqb_spec size 0); [lia|].
  rewrite Ek, Nat2N.id. unfold node_ordinate.
  destruct (set_coords_get d (Z.of_N (N.of_nat (ndim d)) * 8) (rs_pos s2) nd j Hj) as [Ep Es].
  rewrite Ep, Es. unfold ptr_add. cbn [fst snd].
  destruct B2 as [Hp Hps].
  destruct (proj2 (slice_some_iff src (rs_pos s2 + Z.of_nat j * 8 + i * (Z.of_N (N.of_nat (ndim d)) * 8)) 8)) as [b Eb].
  { split; [nia|].
    assert (Z.of_nat j * 8 + i * (Z.of_nat (ndim d) * 8) + 8 <= Z.of_N size * (Z.of_nat (ndim d) * 8)) by nia.
    lia. }
  rewrite (load64_wkb _ _ _ Eb). discriminate.
Qed.

Lemma root_base_announced src g : wf_bytes src -> root_base src = Some g -> (g < 8)%N -> announced_type src = Some g.
Proof.
  intros Hwf. unfold root_base, read_header, read_endian.
  cbn [rs_size rs_pos]. destruct (Z.ltb_spec 0 (Z.of_nat (length src))); [|discriminate].
  destruct src as [|e src1]; [cbn in *; lia|].
  replace (slice (e :: src1) 0 1) with (Some [e]) by (symmetry; apply (slice_app_at [] [e] src1 1 eq_refl)). cbn [or_ub obind].
  unfold read_u32 at 1. cbn [rs_size rs_pos rs_swap].
  destruct (Z.leb_spec 4 (Z.of_nat (length (e :: src1)) - 1)); [|discriminate].
  destruct src1 as [|w0 [|w1 [|w2 [|w3 rest]]]]; cbn [length] in *; try lia.
  replace (slice (e :: w0 :: w1 :: w2 :: w3 :: rest) (0 + 1) 4) with (Some [w0; w1; w2; w3]).
  2:{ symmetry. apply (slice_app_at [e] [w0; w1; w2; w3] rest 4 eq_refl). }
  cbn [or_ub obind]. unfold announced_type, first_type_word.
  replace (le_val [e]) with e by (cbn [le_val]; lia).
  assert (wf_bytes [w0; w1; w2; w3]) as Hw.
  { inversion Hwf as [|? ? _ H1]; subst. unfold wf_bytes in *.
    rewrite Forall_forall in *. intros x Hx. apply H1. cbn in *. intuition. }
  replace (if negb (e =? 1)%N then bswap32 (le_val [w0; w1; w2; w3]) else le_val [w0; w1; w2; w3])
    with (if (e =? 1)%N then le_val [w0; w1; w2; w3] else le_val [w3; w2; w1; w0]).
  2:{ destruct (e =? 1)%N; cbn [negb]; [reflexivity|]. symmetry. apply bswap32_val. exact Hw. }
  set (w := if (e =? 1)%N then _ else _).
  intros H1 Hg. f_equal.
  assert (exists z m, resolve_type w = (g, z, m)) as (z & m & E).
  { destruct (ewkb_has w EWKB_SRID_BIT); cbn [obind] in H1.
    - destruct (read_u32 _ _) as [[s' w']| | |]; cbn [obind] in H1; try discriminate.
      destruct (resolve_type w) as [[g' z'] m']. injection H1 as ->. eauto.
    - destruct (resolve_type w) as [[g' z'] m']. injection H1 as ->. eauto. }
  unfold resolve_type in E. set (x := N.land w 65535) in *.
  destruct (N.leb_spec 3000 x); [|destruct (N.leb_spec 2000 x); [|destruct (N.leb_spec 1000 x)]];
    injection E as E _ _.
  - rewrite <- E. symmetry. apply (N.mod_unique _ _ 3); lia.
  - rewrite <- E. symmetry. apply (N.mod_unique _ _ 2); lia.
  - rewrite <- E. symmetry. apply (N.mod_unique _ _ 1); lia.
  - rewrite <- E. apply N.mod_small. lia.
Qed.

Lemma first_sequence_in_bounds src : wf_bytes src ->
  (forall g, announced_type src = Some g -> g < 3 \/ 7 < g)%N ->
  wkb_read src <> UB /\
  forall nodes, wkb_read src = Ok nodes ->
    exists nd n, nodes = [nd] /\ num_dimensions (Z.of_N (nd_dims nd)) = Some (Z.of_nat n) /\ (2 <= n <= 4)%nat /\
      ((nd_size nd * N.of_nat n < 2 ^ 32)%N ->
       forall i j, 0 <= i < Z.of_N (nd_size nd) -> (j < n)%nat -> node_ordinate (wkb_mem src) nd i j <> None).
Proof.
  intros Hwf Ha. apply single_sequence_in_bounds. intros g Hg.
  destruct (N.ltb_spec g 8) as [Hlt|Hge]; [|lia].
  specialize (Ha g (root_base_announced src g Hwf Hg Hlt)). lia.
Qed.
