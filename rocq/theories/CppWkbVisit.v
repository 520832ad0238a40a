(** * Iterating over the vertices and edges of parsed WKB *)
From Verif Require Import Base BaseFacts TypesModel TypesProofs TypesSpec GeomSpec GeomFacts WkbSpec CppCoordModel CppWkbSpec CppWkbModel
  CppWkbTells WkbReaderProofs CppWkbProofs CppWkbReads CppWkbAccepts CppWkbPrefix.
Local Open Scope Z_scope.

Lemma coord_size_ndim d : coord_size d = ndim d.
Proof. destruct d; reflexivity. Qed.

Lemma coord_cast_spec d dst c : length c = ndim d -> coord_cast d dst c = convert_coord d dst c.
Proof.
  intros H. destruct d; cbn in H;
    repeat (destruct c as [|? c]; [discriminate H|]; cbn in H; apply Nat.succ_inj in H); destruct c; try discriminate;
    destruct dst; reflexivity.
Qed.

(** ** Reading one coordinate *)

Fixpoint read_words (src : bytes) (swapped : bool) (p : Z) (j k : nat) : outcome coord :=
  match k with
  | O => Ok []
  | S k' =>
      do b <- or_ub (slice src (p + Z.of_nat j * 8) 8);
      do r <- read_words src swapped p (S j) k';
      Ok (load swapped b :: r)
  end.

Lemma unaligned_words src swapped d data stride i :
  unaligned_coord src swapped d data stride i = read_words src swapped (data + i * stride) 0 (coord_size d).
Proof.
  unfold unaligned_coord. assert (forall k j, unaligned_values src swapped data stride i j k =
    read_words src swapped (data + i * stride) j k) as H; [|apply H].
  induction k as [|k IH]; intros j; cbn [read_words unaligned_values]; [reflexivity|].
  replace (data + Z.of_nat j * 8 + i * stride) with (data + i * stride + Z.of_nat j * 8) by lia.
  rewrite IH. reflexivity.
Qed.

Lemma read_words_ok src e p : forall ws j,
  (forall k w, nth_error ws k = Some w -> slice src (p + Z.of_nat (j + k) * 8) 8 = Some (enc64 e w)) ->
  Forall (fun w => (w < 2 ^ 64)%N) ws ->
  read_words src (is_be e) p j (length ws) = Ok ws.
Proof.
  induction ws as [|w ws IH]; intros j H HF; cbn [length read_words]; [reflexivity|].
  inversion HF; subst. pose proof (H 0%nat w eq_refl) as H0. rewrite Nat.add_0_r in H0. rewrite H0. cbn [or_ub obind].
  rewrite load_enc64 by assumption. rewrite IH; [reflexivity| |assumption].
  intros k w' Hk. replace (S j + k)%nat with (j + S k)%nat by lia. apply H. exact Hk.
Qed.

Lemma unaligned_coord_ok src p e d cs i c :
  located src p e cs -> wf_seq d cs -> nth_error cs i = Some c ->
  unaligned_coord src (is_be e) d p (Z.of_N (N.of_nat (ndim d)) * 8) (Z.of_nat i) = Ok c.
Proof.
  intros (pre & post & Esrc & Ep) Hwf Hi. rewrite unaligned_words, coord_size_ndim.
  assert (wf_coord d c) as [Hl Hw].
  { unfold wf_seq in Hwf. rewrite Forall_forall in Hwf. apply Hwf. eapply nth_error_In, Hi. }
  rewrite <- Hl. apply read_words_ok; [|exact Hw]. intros k w Hk. cbn [Nat.add].
  assert (tail_at src p (enc_coords e cs ++ post)) as Ht by (exists pre; auto).
  assert (k < ndim d)%nat as Hkd by (rewrite <- Hl; apply nth_error_Some; congruence).
  pose proof (seq_words _ _ _ _ _ _ _ _ _ _ Ht Hwf Hi Hk Hkd) as Hs.
  replace (p + Z.of_nat i * (Z.of_N (N.of_nat (length c)) * 8) + Z.of_nat k * 8)
    with (p + Z.of_nat k * 8 + Z.of_nat i * (Z.of_nat (ndim d) * 8)) by lia. exact Hs.
Qed.

Lemma read_words_inside src swapped p : forall k j, 0 <= p ->
  p + Z.of_nat (j + k) * 8 <= Z.of_nat (length src) -> exists c, read_words src swapped p j k = Ok c.
Proof.
  induction k as [|k IH]; intros j Hp H; cbn [read_words]; [eauto|].
  assert (exists b, slice src (p + Z.of_nat j * 8) 8 = Some b) as [b ->] by (apply slice_some_iff; lia).
  cbn [or_ub obind]. destruct (IH (S j) Hp ltac:(lia)) as [c ->]. cbn [obind]. eauto.
Qed.

(** ** Sequences *)

Lemma for_each_list {A} (f : N -> outcome (list A)) l i0 :
  (forall k a, nth_error l k = Some a -> f (i0 + N.of_nat k)%N = Ok [a]) -> for_each f i0 (length l) = Ok l.
Proof.
  revert i0; induction l as [|a l IH]; intros i0 H; cbn [length for_each]; [reflexivity|].
  pose proof (H 0%nat a eq_refl) as H0. change (N.of_nat 0) with 0%N in H0. rewrite N.add_0_r in H0. rewrite H0. cbn [obind].
  rewrite IH; [reflexivity|]. intros k b Hk. rewrite <- N.add_assoc.
  replace (1 + N.of_nat k)%N with (N.of_nat (S k)) by lia. apply H. exact Hk.
Qed.

Lemma dims_type_ok d : dims_type (dimN d) = Some d.
Proof. destruct d; reflexivity. Qed.

Lemma nth_error_map' {A B} (f : A -> B) l i b : nth_error (map f l) i = Some b ->
  exists a, nth_error l i = Some a /\ b = f a.
Proof. rewrite nth_error_map. destruct (nth_error l i); [|discriminate]. intros H. injection H as <-. eauto. Qed.

Lemma sequence_vertices_ok src e d dst cs q : tells_sequence src e d cs q -> wf_seq d cs ->
  sequence_vertices src dst q = Ok (map (as_dims dst) (map (fun c => (d, c)) cs)).
Proof.
  intros [Q1 Q2 Q3 Q4 Q5] Hwf. unfold sequence_vertices. rewrite Q3, dims_type_ok, Q4, endian_load, Q1, Q2.
  unfold unaligned_vertices. rewrite Nat2N.id, map_map. unfold as_dims. cbn [fst snd].
  replace (length cs) with (length (map (fun c : coord => convert_coord d dst c : coord) cs)) by apply map_length.
  apply for_each_list.
  intros k a Hk. apply nth_error_map' in Hk. destruct Hk as (c & Hk & ->).
  replace (Z.of_N (0 + N.of_nat k)) with (Z.of_nat k) by lia.
  rewrite (unaligned_coord_ok src _ e d cs k c Q5 Hwf Hk). cbn [obind].
  rewrite coord_cast_spec; [reflexivity|]. unfold wf_seq in Hwf. rewrite Forall_forall in Hwf. apply Hwf. eapply nth_error_In, Hk.
Qed.

Lemma edges_from_ok src swapped d dst data stride cs : forall start i,
  (forall k c, nth_error cs k = Some c -> unaligned_coord src swapped d data stride (Z.of_N i + Z.of_nat k) = Ok c) ->
  unaligned_edges_from src swapped d dst data stride start i (length cs) =
    Ok (pairs (start :: map (coord_cast d dst) cs)).
Proof.
  induction cs as [|c cs IH]; intros start i H; cbn [length unaligned_edges_from map]; [reflexivity|].
  pose proof (H 0%nat c eq_refl) as H0. rewrite Z.add_0_r in H0. rewrite H0. cbn [obind].
  rewrite IH; [reflexivity|]. intros k c' Hk.
  replace (Z.of_N (i + 1) + Z.of_nat k) with (Z.of_N i + Z.of_nat (S k)) by lia. apply H. exact Hk.
Qed.

Lemma pairs_map {A B} (f : A -> B) l : pairs (map f l) = map (both f) (pairs l).
Proof.
  induction l as [|a l IH]; [reflexivity|]. destruct l as [|b l]; [reflexivity|].
  change (pairs (map f (a :: b :: l))) with ((f a, f b) :: pairs (map f (b :: l))). rewrite IH. reflexivity.
Qed.

Lemma sequence_edges_ok src e d dst cs q : tells_sequence src e d cs q -> wf_seq d cs ->
  sequence_edges src dst q = Ok (map (both (as_dims dst)) (pairs (map (fun c => (d, c)) cs))).
Proof.
  intros [Q1 Q2 Q3 Q4 Q5] Hwf. unfold sequence_edges. rewrite Q3, dims_type_ok, Q4, endian_load, Q1, Q2.
  rewrite <- pairs_map, map_map. unfold as_dims. cbn [fst snd]. unfold unaligned_edges.
  assert (Forall (fun c => length c = ndim d) cs) as Hlen by (apply wf_seq_lengths, Hwf).
  destruct (N.ltb_spec (N.of_nat (length cs)) 2) as [H|H].
  { destruct cs as [|c [|? ?]]; cbn [length] in H; try lia; reflexivity. }
  destruct cs as [|c cs]; [cbn [length] in H; lia|].
  pose proof (unaligned_coord_ok src _ e d (c :: cs) 0 c Q5 Hwf eq_refl) as H0.
  change (Z.of_nat 0) with 0 in H0. rewrite H0. cbn [obind].
  replace (N.to_nat (N.of_nat (length (c :: cs))) - 1)%nat with (length cs) by (cbn [length]; lia).
  rewrite edges_from_ok.
  2:{ intros k c' Hk. replace (Z.of_N 1 + Z.of_nat k) with (Z.of_nat (S k)) by lia.
      apply (unaligned_coord_ok src _ e d (c :: cs) (S k) c' Q5 Hwf Hk). }
  f_equal. change (coord_cast d dst c :: map (coord_cast d dst) cs) with (map (coord_cast d dst) (c :: cs)). f_equal.
  clear -Hlen. induction Hlen as [|x l Hx Hl IH]; [reflexivity|]. cbn [map].
  rewrite coord_cast_spec by exact Hx. rewrite IH. reflexivity.
Qed.

(** ** Geometries *)

Lemma first_n_list {A B C} (f : A -> outcome (list B)) (xs : list C) (h : C -> list B) l :
  (forall i x, nth_error xs i = Some x -> exists a, nth_error l i = Some a /\ f a = Ok (h x)) ->
  first_n f l (length xs) = Ok (flat_map h xs).
Proof.
  revert l; induction xs as [|x xs IH]; intros l H; cbn [length flat_map]; [destruct l; reflexivity|].
  destruct (H 0%nat x eq_refl) as (a & Ha & E). destruct l as [|a' l]; [discriminate|]. cbn in Ha. injection Ha as ->.
  cbn [first_n]. rewrite E. cbn [obind]. rewrite IH; [reflexivity|]. intros i y Hi. apply (H (S i) y Hi).
Qed.

Lemma geometry_vertices_unfold src dst t d s qs nq gs ng :
  geometry_vertices src dst (WGeom t d s qs nq gs ng) =
    (do a <- first_n (sequence_vertices src dst) qs (N.to_nat nq);
     do b <- first_n (geometry_vertices src dst) gs (N.to_nat ng);
     Ok (a ++ b)).
Proof.
  cbn [geometry_vertices]. destruct (first_n (sequence_vertices src dst) qs (N.to_nat nq)); cbn [obind]; try reflexivity.
  f_equal. generalize (N.to_nat ng). clear. induction gs as [|c gs IH]; intros [|n]; cbn [first_n]; try reflexivity.
  destruct (geometry_vertices src dst c); cbn [obind]; try reflexivity. rewrite IH. reflexivity.
Qed.

Lemma geometry_edges_unfold src dst t d s qs nq gs ng :
  geometry_edges src dst (WGeom t d s qs nq gs ng) =
    if (N.eqb t 1 || N.eqb t 4)%bool then
      do vs <- geometry_vertices src dst (WGeom t d s qs nq gs ng);
      Ok (map (fun v => (v, v)) vs)
    else
      do a <- first_n (sequence_edges src dst) qs (N.to_nat nq);
      do b <- first_n (geometry_edges src dst) gs (N.to_nat ng);
      Ok (a ++ b).
Proof.
  cbn [geometry_edges]. destruct (N.eqb t 1 || N.eqb t 4)%bool; [reflexivity|].
  destruct (first_n (sequence_edges src dst) qs (N.to_nat nq)); cbn [obind]; try reflexivity.
  f_equal. generalize (N.to_nat ng). clear. induction gs as [|c gs IH]; intros [|n]; cbn [first_n]; try reflexivity.
  destruct (geometry_edges src dst c); cbn [obind]; try reflexivity. rewrite IH. reflexivity.
Qed.

(** The vertices of the sequences directly in a geometry. *)
Lemma tree_vertices_parts t : tree_vertices t =
  flat_map (fun cs => map (fun c => (tree_dim t, c)) cs) (tree_sequences t) ++ flat_map tree_vertices (tree_parts t).
Proof.
  destruct t; cbn [tree_vertices tree_sequences tree_parts flat_map tree_dim map app]; rewrite ?app_nil_r; try reflexivity.
  rewrite concat_map, flat_map_concat_map. reflexivity.
Qed.

Lemma tree_wf t : tree_ok t -> Forall (wf_seq (tree_dim t)) (tree_sequences t).
Proof.
  intros H. inversion H; subst; cbn [tree_dim tree_sequences].
  - constructor; [|constructor]. constructor; [assumption|constructor].
  - constructor; [assumption|constructor].
  - assumption.
  - constructor.
Qed.

Lemma tree_parts_ok t : tree_ok t -> Forall tree_ok (tree_parts t).
Proof. intros H. inversion H; subst; cbn [tree_parts]; try constructor. assumption. Qed.

Lemma map_flat_map {A B C} (f : B -> C) (g : A -> list B) l : map f (flat_map g l) = flat_map (fun a => map f (g a)) l.
Proof. induction l; cbn [flat_map map]; [reflexivity|]. rewrite map_app, IHl. reflexivity. Qed.

Lemma geometry_vertices_ok src dst t : forall g, tree_ok t -> tells src g t ->
  geometry_vertices src dst g = Ok (map (as_dims dst) (tree_vertices t)).
Proof.
  assert (forall t, (forall p, In p (tree_parts t) -> forall g, tree_ok p -> tells src g p ->
             geometry_vertices src dst g = Ok (map (as_dims dst) (tree_vertices p))) ->
          forall g, tree_ok t -> tells src g t -> geometry_vertices src dst g = Ok (map (as_dims dst) (tree_vertices t))) as Hgen.
  { clear t. intros t IH g Hok Ht. inversion Ht as [g' t' H1 H2 H3 Hn1 Hq Hn2 Hg E1 E2]; subst g' t'.
    destruct g as [ty dm sr qs nq gs ng]. cbn [wg_num_sequences wg_num_geometries] in *.
    unfold wg_sequence, wg_geometry in *. cbn [wg_sequences wg_geometries] in *.
    rewrite geometry_vertices_unfold, Hn1, Hn2, !Nat2N.id.
    rewrite (first_n_list _ (tree_sequences t) (fun cs => map (as_dims dst) (map (fun c => (tree_dim t, c)) cs))).
    2:{ intros i cs Hi. destruct (Hq i cs Hi) as (q & Hqi & Hts). rewrite Nat2N.id in Hqi. exists q. split; [exact Hqi|].
        eapply sequence_vertices_ok; [exact Hts|]. pose proof (tree_wf t Hok) as HF. rewrite Forall_forall in HF.
        apply HF. eapply nth_error_In, Hi. }
    cbn [obind].
    rewrite (first_n_list _ (tree_parts t) (fun p => map (as_dims dst) (tree_vertices p))).
    2:{ intros i p Hi. destruct (Hg i p Hi) as (c & Hci & Hts). rewrite Nat2N.id in Hci. exists c. split; [exact Hci|].
        apply IH; [eapply nth_error_In, Hi| |exact Hts]. pose proof (tree_parts_ok t Hok) as HF. rewrite Forall_forall in HF.
        apply HF. eapply nth_error_In, Hi. }
    cbn [obind]. f_equal. rewrite tree_vertices_parts, map_app, !map_flat_map. reflexivity. }
  induction t as [h d c|h d cs|h d rings|h k d parts IH] using tree_ind'; apply Hgen; cbn [tree_parts]; try contradiction.
  intros p Hp. rewrite Forall_forall in IH. apply IH, Hp.
Qed.

Lemma degenerate_map {A B} (f : A -> B) l : map (both f) (degenerate l) = map (fun v => (v, v)) (map f l).
Proof. unfold degenerate, both. rewrite !map_map. reflexivity. Qed.

Definition point_like (t : tree) : bool := (N.eqb (tree_code t) 1 || N.eqb (tree_code t) 4)%bool.

Lemma tree_edges_cases t : tree_edges t =
  if point_like t then degenerate (tree_vertices t)
  else flat_map (fun cs => pairs (map (fun c => (tree_dim t, c)) cs)) (tree_sequences t) ++ flat_map tree_edges (tree_parts t).
Proof.
  destruct t as [h d c|h d cs|h d rings|h k d parts]; try (destruct k); cbn; rewrite ?app_nil_r; reflexivity.
Qed.

Lemma geometry_edges_ok src dst t : forall g, tree_ok t -> tells src g t ->
  geometry_edges src dst g = Ok (map (both (as_dims dst)) (tree_edges t)).
Proof.
  assert (forall t, (forall p, In p (tree_parts t) -> forall g, tree_ok p -> tells src g p ->
             geometry_edges src dst g = Ok (map (both (as_dims dst)) (tree_edges p))) ->
          forall g, tree_ok t -> tells src g t ->
          geometry_edges src dst g = Ok (map (both (as_dims dst)) (tree_edges t))) as Hgen.
  { clear t. intros t IH g Hok Ht. inversion Ht as [g' t' H1 H2 H3 Hn1 Hq Hn2 Hg E1 E2]; subst g' t'.
    pose proof (geometry_vertices_ok src dst t g Hok Ht) as Hv.
    destruct g as [ty dm sr qs nq gs ng]. cbn [wg_num_sequences wg_num_geometries wg_type] in *.
    unfold wg_sequence, wg_geometry in *. cbn [wg_sequences wg_geometries] in *.
    rewrite geometry_edges_unfold, Hv, H1, tree_edges_cases. fold (point_like t).
    destruct (point_like t); [cbn [obind]; rewrite degenerate_map; reflexivity|].
    rewrite Hn1, Hn2, !Nat2N.id.
    rewrite (first_n_list _ (tree_sequences t) (fun cs => map (both (as_dims dst)) (pairs (map (fun c => (tree_dim t, c)) cs)))).
    2:{ intros i cs Hi. destruct (Hq i cs Hi) as (q & Hqi & Hts). rewrite Nat2N.id in Hqi. exists q. split; [exact Hqi|].
        eapply sequence_edges_ok; [exact Hts|]. pose proof (tree_wf t Hok) as HF. rewrite Forall_forall in HF.
        apply HF. eapply nth_error_In, Hi. }
    cbn [obind].
    rewrite (first_n_list _ (tree_parts t) (fun p => map (both (as_dims dst)) (tree_edges p))).
    2:{ intros i p Hi. destruct (Hg i p Hi) as (c & Hci & Hts). rewrite Nat2N.id in Hci. exists c. split; [exact Hci|].
        apply IH; [eapply nth_error_In, Hi| |exact Hts]. pose proof (tree_parts_ok t Hok) as HF. rewrite Forall_forall in HF.
        apply HF. eapply nth_error_In, Hi. }
    cbn [obind]. f_equal. rewrite map_app, !map_flat_map. reflexivity. }
  induction t as [h d c|h d cs|h d rings|h k d parts IH] using tree_ind'; apply Hgen; cbn [tree_parts]; try contradiction.
  intros p Hp. rewrite Forall_forall in IH. apply IH, Hp.
Qed.

(** ** Iteration is safe after every parse *)

Section WgeomInd.
  Variable P : wgeom -> Prop.
  Hypothesis H : forall t d s qs nq gs ng, Forall P gs -> P (WGeom t d s qs nq gs ng).
  Fixpoint wgeom_ind' (g : wgeom) : P g :=
    match g with
    | WGeom t d s qs nq gs ng =>
        H t d s qs nq gs ng ((fix go l := match l return Forall P l with
                                          | [] => Forall_nil P
                                          | c :: r => Forall_cons c (wgeom_ind' c) (go r)
                                          end) gs)
    end.
End WgeomInd.

Lemma unaligned_inside src swapped d data len i : 0 <= data -> data + 8 * Z.of_N len * Z.of_nat (ndim d) <= Z.of_nat (length src) ->
  0 <= i < Z.of_N len -> exists c, unaligned_coord src swapped d data (Z.of_N (N.of_nat (ndim d)) * 8) i = Ok c.
Proof.
  intros H0 H1 Hi. rewrite unaligned_words, coord_size_ndim. apply read_words_inside; nia.
Qed.

Lemma for_each_total {A} (f : N -> outcome (list A)) : forall n i0,
  (forall i, (i0 <= i < i0 + N.of_nat n)%N -> exists l, f i = Ok l) -> exists l, for_each f i0 n = Ok l.
Proof.
  induction n as [|n IH]; intros i0 H; cbn [for_each]; [eauto|].
  destruct (H i0 ltac:(lia)) as [a ->]. cbn [obind].
  destruct (IH (i0 + 1)%N) as [b ->]; [intros i Hi; apply H; lia|]. cbn [obind]. eauto.
Qed.

Lemma sequence_vertices_total src dst q : sequence_inside src q -> exists l, sequence_vertices src dst q = Ok l.
Proof.
  intros ((d & Hd & Hs) & H0 & H1). unfold sequence_vertices. rewrite Hd, dims_type_ok, Hs in *.
  apply for_each_total. intros i Hi.
  destruct (unaligned_inside src (negb (sq_endian q =? 1)%N) d (sq_data q) (sq_length q) (Z.of_N i)) as [c Hc]; try lia.
  rewrite Hc. cbn [obind]. eauto.
Qed.

Lemma edges_from_total src swapped d dst data stride : forall n start i,
  (forall j, Z.of_N i <= j < Z.of_N i + Z.of_nat n -> exists c, unaligned_coord src swapped d data stride j = Ok c) ->
  exists l, unaligned_edges_from src swapped d dst data stride start i n = Ok l.
Proof.
  induction n as [|n IH]; intros start i H; cbn [unaligned_edges_from]; [eauto|].
  destruct (H (Z.of_N i) ltac:(lia)) as [c ->]. cbn [obind].
  destruct (IH (coord_cast d dst c) (i + 1)%N) as [l ->]; [intros j Hj; apply H; lia|]. cbn [obind]. eauto.
Qed.

Lemma sequence_edges_total src dst q : sequence_inside src q -> exists l, sequence_edges src dst q = Ok l.
Proof.
  intros ((d & Hd & Hs) & H0 & H1). unfold sequence_edges. rewrite Hd, dims_type_ok, Hs in *. unfold unaligned_edges.
  destruct (N.ltb_spec (sq_length q) 2); [eauto|].
  destruct (unaligned_inside src (negb (sq_endian q =? 1)%N) d (sq_data q) (sq_length q) 0) as [c ->]; try lia.
  cbn [obind]. apply edges_from_total. intros j Hj. apply (unaligned_inside src _ d (sq_data q) (sq_length q)); lia.
Qed.

Lemma first_n_total {A B} (f : A -> outcome (list B)) : forall n l,
  (forall i, (i < n)%nat -> exists a, nth_error l i = Some a /\ exists b, f a = Ok b) -> exists b, first_n f l n = Ok b.
Proof.
  induction n as [|n IH]; intros l H; [destruct l; cbn; eauto|].
  destruct (H 0%nat ltac:(lia)) as (a & Ha & b & Hb). destruct l as [|a' l]; [discriminate|]. cbn in Ha. injection Ha as ->.
  cbn [first_n]. rewrite Hb. cbn [obind]. destruct (IH l) as [c ->]; [intros i Hi; apply (H (S i)); lia|]. cbn [obind]. eauto.
Qed.

Lemma visits_total src dst g : inside src g ->
  (exists l, geometry_vertices src dst g = Ok l) /\ (exists l, geometry_edges src dst g = Ok l).
Proof.
  induction g as [t d s qs nq gs ng IH] using wgeom_ind'. intros Hin. inversion Hin as [g' Hq Hg E]. subst g'.
  cbn [wg_num_sequences wg_num_geometries] in *. unfold wg_sequence, wg_geometry in *. cbn [wg_sequences wg_geometries] in *.
  rewrite Forall_forall in IH.
  assert (exists l, geometry_vertices src dst (WGeom t d s qs nq gs ng) = Ok l) as Hv.
  { rewrite geometry_vertices_unfold.
    destruct (first_n_total (sequence_vertices src dst) (N.to_nat nq) qs) as [a ->].
    { intros i Hi. destruct (Hq (N.of_nat i) ltac:(lia)) as (q & E & Hs). rewrite Nat2N.id in E. exists q. split; [exact E|].
      apply sequence_vertices_total, Hs. }
    cbn [obind]. destruct (first_n_total (geometry_vertices src dst) (N.to_nat ng) gs) as [b ->].
    { intros i Hi. destruct (Hg (N.of_nat i) ltac:(lia)) as (c & E & Hs). rewrite Nat2N.id in E. exists c. split; [exact E|].
      apply IH; [eapply nth_error_In, E|exact Hs]. }
    cbn [obind]. eauto. }
  split; [exact Hv|]. rewrite geometry_edges_unfold.
  destruct (N.eqb t 1 || N.eqb t 4)%bool.
  { destruct Hv as [l ->]. cbn [obind]. eauto. }
  destruct (first_n_total (sequence_edges src dst) (N.to_nat nq) qs) as [a ->].
  { intros i Hi. destruct (Hq (N.of_nat i) ltac:(lia)) as (q & E & Hs). rewrite Nat2N.id in E. exists q. split; [exact E|].
    apply sequence_edges_total, Hs. }
  cbn [obind]. destruct (first_n_total (geometry_edges src dst) (N.to_nat ng) gs) as [b ->].
  { intros i Hi. destruct (Hg (N.of_nat i) ltac:(lia)) as (c & E & Hs). rewrite Nat2N.id in E. exists c. split; [exact E|].
    apply IH; [eapply nth_error_In, E|exact Hs]. }
  cbn [obind]. eauto.
Qed.
