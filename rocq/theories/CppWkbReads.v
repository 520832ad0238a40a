(** * The C++ WKB parser reads every encoding: geometries *)
From Verif Require Import Base BaseFacts TypesModel TypesProofs TypesSpec GeomSpec WkbSpec CppCoordModel CppWkbSpec CppWkbModel
  CppWkbTells WkbReaderProofs CppWkbProofs.
Local Open Scope Z_scope.

Definition bytes_of (ts : list tree) : bytes := flat_map tree_bytes ts.

Definition parses (src : bytes) (t : tree) : Prop := forall l s f out,
  tree_ok t -> tail_at src (ps_cursor s) (tree_bytes t ++ l) ->
  Z.of_nat (length (tree_bytes t)) <= ps_remaining s -> (length (tree_bytes t) <= f)%nat ->
  exists s' out', parse_geometry src (S f) s out = Ok (OK, s', out') /\
    ps_cursor s' = ps_cursor s + Z.of_nat (length (tree_bytes t)) /\
    ps_remaining s' = ps_remaining s - Z.of_nat (length (tree_bytes t)) /\
    tail_at src (ps_cursor s + Z.of_nat (length (tree_bytes t))) l /\
    tells src out' t.

Lemma Forall2_nth {A B} (R : A -> B -> Prop) xs ys i x : Forall2 R xs ys -> nth_error xs i = Some x ->
  exists y, nth_error ys i = Some y /\ R x y.
Proof.
  intros H. revert i; induction H as [|a b xs ys Hab H IH]; intros [|i] Hi; cbn in *; try discriminate.
  - injection Hi as ->. eauto.
  - apply IH, Hi.
Qed.

Lemma firstn_nth_error {A} (l : list A) n i a : nth_error (firstn n l) i = Some a -> nth_error l i = Some a.
Proof.
  revert n i; induction l as [|x l IH]; intros [|n] [|i] H; cbn in *; try discriminate; [exact H|]. eapply IH, H.
Qed.

(** A geometry whose visible parts match a tree. *)
Lemma tells_vis src g t qs gs :
  meta g = (tree_code t, dimN (tree_dim t), reported_srid (h_srid (tree_header t))) ->
  vis_seqs g = qs -> wg_num_sequences g = N.of_nat (length (tree_sequences t)) ->
  Forall2 (tells_sequence src (h_endian (tree_header t)) (tree_dim t)) (tree_sequences t) qs ->
  vis_geoms g = gs -> wg_num_geometries g = N.of_nat (length (tree_parts t)) ->
  Forall2 (fun p c => tells src c p) (tree_parts t) gs ->
  tells src g t.
Proof.
  intros Hm Hq Hnq HFq Hg Hng HFg. unfold meta in Hm. injection Hm as H1 H2 H3.
  constructor; try assumption.
  - intros i cs Hi. destruct (Forall2_nth _ _ _ _ _ HFq Hi) as (q & Hqi & Ht).
    exists q. split; [|exact Ht]. unfold wg_sequence. rewrite Nat2N.id. subst qs. eapply firstn_nth_error, Hqi.
  - intros i p Hi. destruct (Forall2_nth _ _ _ _ _ HFg Hi) as (c & Hci & Ht).
    exists c. split; [|exact Ht]. unfold wg_geometry. rewrite Nat2N.id. subst gs. eapply firstn_nth_error, Hci.
Qed.

Lemma tree_bytes_min t : (9 <= length (tree_bytes t))%nat \/ exists h d c, t = TPoint h d c.
Proof.
  destruct t; [right; eauto| | |]; left; cbn [tree_bytes]; rewrite !app_length, header_bytes_length;
    unfold enc_ring, count_bytes; rewrite ?app_length, enc32_length; destruct (h_srid h); lia.
Qed.

Lemma tree_bytes_pos t : (1 <= length (tree_bytes t))%nat.
Proof.
  destruct t; cbn [tree_bytes]; rewrite app_length, header_bytes_length; destruct (h_srid h); lia.
Qed.

Lemma bytes_of_count ts : (length ts <= length (bytes_of ts))%nat.
Proof.
  induction ts as [|t ts IH]; [reflexivity|]. unfold bytes_of in *. cbn [flat_map length]. rewrite app_length.
  pose proof (tree_bytes_pos t). lia.
Qed.

Lemma rings_count e rings : (length rings <= length (flat_map (enc_ring e) rings))%nat.
Proof.
  induction rings as [|r rings IH]; cbn [flat_map length]; [lia|].
  rewrite app_length. unfold enc_ring at 1. rewrite app_length, enc32_length. lia.
Qed.

Lemma parse_members_ok src ts : Forall (parses src) ts -> forall f k s l out,
  Forall tree_ok ts ->
  tail_at src (ps_cursor s) (bytes_of ts ++ l) -> Z.of_nat (length (bytes_of ts)) <= ps_remaining s ->
  (length (bytes_of ts) <= f)%nat -> (length ts <= k)%nat ->
  fits out -> (wg_num_geometries out + N.of_nat (length ts) < 2 ^ 32)%N ->
  exists s' out' gs, parse_n k (parse_member (parse_geometry src (S f))) (N.of_nat (length ts)) s out = Ok (OK, s', out') /\
    ps_cursor s' = ps_cursor s + Z.of_nat (length (bytes_of ts)) /\
    ps_remaining s' = ps_remaining s - Z.of_nat (length (bytes_of ts)) /\
    tail_at src (ps_cursor s + Z.of_nat (length (bytes_of ts))) l /\
    Forall2 (fun p c => tells src c p) ts gs /\
    fits out' /\ vis_geoms out' = vis_geoms out ++ gs /\
    wg_num_geometries out' = (wg_num_geometries out + N.of_nat (length ts))%N /\ vis_seqs out' = vis_seqs out /\
    wg_num_sequences out' = wg_num_sequences out /\ meta out' = meta out.
Proof.
  induction 1 as [|t ts Ht HF IH]; intros f k s l out Hok Htl Hr Hf Hk Hfit Hn.
  - change (bytes_of []) with (@nil N) in *. cbn [length] in *. change (N.of_nat 0) with 0%N.
    rewrite parse_n_zero. exists s, out, []. rewrite app_nil_r, N.add_0_r. change (Z.of_nat 0) with 0.
    rewrite Z.add_0_r, Z.sub_0_r. split; [reflexivity|]. split; [reflexivity|]. split; [reflexivity|].
    split; [exact Htl|]. split; [constructor|]. auto 10.
  - destruct k as [|k]; [cbn [length] in Hk; lia|]. inversion Hok; subst.
    change (bytes_of (t :: ts)) with (tree_bytes t ++ bytes_of ts) in *.
    rewrite app_length in *. cbn [length] in *. rewrite <- app_assoc in Htl.
    rewrite parse_n_succ by lia. unfold parse_member at 1.
    destruct (append_geometry_ok out Hfit ltac:(lia)) as (out1 & child & E1 & Hset). rewrite E1. cbn [obind].
    destruct (Ht (bytes_of ts ++ l) s f child ltac:(assumption) Htl ltac:(lia) ltac:(lia))
      as (s1 & child' & E2 & C2 & R2 & T2 & Htell). rewrite E2. cbn [obind].
    destruct (Hset child') as (out2 & E3 & F3 & V3 & N3 & Q3 & M3 & X3). rewrite E3. cbn [obind].
    replace (N.of_nat (S (length ts)) - 1)%N with (N.of_nat (length ts)) by lia.
    destruct (IH f k s1 l out2) as (s4 & out4 & gs & E4 & C4 & R4 & T4 & HF4 & F4 & V4 & N4 & Q4 & M4 & X4);
      try assumption; try lia.
    { rewrite C2. exact T2. }
    rewrite E4. exists s4, out4, (child' :: gs). split; [reflexivity|]. split; [lia|]. split; [lia|].
    split.
    { rewrite C2 in T4. replace (ps_cursor s + Z.of_nat (length (tree_bytes t) + length (bytes_of ts)))
        with (ps_cursor s + Z.of_nat (length (tree_bytes t)) + Z.of_nat (length (bytes_of ts))) by lia. exact T4. }
    split; [constructor; assumption|]. split; [exact F4|]. split; [rewrite V4, V3, <- app_assoc; reflexivity|].
    split; [lia|]. split; [congruence|]. split; congruence.
Qed.

Lemma start_facts out srid d t : let g := set_type (set_dims (set_srid (reset out) srid) d) t in
  fits g /\ vis_seqs g = [] /\ vis_geoms g = [] /\ wg_num_sequences g = 0%N /\ wg_num_geometries g = 0%N /\
  meta g = (t, d, srid).
Proof. destruct out. cbv zeta. cbn. repeat split; cbn; try lia. Qed.

Lemma parse_geometry_ok src t : parses src t.
Proof.
  induction t as [h d c|h d cs|h d rings|h k d parts IH] using tree_ind';
    intros l s f out Hok Ht Hr Hf; inversion Hok; subst; clear Hok; rewrite parse_geometry_unfold;
    cbn [tree_bytes] in *; rewrite app_length in *; rewrite <- app_assoc in Ht.
  - (* point *)
    destruct (parse_header_ok src s h d 1 _ out ltac:(assumption) Ht ltac:(lia)) as (s1 & E1 & C1 & R1 & T1 & Hset).
    rewrite E1. cbn [obind]. unfold dispatch. change (1 =? 1)%N with true. cbn iota.
    destruct (start_facts out (reported_srid (h_srid h)) (dimN d) 1) as (F & Vq & Vg & Nq & Ng & Hm).
    set (g := set_type _ _) in *. destruct Hset as (He & Hd & Hst). unfold parse_point. rewrite Hst.
    assert (wf_seq d [c]) as Hwf by (constructor; [assumption|constructor]).
    assert (enc_coord (h_endian h) c = enc_coords (h_endian h) [c]) as Ec.
    { unfold enc_coords. cbn [flat_map]. rewrite app_nil_r. reflexivity. }
    rewrite Ec in *. pose proof (enc_coords_length (h_endian h) d [c] Hwf) as Hl. cbn [length] in Hl.
    replace (Z.of_N (N.of_nat (ndim d) * 8)) with (Z.of_nat (length (enc_coords (h_endian h) [c]))) by lia.
    rewrite check_ok by lia. unfold new_sequence_at_cursor.
    match goal with |- context[append_sequence g ?x] => set (q := x) end.
    destruct (append_sequence_ok g q F ltac:(rewrite Nq; cbn; lia)) as (g' & E2 & F2 & V2 & N2 & G2 & M2 & X2).
    rewrite E2. cbn [obind]. eexists _, g'. split; [reflexivity|]. cbn [advance ps_cursor ps_remaining].
    split; [lia|]. split; [lia|].
    split.
    { replace (ps_cursor s + Z.of_nat (length (header_bytes h) + length (enc_coords (h_endian h) [c])))
        with (ps_cursor s + Z.of_nat (length (header_bytes h)) + Z.of_nat (length (enc_coords (h_endian h) [c]))) by lia.
      apply tail_at_adv, T1. }
    apply (tells_vis src g' (TPoint h d c) [q] []).
    + rewrite X2, Hm. reflexivity.
    + rewrite V2, Vq. reflexivity.
    + rewrite N2, Nq. reflexivity.
    + constructor; [|constructor]. subst q. cbn [tree_header tree_dim].
      constructor; cbn [sq_length sq_stride sq_dims sq_endian sq_data]; try assumption; [reflexivity|].
      rewrite C1. exact (located_tail _ _ _ _ _ T1).
    + rewrite G2. exact Vg.
    + rewrite M2. exact Ng.
    + constructor.
  - (* linestring *)
    destruct (parse_header_ok src s h d 2 _ out ltac:(assumption) Ht ltac:(lia)) as (s1 & E1 & C1 & R1 & T1 & Hset).
    rewrite E1. cbn [obind]. unfold dispatch. change (2 =? 1)%N with false. change (2 =? 2)%N with true. cbn iota.
    destruct (start_facts out (reported_srid (h_srid h)) (dimN d) 2) as (F & Vq & Vg & Nq & Ng & Hm).
    set (g := set_type _ _) in *. rewrite <- C1 in T1.
    destruct (parse_sequence_ok src s1 (h_endian h) d cs l g ltac:(assumption) ltac:(assumption) Hset T1 ltac:(lia) F
                ltac:(rewrite Nq; cbn; lia)) as (g' & q & E2 & T2 & Hq & F2 & V2 & N2 & G2 & M2 & X2).
    rewrite E2. eexists _, g'. split; [reflexivity|]. cbn [advance ps_cursor ps_remaining].
    split; [lia|]. split; [lia|].
    split.
    { rewrite C1 in T2. replace (ps_cursor s + Z.of_nat (length (header_bytes h) + length (enc_ring (h_endian h) cs)))
        with (ps_cursor s + Z.of_nat (length (header_bytes h)) + Z.of_nat (length (enc_ring (h_endian h) cs))) by lia.
      exact T2. }
    apply (tells_vis src g' (TLine h d cs) [q] []).
    + rewrite X2, Hm. reflexivity.
    + rewrite V2, Vq. reflexivity.
    + rewrite N2, Nq. reflexivity.
    + constructor; [exact Hq|constructor].
    + rewrite G2. exact Vg.
    + rewrite M2. exact Ng.
    + constructor.
  - (* polygon *)
    destruct (parse_header_ok src s h d 3 _ out ltac:(assumption) Ht ltac:(lia)) as (s1 & E1 & C1 & R1 & T1 & Hset).
    rewrite E1. cbn [obind]. unfold dispatch. change (3 =? 1)%N with false. change (3 =? 2)%N with false.
    change (3 =? 3)%N with true. cbn iota.
    destruct (start_facts out (reported_srid (h_srid h)) (dimN d) 3) as (F & Vq & Vg & Nq & Ng & Hm).
    set (g := set_type _ _) in *. rewrite <- C1 in T1. rewrite app_length in *. unfold count_bytes in *.
    rewrite enc32_length in *. rewrite <- app_assoc in T1. unfold parse_polygon. rewrite check_ok by lia.
    destruct (read_uint32_ok src s1 (h_endian h) (N.of_nat (length rings)) _ T1 (proj1 Hset) ltac:(assumption)) as [E2 T2].
    rewrite E2. cbn [obind].
    pose proof (rings_count (h_endian h) rings) as Hcount.
    destruct (parse_rings_ok src (h_endian h) d rings f (advance s1 4) l g ltac:(assumption) ltac:(assumption)
                Hset T2 ltac:(cbn [advance ps_remaining]; lia) ltac:(lia) F
                ltac:(rewrite Nq; unfold count_ok in *; lia))
      as (g' & qs & E3 & T3 & Hq & F3 & V3 & N3 & G3 & M3 & X3).
    rewrite E3. eexists _, g'. split; [reflexivity|]. cbn [advance ps_cursor ps_remaining] in *.
    split; [lia|]. split; [lia|].
    split.
    { match type of T3 with tail_at _ ?a _ => match goal with |- tail_at _ ?b _ => replace b with a by lia end end.
      exact T3. }
    apply (tells_vis src g' (TPoly h d rings) qs []).
    + rewrite X3, Hm. reflexivity.
    + rewrite V3, Vq. reflexivity.
    + rewrite N3, Nq. reflexivity.
    + exact Hq.
    + rewrite G3. exact Vg.
    + rewrite M3. exact Ng.
    + constructor.
  - (* collection *)
    destruct (coll_code_ok k) as [_ Hrange].
    destruct (parse_header_ok src s h d (coll_code k) _ out ltac:(assumption) Ht ltac:(lia)) as (s1 & E1 & C1 & R1 & T1 & Hset).
    rewrite E1. cbn [obind]. unfold dispatch.
    assert (coll_code k =? 1 = false)%N as Eb1 by lia.
    assert (coll_code k =? 2 = false)%N as Eb2 by lia.
    assert (coll_code k =? 3 = false)%N as Eb3 by lia.
    assert ((coll_code k =? 4) || (coll_code k =? 5) || (coll_code k =? 6) || (coll_code k =? 7) = true)%N as Eb4 by lia.
    rewrite Eb1, Eb2, Eb3, Eb4.
    destruct (start_facts out (reported_srid (h_srid h)) (dimN d) (coll_code k)) as (F & Vq & Vg & Nq & Ng & Hm).
    set (g := set_type _ _) in *. rewrite <- C1 in T1. rewrite app_length in *. unfold count_bytes in *.
    rewrite enc32_length in *. rewrite <- app_assoc in T1. unfold parse_collection. rewrite check_ok by lia.
    destruct (read_uint32_ok src s1 (h_endian h) (N.of_nat (length parts)) _ T1 (proj1 Hset) ltac:(assumption)) as [E2 T2].
    rewrite E2. cbn [obind].
    destruct f as [|f]; [lia|].
    fold (bytes_of parts) in *. pose proof (bytes_of_count parts) as Hcount.
    destruct (parse_members_ok src parts IH f (S f) (advance s1 4) l g ltac:(assumption)
                T2 ltac:(cbn [advance ps_remaining]; lia) ltac:(lia) ltac:(lia) F
                ltac:(rewrite Ng; unfold count_ok in *; lia))
      as (s3 & g' & gs & E3 & C3 & R3 & T3 & HFg & F3 & V3 & N3 & G3 & M3 & X3).
    rewrite E3. eexists _, g'. split; [reflexivity|]. cbn [advance ps_cursor ps_remaining] in *.
    split; [lia|]. split; [lia|].
    split.
    { match type of T3 with tail_at _ ?a _ => match goal with |- tail_at _ ?b _ => replace b with a by lia end end.
      exact T3. }
    apply (tells_vis src g' (TColl h k d parts) [] gs).
    + rewrite X3, Hm. unfold tree_code. destruct k; reflexivity.
    + rewrite G3. exact Vq.
    + rewrite M3. exact Nq.
    + constructor.
    + rewrite V3, Vg. reflexivity.
    + rewrite N3, Ng. reflexivity.
    + exact HFg.
Qed.

Lemma parse_ok t rest s0 out : tree_ok t ->
  exists s' out', parse (tree_bytes t ++ rest) s0 out =
      Ok (match rest with [] => OK | _ => TOO_MANY_BYTES end, Some (Z.of_nat (length (tree_bytes t))), s', out') /\
    tells (tree_bytes t ++ rest) out' t.
Proof.
  intros Hok. unfold parse.
  match goal with |- context[parse_geometry _ _ ?x _] => set (s := x) end.
  destruct (parse_geometry_ok (tree_bytes t ++ rest) t rest s (length (tree_bytes t ++ rest)) out Hok)
    as (s' & out' & E & C & R & T & Htell).
  { apply tail_at_0. }
  { cbn [s ps_remaining]. rewrite app_length. lia. }
  { rewrite app_length. lia. }
  rewrite E. cbn [obind]. exists s', out'. split; [|exact Htell].
  rewrite C. cbn [s ps_cursor]. rewrite Z.add_0_l, app_length.
  destruct rest as [|x rest]; cbn [length].
  - destruct (Z.ltb_spec (Z.of_nat (length (tree_bytes t))) (Z.of_nat (length (tree_bytes t) + 0))); [lia|reflexivity].
  - destruct (Z.ltb_spec (Z.of_nat (length (tree_bytes t))) (Z.of_nat (length (tree_bytes t) + S (length rest))));
      [reflexivity|lia].
Qed.
