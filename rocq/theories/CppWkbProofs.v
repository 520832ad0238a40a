(** * The C++ WKB parser reads every encoding *)
From Verif Require Import Base BaseFacts TypesModel TypesProofs TypesSpec GeomSpec WkbSpec CppCoordModel CppWkbSpec CppWkbModel
  CppWkbTells WkbReaderProofs.
Local Open Scope Z_scope.

(** ** Induction over trees *)

Section TreeInd.
  Variable P : tree -> Prop.
  Hypothesis Hp : forall h d c, P (TPoint h d c).
  Hypothesis Hl : forall h d cs, P (TLine h d cs).
  Hypothesis Hg : forall h d rings, P (TPoly h d rings).
  Hypothesis Hc : forall h k d parts, Forall P parts -> P (TColl h k d parts).
  Fixpoint tree_ind' (t : tree) : P t :=
    match t with
    | TPoint h d c => Hp h d c
    | TLine h d cs => Hl h d cs
    | TPoly h d rings => Hg h d rings
    | TColl h k d parts =>
        Hc h k d parts ((fix go l := match l return Forall P l with
                                     | [] => Forall_nil P
                                     | t :: r => Forall_cons t (tree_ind' t) (go r)
                                     end) parts)
    end.
End TreeInd.

(** ** Vectors *)

Lemma replace_nth_some {A} i (a : A) l : (i < length l)%nat ->
  exists l', replace_nth i a l = Some l' /\ length l' = length l /\
    firstn i l' = firstn i l /\ nth_error l' i = Some a.
Proof.
  revert i; induction l as [|x l IH]; intros i Hi; cbn [length] in Hi; [lia|].
  destruct i as [|i]; cbn [replace_nth].
  - eexists. repeat split; reflexivity.
  - destruct (IH i ltac:(lia)) as (l' & E & Hl & Hf & Hn). rewrite E. eexists. split; [reflexivity|].
    cbn [length firstn nth_error]. rewrite Hl, Hf, Hn. auto.
Qed.

Lemma firstn_S_nth {A} i (l : list A) a : nth_error l i = Some a -> firstn (S i) l = firstn i l ++ [a].
Proof.
  revert i; induction l as [|x l IH]; intros [|i] H; cbn [nth_error] in H; try discriminate.
  - injection H as ->. reflexivity.
  - cbn [firstn app]. f_equal. apply IH, H.
Qed.

(** What the accessors reach. *)
Definition vis_seqs (g : wgeom) : list wseq := firstn (N.to_nat (wg_num_sequences g)) (wg_sequences g).
Definition vis_geoms (g : wgeom) : list wgeom := firstn (N.to_nat (wg_num_geometries g)) (wg_geometries g).
Definition meta (g : wgeom) := (wg_type g, wg_dims g, wg_srid g).

(** The counters do not exceed the vectors. *)
Record fits (g : wgeom) : Prop := {
  fits_seqs : (N.to_nat (wg_num_sequences g) <= length (wg_sequences g))%nat;
  fits_geoms : (N.to_nat (wg_num_geometries g) <= length (wg_geometries g))%nat
}.

Lemma fits_reset g : fits (reset g).
Proof. destruct g. split; cbn; lia. Qed.

Lemma append_sequence_ok g q : fits g -> (wg_num_sequences g + 1 < 2 ^ 32)%N ->
  exists g', append_sequence g q = Ok g' /\ fits g' /\ vis_seqs g' = vis_seqs g ++ [q] /\
    wg_num_sequences g' = (wg_num_sequences g + 1)%N /\ vis_geoms g' = vis_geoms g /\
    wg_num_geometries g' = wg_num_geometries g /\ meta g' = meta g.
Proof.
  destruct g as [t d s qs nq gs ng]. intros [F1 F2] Hn. cbn in F1, F2, Hn. unfold append_sequence.
  rewrite wrap32_small by exact Hn.
  set (qs1 := if (N.of_nat (length qs) <? nq + 1)%N then qs ++ [WSeq 0 0 0 0 0] else qs).
  assert (N.to_nat nq < length qs1)%nat as Hl.
  { subst qs1. destruct (N.ltb_spec (N.of_nat (length qs)) (nq + 1)); [rewrite app_length; cbn|]; lia. }
  assert (firstn (N.to_nat nq) qs1 = firstn (N.to_nat nq) qs) as Hf.
  { subst qs1. destruct (N.ltb_spec (N.of_nat (length qs)) (nq + 1)); [|reflexivity].
    rewrite firstn_app. replace (N.to_nat nq - length qs)%nat with 0%nat by lia. apply app_nil_r. }
  replace (N.to_nat (nq + 1) - 1)%nat with (N.to_nat nq) by lia.
  destruct (replace_nth_some (N.to_nat nq) q qs1 Hl) as (qs2 & E & Hl2 & Hf2 & Hn2). rewrite E. cbn [or_ub obind].
  eexists. split; [reflexivity|]. split; [split; cbn; lia|]. split; [|repeat split; reflexivity].
  unfold vis_seqs. cbn [wg_num_sequences wg_sequences]. replace (N.to_nat (nq + 1)) with (S (N.to_nat nq)) by lia.
  rewrite (firstn_S_nth _ _ _ Hn2), Hf2, Hf. reflexivity.
Qed.

Lemma append_geometry_ok g : fits g -> (wg_num_geometries g + 1 < 2 ^ 32)%N ->
  exists g' child, append_geometry g = Ok (g', child) /\
    forall child', exists g'', set_last_geometry g' child' = Ok g'' /\ fits g'' /\
      vis_geoms g'' = vis_geoms g ++ [child'] /\ wg_num_geometries g'' = (wg_num_geometries g + 1)%N /\
      vis_seqs g'' = vis_seqs g /\ wg_num_sequences g'' = wg_num_sequences g /\ meta g'' = meta g.
Proof.
  destruct g as [t d s qs nq gs ng]. intros [F1 F2] Hn. cbn in F1, F2, Hn. unfold append_geometry.
  rewrite wrap32_small by exact Hn.
  set (gs1 := if (N.of_nat (length gs) <? ng + 1)%N then gs ++ [WGeom 0 0 srid_unset [] 0 [] 0] else gs).
  assert (N.to_nat ng < length gs1)%nat as Hl.
  { subst gs1. destruct (N.ltb_spec (N.of_nat (length gs)) (ng + 1)); [rewrite app_length; cbn|]; lia. }
  assert (firstn (N.to_nat ng) gs1 = firstn (N.to_nat ng) gs) as Hf.
  { subst gs1. destruct (N.ltb_spec (N.of_nat (length gs)) (ng + 1)); [|reflexivity].
    rewrite firstn_app. replace (N.to_nat ng - length gs)%nat with 0%nat by lia. apply app_nil_r. }
  replace (N.to_nat (ng + 1) - 1)%nat with (N.to_nat ng) by lia.
  destruct (nth_error gs1 (N.to_nat ng)) as [child|] eqn:Ec; [|apply nth_error_None in Ec; lia].
  cbn [or_ub obind]. eexists _, child. split; [reflexivity|]. intros child'. unfold set_last_geometry.
  replace (N.to_nat (ng + 1) - 1)%nat with (N.to_nat ng) by lia.
  destruct (replace_nth_some (N.to_nat ng) child' gs1 Hl) as (gs2 & E & Hl2 & Hf2 & Hn2). rewrite E. cbn [or_ub obind].
  eexists. split; [reflexivity|]. split; [split; cbn; lia|]. split; [|repeat split; reflexivity].
  unfold vis_geoms. cbn [wg_num_geometries wg_geometries]. replace (N.to_nat (ng + 1)) with (S (N.to_nat ng)) by lia.
  rewrite (firstn_S_nth _ _ _ Hn2), Hf2, Hf. reflexivity.
Qed.

(** ** Elementary reads *)

Lemma load_enc32 e n : (n < 2 ^ 32)%N -> load (is_be e) (enc32 e n) = n.
Proof.
  intros Hn. unfold load. destruct e; cbn [is_be enc32].
  - apply le_val_bytes. exact Hn.
  - unfold be_bytes. rewrite rev_involutive. apply le_val_bytes. exact Hn.
Qed.
Lemma load_enc64 e n : (n < 2 ^ 64)%N -> load (is_be e) (enc64 e n) = n.
Proof.
  intros Hn. unfold load. destruct e; cbn [is_be enc64].
  - apply le_val_bytes. exact Hn.
  - unfold be_bytes. rewrite rev_involutive. apply le_val_bytes. exact Hn.
Qed.

Lemma endian_load e : negb (N.eqb (endian_byte e) 1) = is_be e.
Proof. destruct e; reflexivity. Qed.

Lemma check_ok s n : n <= ps_remaining s -> check_remaining s n = OK.
Proof. intros H. unfold check_remaining. destruct (Z.leb_spec n (ps_remaining s)); [reflexivity|lia]. Qed.

Lemma read_uint32_ok src s e n l :
  tail_at src (ps_cursor s) (enc32 e n ++ l) -> ps_endian s = endian_byte e -> (n < 2 ^ 32)%N ->
  read_uint32_unchecked src s = Ok (advance s 4, n) /\ tail_at src (ps_cursor s + 4) l.
Proof.
  intros Ht He Hn. unfold read_uint32_unchecked.
  rewrite (tail_at_slice _ _ _ _ 4 Ht (enc32_length e n)). cbn [or_ub obind].
  rewrite He, endian_load, load_enc32 by exact Hn. split; [reflexivity|].
  apply (tail_at_adv' _ _ _ _ 4 Ht). rewrite enc32_length. reflexivity.
Qed.

Lemma read_endian_ok' src s e l :
  tail_at src (ps_cursor s) ([endian_byte e] ++ l) ->
  read_endian_unchecked src s =
    Ok (OK, advance (PState (ps_cursor s) (ps_remaining s) (endian_byte e) (ps_dims s) (ps_stride s)) 1) /\
  tail_at src (ps_cursor s + 1) l.
Proof.
  intros Ht. unfold read_endian_unchecked. rewrite (tail_at_slice _ _ _ _ 1 Ht eq_refl). cbn [or_ub obind].
  split; [|exact (tail_at_adv' _ _ _ _ 1 Ht eq_refl)]. destruct e; reflexivity.
Qed.

(** ** Sequences *)

Lemma located_tail src p e cs l : tail_at src p (enc_coords e cs ++ l) -> located src p e cs.
Proof. intros (pre & -> & ->). exists pre, l. auto. Qed.

(** The parser has just read a header of byte order [e] and dimensions [d]. *)
Definition set_for (s : pstate) (e : endian) (d : dim) : Prop :=
  ps_endian s = endian_byte e /\ ps_dims s = dimN d /\ ps_stride s = N.of_nat (ndim d).

Lemma set_for_advance s e d n : set_for s e d -> set_for (advance s n) e d.
Proof. intros H. exact H. Qed.

Lemma parse_sequence_ok src s e d cs l out :
  wf_seq d cs -> count_ok cs -> set_for s e d ->
  tail_at src (ps_cursor s) (enc_ring e cs ++ l) -> Z.of_nat (length (enc_ring e cs)) <= ps_remaining s ->
  fits out -> (wg_num_sequences out + 1 < 2 ^ 32)%N ->
  exists out' q, parse_sequence src s out = Ok (OK, advance s (Z.of_nat (length (enc_ring e cs))), out') /\
    tail_at src (ps_cursor s + Z.of_nat (length (enc_ring e cs))) l /\
    tells_sequence src e d cs q /\
    fits out' /\ vis_seqs out' = vis_seqs out ++ [q] /\
    wg_num_sequences out' = (wg_num_sequences out + 1)%N /\ vis_geoms out' = vis_geoms out /\
    wg_num_geometries out' = wg_num_geometries out /\ meta out' = meta out.
Proof.
  intros Hwf Hc (He & Hd & Hst) Ht Hr Hf Hn. unfold parse_sequence.
  assert (length (enc_ring e cs) = 4 + 8 * (length cs * ndim d))%nat as Hlen.
  { unfold enc_ring. rewrite app_length, enc32_length, (enc_coords_length e d cs Hwf). lia. }
  rewrite check_ok by lia. unfold enc_ring in Ht. rewrite <- app_assoc in Ht.
  destruct (read_uint32_ok src s e (N.of_nat (length cs)) _ Ht He Hc) as [E1 Ht1]. rewrite E1. cbn [obind].
  cbn [advance ps_stride]. rewrite Hst.
  replace (Z.of_N (8 * N.of_nat (length cs) * N.of_nat (ndim d))) with (Z.of_nat (length (enc_coords e cs)))
    by (rewrite (enc_coords_length e d cs Hwf); lia).
  rewrite check_ok by (cbn [advance ps_remaining]; rewrite (enc_coords_length e d cs Hwf); lia). cbn [advance].
  unfold new_sequence_at_cursor. cbn [ps_cursor ps_stride ps_dims ps_endian ps_remaining].
  match goal with |- context[append_sequence out ?x] => set (q := x) end.
  destruct (append_sequence_ok out q Hf Hn) as (out' & E2 & H1 & H2 & H3 & H4 & H5 & H6). rewrite E2. cbn [obind].
  exists out', q. split.
  { unfold advance. cbn [ps_cursor ps_stride ps_dims ps_endian ps_remaining]. rewrite Hlen.
    rewrite (enc_coords_length e d cs Hwf). do 2 f_equal. f_equal. rewrite Hst. f_equal; lia. }
  split.
  { replace (ps_cursor s + Z.of_nat (length (enc_ring e cs))) with (ps_cursor s + 4 + Z.of_nat (length (enc_coords e cs)))
      by (rewrite Hlen, (enc_coords_length e d cs Hwf); lia).
    apply tail_at_adv, Ht1. }
  split; [|auto 10].
  subst q. constructor; cbn [sq_length sq_stride sq_dims sq_endian sq_data]; try assumption; try reflexivity.
  exact (located_tail _ _ _ _ _ Ht1).
Qed.

(** ** Polygons *)

Lemma parse_n_zero body f s out : parse_n f body 0 s out = Ok (OK, s, out).
Proof. destruct f; reflexivity. Qed.
Lemma parse_n_succ body f n s out : (0 < n)%N ->
  parse_n (S f) body n s out =
    (do (st, s, out) <- body s out;
     match st with OK => parse_n f body (n - 1) s out | e => Ok (e, s, out) end).
Proof. intros H. cbn [parse_n]. destruct (N.eqb_spec n 0); [lia|reflexivity]. Qed.

Lemma parse_rings_ok src e d rings : forall f s l out,
  Forall (wf_seq d) rings -> Forall count_ok rings -> set_for s e d ->
  tail_at src (ps_cursor s) (flat_map (enc_ring e) rings ++ l) ->
  Z.of_nat (length (flat_map (enc_ring e) rings)) <= ps_remaining s ->
  (length rings <= f)%nat ->
  fits out -> (wg_num_sequences out + N.of_nat (length rings) < 2 ^ 32)%N ->
  exists out' qs, parse_n f (parse_sequence src) (N.of_nat (length rings)) s out =
      Ok (OK, advance s (Z.of_nat (length (flat_map (enc_ring e) rings))), out') /\
    tail_at src (ps_cursor s + Z.of_nat (length (flat_map (enc_ring e) rings))) l /\
    Forall2 (tells_sequence src e d) rings qs /\
    fits out' /\ vis_seqs out' = vis_seqs out ++ qs /\
    wg_num_sequences out' = (wg_num_sequences out + N.of_nat (length rings))%N /\ vis_geoms out' = vis_geoms out /\
    wg_num_geometries out' = wg_num_geometries out /\ meta out' = meta out.
Proof.
  induction rings as [|r rings IH]; intros f s l out Hwf Hc Hs Ht Hr Hf Hfit Hn.
  - cbn [length flat_map] in *. change (N.of_nat 0) with 0%N. rewrite parse_n_zero. exists out, [].
    rewrite app_nil_r, N.add_0_r. change (Z.of_nat 0) with 0. split.
    { unfold advance. rewrite Z.add_0_r, Z.sub_0_r. destruct s; reflexivity. }
    split; [rewrite Z.add_0_r; exact Ht|]. split; [constructor|]. auto 10.
  - destruct f as [|f]; [cbn [length] in Hf; lia|].
    inversion Hwf; subst. inversion Hc; subst. cbn [flat_map] in *. rewrite app_length in *. cbn [length] in *.
    rewrite <- app_assoc in Ht.
    rewrite parse_n_succ by lia.
    destruct (parse_sequence_ok src s e d r _ out ltac:(assumption) ltac:(assumption) Hs Ht ltac:(lia) Hfit ltac:(lia))
      as (out1 & q & E1 & Ht1 & Hq & F1 & V1 & N1 & G1 & M1 & X1).
    rewrite E1. cbn [obind]. replace (N.of_nat (S (length rings)) - 1)%N with (N.of_nat (length rings)) by lia.
    destruct (IH f (advance s (Z.of_nat (length (enc_ring e r)))) l out1) as (out2 & qs & E2 & Ht2 & Hqs & F2 & V2 & N2 & G2 & M2 & X2);
      try assumption; try lia.
    { cbn [advance ps_remaining]. lia. }
    rewrite E2. exists out2, (q :: qs). split.
    { unfold advance. cbn [ps_cursor ps_stride ps_dims ps_endian ps_remaining]. do 2 f_equal. f_equal. f_equal; lia. }
    split.
    { cbn [advance ps_cursor] in Ht2.
      replace (ps_cursor s + Z.of_nat (length (enc_ring e r) + length (flat_map (enc_ring e) rings)))
        with (ps_cursor s + Z.of_nat (length (enc_ring e r)) + Z.of_nat (length (flat_map (enc_ring e) rings))) by lia.
      exact Ht2. }
    split; [constructor; assumption|]. split; [exact F2|].
    split; [rewrite V2, V1, <- app_assoc; reflexivity|]. split; [lia|]. split; [congruence|]. split; congruence.
Qed.

(** ** Headers *)

Lemma land_pow2 w k : N.eqb (N.land w (2 ^ k)) 0 = negb (N.testbit w k).
Proof.
  destruct (N.eqb_spec (N.land w (2 ^ k)) 0) as [E|E].
  - assert (N.testbit (N.land w (2 ^ k)) k = false) as H by (rewrite E; apply N.bits_0).
    rewrite N.land_spec, N.pow2_bits_true, Bool.andb_true_r in H. rewrite H. reflexivity.
  - destruct (N.testbit w k) eqn:Eb; [reflexivity|]. exfalso. apply E. apply N.bits_inj. intros j.
    rewrite N.land_spec, N.bits_0. destruct (N.eq_dec j k) as [->|Hne]; [rewrite Eb; reflexivity|].
    rewrite N.pow2_bits_false by congruence. apply Bool.andb_false_r.
Qed.

Lemma word_has_bit w k b : b = (2 ^ k)%N -> word_has w b = N.testbit w k.
Proof. intros ->. unfold word_has. rewrite land_pow2. apply Bool.negb_involutive. Qed.

Lemma land_mask w : N.land w kEWKBMask = iso_code w.
Proof. exact (N.land_ones w 24). Qed.

Lemma word_z_spec w : word_z w = true <->
  N.testbit w 31 = true \/ (iso_code w / 1000 = 1)%N \/ (iso_code w / 1000 = 3)%N.
Proof.
  unfold word_z. rewrite land_mask, (word_has_bit w 31) by reflexivity.
  destruct (N.eqb_spec (iso_code w / 1000) 1); [split; auto|].
  destruct (N.eqb_spec (iso_code w / 1000) 3); [split; auto|].
  split; [auto|]. intros [H|[H|H]]; [exact H|contradiction|contradiction].
Qed.
Lemma word_m_spec w : word_m w = true <->
  N.testbit w 30 = true \/ (iso_code w / 1000 = 2)%N \/ (iso_code w / 1000 = 3)%N.
Proof.
  unfold word_m. rewrite land_mask, (word_has_bit w 30) by reflexivity.
  destruct (N.eqb_spec (iso_code w / 1000) 2); [split; auto|].
  destruct (N.eqb_spec (iso_code w / 1000) 3); [split; auto|].
  split; [auto|]. intros [H|[H|H]]; [exact H|contradiction|contradiction].
Qed.

Lemma bool_eq_iff a b : (a = true <-> b = true) -> a = b.
Proof. destruct a, b; intuition congruence. Qed.

Lemma announces_word w srid d base : announces w srid d base ->
  word_z w = has_z d /\ word_m w = has_m d /\ word_type w = base /\
  word_has w kEWKBSrid = match srid with Some _ => true | None => false end /\
  word_dims w = dimN d /\ word_stride w = N.of_nat (ndim d).
Proof.
  intros (Hw & Hb & Hs & Hz & Hm).
  assert (word_z w = has_z d) as Ez by (apply bool_eq_iff; rewrite word_z_spec; symmetry; exact Hz).
  assert (word_m w = has_m d) as Em by (apply bool_eq_iff; rewrite word_m_spec; symmetry; exact Hm).
  split; [exact Ez|]. split; [exact Em|].
  split; [unfold word_type; rewrite land_mask; exact Hb|].
  split.
  { rewrite (word_has_bit w 29) by reflexivity. destruct srid as [n|].
    - apply Hs. discriminate.
    - destruct (N.testbit w 29); [|reflexivity]. destruct Hs as [Hs _]. specialize (Hs eq_refl). congruence. }
  unfold word_dims, word_stride. rewrite Ez, Em. destruct d; split; reflexivity.
Qed.

Lemma header_bytes_length h : length (header_bytes h) = (match h_srid h with Some _ => 9 | None => 5 end)%nat.
Proof.
  unfold header_bytes. rewrite !app_length, enc32_length. destruct (h_srid h); [rewrite enc32_length|]; reflexivity.
Qed.

(** ParseGeometry from the start to the dispatch on the type. *)
Definition parse_header (src : bytes) (s : pstate) (out : wgeom) : outcome (status * pstate * wgeom * N) :=
  match check_remaining s 5 with
  | OK =>
      do (st, s) <- read_endian_unchecked src s;
      match st with
      | OK =>
          do (s, w) <- read_uint32_unchecked src s;
          do (st, s, out) <- parse_srid src w s out;
          match st with
          | OK => Ok (OK, PState (ps_cursor s) (ps_remaining s) (ps_endian s) (word_dims w) (word_stride w),
                      set_dims out (word_dims w), word_type w)
          | e => Ok (e, s, out, 0%N)
          end
      | e => Ok (e, s, out, 0%N)
      end
  | e => Ok (e, s, out, 0%N)
  end.

Definition dispatch (src : bytes) (f : nat) (s : pstate) (out : wgeom) (t : N) : outcome presult :=
  if N.eqb t 1 then parse_point s (set_type out t)
  else if N.eqb t 2 then parse_sequence src s (set_type out t)
  else if N.eqb t 3 then parse_polygon src f s (set_type out t)
  else if (N.eqb t 4 || N.eqb t 5 || N.eqb t 6 || N.eqb t 7)%bool
  then parse_collection src f (parse_geometry src f) s (set_type out t)
  else Ok (INVALID_GEOMETRY_TYPE, s, out).

Lemma parse_geometry_unfold src f s out :
  parse_geometry src (S f) s out =
    (do (st, s, out, t) <- parse_header src s (reset out);
     match st with OK => dispatch src f s out t | e => Ok (e, s, out) end).
Proof.
  cbn [parse_geometry]. unfold parse_header. destruct (check_remaining s 5); try reflexivity.
  destruct (read_endian_unchecked src s) as [[st1 s1]| | |]; cbn [obind]; try reflexivity.
  destruct st1; try reflexivity.
  destruct (read_uint32_unchecked src s1) as [[s2 w]| | |]; cbn [obind]; try reflexivity.
  destruct (parse_srid src w s2 (reset out)) as [[[st3 s3] out3]| | |]; cbn [obind]; try reflexivity.
  destruct st3; reflexivity.
Qed.

Lemma parse_header_ok src s h d base l out :
  header_ok h d base ->
  tail_at src (ps_cursor s) (header_bytes h ++ l) -> Z.of_nat (length (header_bytes h)) <= ps_remaining s ->
  exists s', parse_header src s (reset out) =
      Ok (OK, s', set_dims (set_srid (reset out) (reported_srid (h_srid h))) (dimN d), base) /\
    ps_cursor s' = ps_cursor s + Z.of_nat (length (header_bytes h)) /\
    ps_remaining s' = ps_remaining s - Z.of_nat (length (header_bytes h)) /\
    tail_at src (ps_cursor s + Z.of_nat (length (header_bytes h))) l /\
    set_for s' (h_endian h) d.
Proof.
  intros [Ha Hsr] Ht Hr. destruct (announces_word _ _ _ _ Ha) as (_ & _ & Et & Es & Ed & Est).
  destruct Ha as [Hw _]. rewrite header_bytes_length in *. unfold parse_header.
  rewrite check_ok by (destruct (h_srid h); lia).
  unfold header_bytes in Ht. rewrite <- !app_assoc in Ht.
  destruct (read_endian_ok' _ _ _ _ Ht) as [E1 Ht1]. rewrite E1. cbn [obind].
  match goal with |- context[read_uint32_unchecked src ?x] => set (s1 := x) end.
  destruct (read_uint32_ok src s1 (h_endian h) (h_word h) _ Ht1 eq_refl Hw) as [E2 Ht2]. rewrite E2. cbn [obind].
  unfold parse_srid. rewrite Es. rewrite Ed, Est, Et. subst s1. cbn [advance ps_cursor ps_remaining ps_endian] in *.
  destruct (h_srid h) as [n|] eqn:En.
  - rewrite check_ok by (cbn; lia).
    match goal with |- context[read_uint32_unchecked src ?x] => set (s2 := x) end.
    destruct (read_uint32_ok src s2 (h_endian h) n l Ht2 eq_refl Hsr) as [E3 Ht3]. rewrite E3. cbn [obind].
    subst s2. cbn [advance ps_cursor ps_remaining ps_endian ps_dims ps_stride] in *.
    eexists. split; [reflexivity|]. cbn [ps_cursor ps_remaining ps_endian ps_dims ps_stride].
    split; [lia|]. split; [lia|].
    split; [|repeat split; reflexivity].
    replace (ps_cursor s + Z.of_nat 9) with (ps_cursor s + 1 + 4 + 4) by lia. exact Ht3.
  - cbn [obind]. eexists. split.
    { destruct out. reflexivity. }
    cbn [advance ps_cursor ps_remaining ps_endian ps_dims ps_stride].
    split; [lia|]. split; [lia|].
    split; [|repeat split; reflexivity].
    replace (ps_cursor s + Z.of_nat 5) with (ps_cursor s + 1 + 4) by lia. exact Ht2.
Qed.
