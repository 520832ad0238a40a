From Verif Require Import Base BaseFacts TypesModel TypesProofs GeomSpec GeomFacts NodesModel NodesSpec VisitorModel VisitorSpec
  VisitorFacts GeomVisitModel.
Local Open Scope Z_scope.
Ltac Zify.zify_post_hook ::= Z.div_mod_to_equations.

(** ** Copying a sequence *)

Definition decode_word (swap : bool) (w : N) : N := if swap then bswap64 w else w.

(** The memory behind the coordinate pointers of [nd] holds at least the coordinates [cs]. *)
Record holds (m : mem) (nd : node) (d : dim) (cs : list coord) : Prop := {
  h_dims : nd_dims nd = dimN d;
  h_ords : forall i j c, nth_error cs i = Some c -> (j < ndim d)%nat ->
           node_ordinate m nd (Z.of_nat i) j = nth_error c j
}.

Lemma seq_node_holds m ty lvl d cs nd : seq_node m ty lvl d cs nd -> holds m nd d cs.
Proof. intros H. split; [apply H|]. intros i j c. apply (sn_ords _ _ _ _ _ _ H). Qed.

Lemma num_dimensions_dimN d : num_dimensions (Z.of_N (dimN d)) = Some (Z.of_nat (ndim d)).
Proof. destruct d; reflexivity. Qed.

Lemma ndim_bounds d : (2 <= ndim d <= 4)%nat.
Proof. destruct d; cbn; lia. Qed.

Lemma node_row_ok m nd i c k j : (forall j', (j <= j' < j + k)%nat -> node_ordinate m nd i j' = nth_error c j') ->
  length c = (j + k)%nat ->
  exists r, node_row m nd i j k = Ok r /\ map (decode_word (nd_swap nd)) r = skipn j c.
Proof.
  revert j; induction k as [|k IH]; intros j H Hl.
  - exists []. split; [reflexivity|]. rewrite skipn_all2 by lia. reflexivity.
  - cbn [node_row].
    assert (exists w, nth_error c j = Some w) as [w Hw].
    { destruct (nth_error c j) eqn:E; [eauto|]. apply nth_error_None in E. lia. }
    pose proof (H j ltac:(lia)) as Hj. rewrite Hw in Hj. unfold node_ordinate in Hj.
    destruct (qget (nd_coords nd) j) as [p|]; [|discriminate].
    destruct (qget (nd_stride nd) j) as [s|]; [|discriminate]. cbn [or_ub obind].
    destruct (load64 m (ptr_add p (i * s))) as [x|]; [|discriminate]. cbn [or_ub obind].
    destruct (IH (S j)) as (r & Er & Hr).
    { intros j' Hj'. apply H. lia. } { lia. }
    rewrite Er. cbn [obind]. exists (x :: r). split; [reflexivity|].
    cbn [map]. rewrite Hr. unfold decode_word. injection Hj as ->.
    clear -Hw. revert j Hw; induction c as [|y c IHc]; intros [|j] Hw; cbn in Hw |- *; try discriminate.
    + injection Hw as ->. reflexivity.
    + apply IHc. exact Hw.
Qed.

Lemma node_rows_ok m nd d cs off : wf_seq d cs ->
  (forall i j c, nth_error cs i = Some c -> (j < ndim d)%nat -> node_ordinate m nd (off + Z.of_nat i) j = nth_error c j) ->
  exists rows, node_rows m nd off (length cs) (ndim d) = Ok rows /\
    map (map (decode_word (nd_swap nd))) rows = cs.
Proof.
  revert off; induction cs as [|c cs IH]; intros off Hwf H.
  - exists []. split; reflexivity.
  - inversion Hwf as [|? ? [Hc _] Hwf']; subst. cbn [length node_rows].
    destruct (node_row_ok m nd off c (ndim d) 0) as (r & Er & Hr).
    { intros j Hj. specialize (H 0%nat j c eq_refl ltac:(lia)). rewrite Z.add_0_r in H. exact H. }
    { exact Hc. }
    rewrite Er. cbn [obind].
    destruct (IH (off + 1) Hwf') as (rows & Erows & Hrows).
    { intros i j c' Hi Hj. specialize (H (S i) j c' Hi Hj). rewrite <- H. f_equal. lia. }
    rewrite Erows. cbn [obind]. exists (r :: rows). split; [reflexivity|]. cbn [map]. rewrite Hr, Hrows. reflexivity.
Qed.

Lemma wrap32_id n : (n < 2 ^ 32)%N -> wrap32 n = n.
Proof. intros H. apply N.mod_small. exact H. Qed.

Lemma concat_len d (cs : list coord) : wf_seq d cs -> length (concat cs) = (length cs * ndim d)%nat.
Proof. intros H. apply concat_length_const. eapply Forall_impl; [|exact H]. intros c [Hc _]. exact Hc. Qed.

Lemma map_id_ext {A} (f : A -> A) l : (forall x, f x = x) -> map f l = l.
Proof. intros H. induction l as [|x l IH]; cbn; [reflexivity|]. rewrite H, IH. reflexivity. Qed.

(** GeoArrowGeometryNodeWriteSequence writes the decoded coordinates of its node. *)
Lemma write_sequence_ok m nd d cs dst_size : holds m nd d cs -> wf_seq d cs ->
  nd_size nd = N.of_nat (length cs) -> (N.of_nat (ndim d * length cs) < 2 ^ 32)%N ->
  Z.of_nat (ndim d * length cs * 8) <= dst_size ->
  write_sequence m nd dst_size = Ok (Z.of_nat (ndim d * length cs * 8), Some (concat cs)).
Proof.
  intros [Hd Ho] Hwf Hsz Hlim Hdst. unfold write_sequence. rewrite Hd, num_dimensions_dimN. cbn [or_ub obind].
  rewrite Z.mod_small by (pose proof (ndim_bounds d); lia).
  replace (Z.to_N (Z.of_nat (ndim d))) with (N.of_nat (ndim d)) by lia. rewrite Hsz.
  replace (N.of_nat (ndim d) * N.of_nat (length cs))%N with (N.of_nat (ndim d * length cs)) by lia.
  rewrite wrap32_id by exact Hlim.
  replace (Z.of_N (N.of_nat (ndim d * length cs) * 8)) with (Z.of_nat (ndim d * length cs * 8)) by lia.
  destruct (Z.ltb_spec dst_size (Z.of_nat (ndim d * length cs * 8))); [lia|].
  destruct (Z.ltb_spec dst_size (Z.of_N (N.of_nat (ndim d * length cs)) * 8)); [lia|].
  rewrite !Nat2N.id.
  destruct (node_rows_ok m nd d cs 0 Hwf) as (rows & Erows & Hrows).
  { intros i j c Hi Hj. apply Ho; assumption. }
  rewrite Erows. cbn [obind]. do 3 f_equal.
  assert (map (decode_word (nd_swap nd)) (concat rows) = concat cs) as Hcat by (rewrite concat_map, Hrows; reflexivity).
  assert (length (concat rows) = (length cs * ndim d)%nat) as Hlen.
  { rewrite <- (map_length (decode_word (nd_swap nd))), Hcat. apply concat_len. exact Hwf. }
  replace (length (concat rows) - Z.to_nat (Z.of_nat (ndim d * length cs * 8) / 8))%nat with 0%nat.
  2:{ replace (Z.of_nat (ndim d * length cs * 8) / 8) with (Z.of_nat (ndim d * length cs)).
      - lia.
      - rewrite (Nat2Z.inj_mul (ndim d * length cs) 8). symmetry. apply Z.div_mul. lia. }
  cbn [firstn skipn app]. unfold decode_word in Hcat. destruct (nd_swap nd); [exact Hcat|].
  rewrite map_id_ext in Hcat by reflexivity. exact Hcat.
Qed.

Lemma view_coords_concat d (cs : list coord) : wf_seq d cs -> view_coords (concat cs) (length cs) (ndim d) = cs.
Proof.
  intros Hwf. unfold view_coords.
  assert (forall pre, Forall (fun c => length c = ndim d) pre ->
    map (fun i => firstn (ndim d) (skipn (i * ndim d) (concat (pre ++ cs)))) (seq (length pre) (length cs)) = cs) as H.
  { induction Hwf as [|c cs [Hc _] Hwf IH]; intros pre Hpre; [reflexivity|].
    cbn [length seq map]. f_equal.
    - rewrite concat_app, skipn_app. rewrite skipn_all2.
      2:{ rewrite (concat_length_const (ndim d)) by exact Hpre. lia. }
      rewrite (concat_length_const (ndim d)) by exact Hpre. rewrite Nat.sub_diag. cbn [skipn app concat].
      rewrite firstn_app, Hc, Nat.sub_diag. cbn [firstn]. rewrite app_nil_r. apply firstn_all2. lia.
    - specialize (IH (pre ++ [c])). rewrite app_length in IH. cbn [length] in IH.
      rewrite Nat.add_1_r in IH. rewrite <- app_assoc in IH. cbn [app] in IH. apply IH.
      apply Forall_app. split; [exact Hpre|]. constructor; [exact Hc|constructor]. }
  apply (H [] (Forall_nil _)).
Qed.

(** ** Sequences in batches *)

Lemma advance_cursor_meta k j n c : nd_dims (advance_cursor k j n c) = nd_dims c /\
  nd_swap (advance_cursor k j n c) = nd_swap c /\ nd_stride (advance_cursor k j n c) = nd_stride c.
Proof.
  revert j c; induction k as [|k IH]; intros j c; cbn [advance_cursor]; [auto|].
  destruct (qget (nd_coords c) j), (qget (nd_stride c) j); auto.
  match goal with |- context[advance_cursor k (S j) n ?x] => destruct (IH (S j) x) as (A & B & C) end.
  rewrite A, B, C. auto.
Qed.

Lemma qget_qset {A} (q : quad A) j i a : (j < 4)%nat -> qget (qset q j a) i = if Nat.eqb i j then Some a else qget q i.
Proof.
  intros H. destruct j as [|[|[|[|?]]]]; try lia; destruct i as [|[|[|[|?]]]]; reflexivity.
Qed.

Lemma qget_some {A} (q : quad A) j : (j < 4)%nat -> exists a, qget q j = Some a.
Proof. intros H. destruct j as [|[|[|[|?]]]]; try lia; cbn; eauto. Qed.

Lemma advance_cursor_coords k j n c i : (j + k <= 4)%nat -> (i < 4)%nat ->
  exists p s, qget (nd_coords c) i = Some p /\ qget (nd_stride c) i = Some s /\
  qget (nd_coords (advance_cursor k j n c)) i =
    Some (if ((j <=? i) && (i <? j + k))%nat then ptr_add p (n * s) else p).
Proof.
  revert j c; induction k as [|k IH]; intros j c Hk Hi.
  - destruct (qget_some (nd_coords c) i Hi) as [p Ep], (qget_some (nd_stride c) i Hi) as [s Es].
    exists p, s. cbn [advance_cursor]. rewrite Ep.
    replace ((j <=? i) && (i <? j + 0))%nat with false by lia. auto.
  - destruct (qget_some (nd_coords c) j ltac:(lia)) as [pj Epj], (qget_some (nd_stride c) j ltac:(lia)) as [sj Esj].
    cbn [advance_cursor]. rewrite Epj, Esj.
    match goal with |- context[advance_cursor k (S j) n ?x] => destruct (IH (S j) x ltac:(lia) Hi) as (p' & s' & E1 & E2 & E3) end.
    cbn [nd_coords nd_stride] in *. rewrite qget_qset in E1 by lia. rewrite E3.
    destruct (Nat.eqb_spec i j) as [->|Hne].
    + injection E1 as <-. rewrite Esj in E2. injection E2 as <-. exists pj, sj. split; [exact Epj|]. split; [exact Esj|].
      replace ((S j <=? j) && (j <? S j + k))%nat with false by lia.
      replace ((j <=? j) && (j <? j + S k))%nat with true by lia. reflexivity.
    + exists p', s'. split; [exact E1|]. split; [exact E2|].
      replace ((j <=? i) && (i <? j + S k))%nat with ((S j <=? i) && (i <? S j + k))%nat by lia. reflexivity.
Qed.

Lemma holds_advance m nd d a b : holds m nd d (a ++ b) ->
  holds m (advance_cursor (ndim d) 0 (Z.of_nat (length a)) nd) d b.
Proof.
  intros [Hd Ho]. destruct (advance_cursor_meta (ndim d) 0 (Z.of_nat (length a)) nd) as (M1 & M2 & M3).
  split; [rewrite M1; exact Hd|].
  intros i j c Hi Hj. rewrite <- (Ho (length a + i)%nat j c); [|rewrite nth_error_app2 by lia; rewrite <- Hi; f_equal; lia|exact Hj].
  unfold node_ordinate. rewrite M2, M3.
  pose proof (ndim_bounds d).
  destruct (advance_cursor_coords (ndim d) 0 (Z.of_nat (length a)) nd j ltac:(lia) ltac:(lia)) as (p & s & Ep & Es & Ea).
  rewrite Ep, Es, Ea. replace ((0 <=? j) && (j <? 0 + ndim d))%nat with true by lia.
  unfold ptr_add. cbn [fst snd]. replace (snd p + Z.of_nat (length a) * s + Z.of_nat i * s)
    with (snd p + Z.of_nat (length a + i) * s) by lia. reflexivity.
Qed.

Lemma holds_size m nd d cs n : holds m nd d cs ->
  holds m {| nd_coords := nd_coords nd; nd_stride := nd_stride nd; nd_size := n; nd_type := nd_type nd;
             nd_dims := nd_dims nd; nd_swap := nd_swap nd; nd_level := nd_level nd |} d cs.
Proof. intros [A B]. split; [exact A|]. exact B. Qed.

Lemma holds_prefix m nd d a b : holds m nd d (a ++ b) -> holds m nd d a.
Proof.
  intros [A B]. split; [exact A|]. intros i j c Hi Hj. apply B; [|exact Hj].
  rewrite nth_error_app1; [exact Hi|]. apply nth_error_Some. congruence.
Qed.

Lemma visit_chunk_ok m cursor d cs rest : holds m cursor d (cs ++ rest) -> wf_seq d cs -> (ndim d * length cs <= 384)%nat ->
  trace (visit_chunk m cursor (N.of_nat (length cs)) (N.of_nat (ndim d))) = ([ECoords (N.of_nat (ndim d)) cs], Ok tt).
Proof.
  intros H Hwf Hle. unfold visit_chunk. unfold COORD_CACHE_SIZE_ELEMENTS.
  rewrite (write_sequence_ok m _ d cs) by first [apply holds_size, (holds_prefix _ _ _ _ rest), H | exact Hwf | reflexivity | lia].
  rewrite trace_ret_bind. cbn [or_ub]. rewrite trace_ret_bind, trace_emit, !Nat2N.id, view_coords_concat by exact Hwf.
  reflexivity.
Qed.

Lemma div_384 d : Z.of_nat (ndim d) * (384 / Z.of_nat (ndim d)) = 384.
Proof. destruct d; reflexivity. Qed.

Lemma visit_chunks_ok m d fuel : forall cursor cs, holds m cursor d cs -> wf_seq d cs ->
  let chunk := 384 / Z.of_nat (ndim d) in
  Z.of_nat (length cs) <= chunk * (Z.of_nat fuel + 1) ->
  exists evs, trace (visit_chunks fuel m cursor (Z.of_nat (length cs)) chunk (N.of_nat (ndim d))) = (evs, Ok tt) /\
    seq_events d cs evs /\ small_batches evs.
Proof.
  induction fuel as [|f IH]; intros cursor cs H Hwf chunk Hf; cbn [visit_chunks];
    pose proof (div_384 d) as Hdiv; pose proof (ndim_bounds d) as Hnd.
  - destruct (Z.ltb_spec chunk (Z.of_nat (length cs))); [lia|].
    replace (Z.to_N (Z.of_nat (length cs))) with (N.of_nat (length cs)) by lia.
    rewrite (visit_chunk_ok m cursor d cs []); [|rewrite app_nil_r; exact H|exact Hwf|nia].
    eexists. split; [reflexivity|]. split; [apply seq_events_single|]. constructor; [|constructor]. cbn [batch_words]. nia.
  - destruct (Z.ltb_spec chunk (Z.of_nat (length cs))) as [Hlt|Hge].
    2:{ replace (Z.to_N (Z.of_nat (length cs))) with (N.of_nat (length cs)) by lia.
        rewrite (visit_chunk_ok m cursor d cs []); [|rewrite app_nil_r; exact H|exact Hwf|nia].
        eexists. split; [reflexivity|]. split; [apply seq_events_single|]. constructor; [|constructor]. cbn [batch_words]. nia. }
    assert (0 < chunk) as Hpos by (subst chunk; nia).
    set (a := firstn (Z.to_nat chunk) cs). set (b := skipn (Z.to_nat chunk) cs).
    assert (cs = a ++ b) as Hab by (symmetry; apply firstn_skipn).
    assert (length a = Z.to_nat chunk) as Ha by (apply firstn_length_le; lia).
    rewrite Hab in H, Hwf. apply Forall_app in Hwf as [Hwa Hwb].
    pose proof (visit_chunk_ok m cursor d a b H Hwa ltac:(nia)) as E1.
    pose proof (holds_advance _ _ _ _ _ H) as Hb.
    destruct (IH _ b Hb Hwb) as (e2 & E2 & Hs & Hsb).
    { fold chunk. subst b. rewrite skipn_length. nia. }
    fold chunk in E2.
    exists (ECoords (N.of_nat (ndim d)) a :: e2). split.
    + replace (Z.to_N chunk) with (N.of_nat (length a)) by lia.
      eapply (trace_bind_ok _ _ [_] tt); [exact E1|]. rewrite Nat2N.id.
      replace (Z.of_nat (length cs) - chunk) with (Z.of_nat (length b)) by (subst b; rewrite skipn_length; lia).
      replace chunk with (Z.of_nat (length a)) at 1 by lia. exact E2.
    + split.
      * rewrite Hab. constructor. exact Hs.
      * constructor; [|exact Hsb]. cbn [batch_words]. nia.
Qed.

Lemma visit_sequence_ok m d cs nd : holds m nd d cs -> wf_seq d cs -> nd_size nd = N.of_nat (length cs) ->
  exists evs, trace (visit_sequence m nd) = (evs, Ok tt) /\ seq_events d cs evs /\ small_batches evs.
Proof.
  intros H Hwf Hsz. unfold visit_sequence. rewrite (h_dims _ _ _ _ H), num_dimensions_dimN. cbn [or_ub].
  rewrite trace_ret_bind. pose proof (ndim_bounds d) as Hnd. pose proof (div_384 d).
  destruct (Z.ltb_spec (Z.of_nat (ndim d)) 0); [lia|]. unfold COORD_CACHE_SIZE_ELEMENTS.
  rewrite Hsz. replace (Z.of_N (N.of_nat (length cs))) with (Z.of_nat (length cs)) by lia.
  replace (Z.to_N (Z.of_nat (ndim d))) with (N.of_nat (ndim d)) by lia.
  apply visit_chunks_ok; [exact H|exact Hwf|].
  pose proof (Z.div_mod (Z.of_nat (length cs)) (384 / Z.of_nat (ndim d))).
  assert (0 < 384 / Z.of_nat (ndim d)) by nia.
  pose proof (Z.mod_pos_bound (Z.of_nat (length cs)) (384 / Z.of_nat (ndim d))).
  rewrite Z2Nat.id; [nia|]. apply Z.div_pos; lia.
Qed.

(** ** Trees *)

Lemma get_node_at pre nd post : get_node (pre ++ nd :: post) (Z.of_nat (length pre)) = Ok nd.
Proof.
  unfold get_node. destruct (Z.ltb_spec (Z.of_nat (length pre)) 0); [lia|].
  rewrite Nat2Z.id, nth_error_app_len. reflexivity.
Qed.

Lemma visit_ring_ok m d cs nd lvl pre post : seq_node m 2 lvl d cs nd -> wf_seq d cs ->
  exists evs, trace (visit_ring m (pre ++ nd :: post) (Z.of_nat (length pre))) =
    (ERingStart :: evs ++ [ERingEnd], Ok (Z.of_nat (length pre) + 1)) /\ seq_events d cs evs /\ small_batches evs.
Proof.
  intros H Hwf. destruct (visit_sequence_ok m d cs nd (seq_node_holds _ _ _ _ _ _ H) Hwf (sn_size _ _ _ _ _ _ H))
    as (evs & E & Hs & Hb).
  exists evs. split; [|split; assumption]. unfold visit_ring. apply trace_emit_bind. rewrite get_node_at, trace_ret_bind.
  eapply trace_bind_ok; [exact E|]. reflexivity.
Qed.

Lemma visit_rings_ok m d lvl rings ring_nodes :
  Forall2 (fun cs rn => seq_node m 2 lvl d cs rn) rings ring_nodes -> Forall (wf_seq d) rings ->
  forall pre post fuel, (length rings <= fuel)%nat ->
  exists evs, trace (ploop fuel (N.of_nat (length rings)) (visit_ring m (pre ++ ring_nodes ++ post)) (Z.of_nat (length pre))) =
    (evs, Ok (Z.of_nat (length pre + length rings))) /\ ring_events d rings evs /\ small_batches evs.
Proof.
  induction 1 as [|cs rn rings rns H1 HF IH]; intros Hwf pre post fuel Hf.
  - exists []. split; [|split; constructor]. destruct fuel; cbn [ploop length]; change (N.of_nat 0 =? 0)%N with true;
      rewrite Nat.add_0_r; reflexivity.
  - inversion Hwf; subst. destruct fuel as [|f]; [cbn in Hf; lia|].
    cbn [ploop]. destruct (N.eqb_spec (N.of_nat (length (cs :: rings))) 0) as [Hz|_]; [cbn in Hz; lia|].
    destruct (visit_ring_ok m d cs rn lvl pre (rns ++ post)) as (e1 & E1 & Hs & Hb); [assumption..|].
    destruct (IH ltac:(assumption) (pre ++ [rn]) post f ltac:(cbn in Hf; lia)) as (e2 & E2 & Hr & Hb2).
    rewrite <- app_assoc in E2. cbn [app] in E2. rewrite app_length in E2. cbn [length] in E2.
    exists ((ERingStart :: e1 ++ [ERingEnd]) ++ e2). split; [|split].
    + eapply trace_bind_ok; [exact E1|].
      replace (N.of_nat (length (cs :: rings)) - 1)%N with (N.of_nat (length rings)) by (cbn [length]; lia).
      replace (Z.of_nat (length pre) + 1) with (Z.of_nat (length pre + 1)) by lia.
      etransitivity; [exact E2|]. do 2 f_equal. cbn [length]. lia.
    + cbn [app]. rewrite <- app_assoc. cbn [app]. apply (re_ring d cs rings e1 e2); assumption.
    + apply Forall_app. split; [|exact Hb2]. constructor; [cbn; lia|]. apply Forall_app. split; [exact Hb|].
      repeat constructor. cbn; lia.
Qed.

Lemma coll_code_range k : (coll_code k =? 1)%N = false /\ (coll_code k =? 2)%N = false /\ (coll_code k =? 3)%N = false /\
  ((coll_code k =? 4) || (coll_code k =? 5) || (coll_code k =? 6) || (coll_code k =? 7))%N = true.
Proof. destruct k; repeat split; reflexivity. Qed.

Lemma repr_parts_length m lvl rest parts : repr_parts m lvl rest parts -> (length parts <= length rest)%nat.
Proof.
  induction 1 as [|l g gs n1 n2 Hg Hgs IHg]; cbn [length]; [lia|]. rewrite app_length.
  assert (1 <= length n1)%nat; [|lia]. inversion Hg; cbn [length]; lia.
Qed.

Definition visits m nodes (fuel : nat) (i : Z) (len : nat) (g : geom) : Prop := forall n, Z.of_nat len <= n ->
  exists evs, trace (visit_node m nodes fuel i n) = (evs, Ok (n - Z.of_nat len)) /\ geom_events g evs /\ small_batches evs.

Lemma small_nil e : batch_words e = 0%N -> (batch_words e <= 384)%N.
Proof. intros ->. lia. Qed.

Lemma visit_node_ok m : forall g, wf_geom g -> forall lvl sub, repr_geom m lvl sub g -> forall pre post fuel,
  (depth g <= fuel)%nat -> visits m (pre ++ sub ++ post) fuel (Z.of_nat (length pre)) (length sub) g.
Proof.
  induction g as [d cs|d cs|d rings|k d parts IH] using geom_ind'; intros Hwf lvl sub Hr pre post fuel Hf n Hn;
    inversion Hr; inversion Hwf; subst; (destruct fuel as [|f]; [cbn in Hf; lia|]); cbn [visit_node app].
  - match goal with H : seq_node _ _ _ _ _ ?x |- _ => rename x into nd; rename H into Hsn end.
    rewrite get_node_at, trace_ret_bind.
    destruct (visit_sequence_ok m d cs nd (seq_node_holds _ _ _ _ _ _ Hsn) ltac:(assumption) (sn_size _ _ _ _ _ _ Hsn)) as (e & E & Hs & Hb).
    rewrite (sn_type _ _ _ _ _ _ Hsn), (sn_dims _ _ _ _ _ _ Hsn). change ((1 =? 1) || (1 =? 2))%N with true. cbv iota.
    exists ([EGeomStart 1 (dimN d)] ++ e ++ [EGeomEnd]). split; [|split].
    + apply trace_emit_bind. eapply trace_bind_ok.
      * eapply trace_bind_ret; [exact E|reflexivity].
      * reflexivity.
    + constructor. exact Hs.
    + constructor; [cbn; lia|]. apply Forall_app. split; [exact Hb|]. repeat constructor. cbn; lia.
  - match goal with H : seq_node _ _ _ _ _ ?x |- _ => rename x into nd; rename H into Hsn end.
    rewrite get_node_at, trace_ret_bind.
    destruct (visit_sequence_ok m d cs nd (seq_node_holds _ _ _ _ _ _ Hsn) ltac:(assumption) (sn_size _ _ _ _ _ _ Hsn)) as (e & E & Hs & Hb).
    rewrite (sn_type _ _ _ _ _ _ Hsn), (sn_dims _ _ _ _ _ _ Hsn). change ((2 =? 1) || (2 =? 2))%N with true. cbv iota.
    exists ([EGeomStart 2 (dimN d)] ++ e ++ [EGeomEnd]). split; [|split].
    + apply trace_emit_bind. eapply trace_bind_ok.
      * eapply trace_bind_ret; [exact E|reflexivity].
      * reflexivity.
    + constructor. exact Hs.
    + constructor; [cbn; lia|]. apply Forall_app. split; [exact Hb|]. repeat constructor. cbn; lia.
  - match goal with H : inner_node _ _ _ _ ?x |- _ => rename x into nd; rename H into Hin end.
    rewrite get_node_at, trace_ret_bind.
    rewrite (in_type _ _ _ _ _ Hin), (in_dims _ _ _ _ _ Hin), (in_size _ _ _ _ _ Hin).
    change ((3 =? 1) || (3 =? 2))%N with false. change (3 =? 3)%N with true. cbv iota.
    match goal with H : Forall2 _ rings ?rn |- _ => rename H into HF2; rename rn into rns end.
    assert (length rns = length rings) as Hlen by (symmetry; apply (Forall2_length _ _ _ HF2)).
    cbn [length] in Hn.
    destruct (Z.ltb_spec (n - 1) (Z.of_N (N.of_nat (length rings)))); [lia|].
    destruct (visit_rings_ok m d (lvl + 1) rings rns HF2 ltac:(assumption) (pre ++ [nd]) post
                (length (pre ++ nd :: rns ++ post))) as (e & E & Hs & Hb).
    { rewrite app_length. cbn [length]. rewrite app_length. lia. }
    rewrite <- app_assoc in E. cbn [app] in E.
    replace (length (pre ++ [nd])) with (length pre + 1)%nat in E by (rewrite app_length; reflexivity).
    exists ([EGeomStart 3 (dimN d)] ++ e ++ [EGeomEnd]). split; [|split].
    + apply trace_emit_bind. eapply trace_bind_ok.
      * eapply trace_bind_ret; [|reflexivity].
        replace (Z.of_nat (length pre) + 1) with (Z.of_nat (length pre + 1)) by lia. exact E.
      * apply trace_emit_bind. cbn [trace]. do 2 f_equal. cbn [length]. lia.
    + constructor. exact Hs.
    + constructor; [cbn; lia|]. apply Forall_app. split; [exact Hb|]. repeat constructor. cbn; lia.
  - match goal with H : inner_node _ _ _ _ ?x |- _ => rename x into nd; rename H into Hin end.
    rewrite get_node_at, trace_ret_bind.
    rewrite (in_type _ _ _ _ _ Hin), (in_dims _ _ _ _ _ Hin), (in_size _ _ _ _ _ Hin).
    destruct (coll_code_range k) as (-> & -> & -> & ->). cbn [orb]. cbv iota.
    rewrite depth_coll in Hf.
    match goal with H : repr_parts _ _ ?r parts |- _ => rename H into Hrp; rename r into rest end.
    match goal with H : wf_geoms parts |- _ => rename H into Hwp end.
    match goal with |- context[ploop ?F _ ?B _] => set (body := B); set (fuel := F) end.
    assert (exists e, trace (ploop fuel (N.of_nat (length parts)) body (Z.of_nat (length pre) + 1, n - 1)) =
              (e, Ok (Z.of_nat (length pre) + 1 + Z.of_nat (length rest), n - 1 - Z.of_nat (length rest))) /\
            parts_events parts e /\ small_batches e) as (e & E & Hp & Hb).
    { assert (length parts <= length rest)%nat as Hpr.
      { apply (repr_parts_length _ _ _ _ Hrp). }
      assert (length parts <= fuel)%nat as Hfu by (subst fuel; rewrite app_length; cbn [length]; rewrite app_length; lia).
      clearbody fuel. cbn [length] in Hn.
      revert Hfu. clear Hpr Hr Hwf Hin.
      assert (forall ps rs mid fu n1, repr_parts m (lvl + 1) rs ps -> wf_geoms ps -> (depths ps <= f)%nat ->
        Forall (fun g => wf_geom g -> forall lvl sub, repr_geom m lvl sub g -> forall pre post fuel,
                  (depth g <= fuel)%nat -> visits m (pre ++ sub ++ post) fuel (Z.of_nat (length pre)) (length sub) g) ps ->
        mid ++ rs = rest -> (length ps <= fu)%nat -> Z.of_nat (length rs) <= n1 ->
        exists e, trace (ploop fu (N.of_nat (length ps)) body (Z.of_nat (length pre + 1 + length mid), n1)) =
          (e, Ok (Z.of_nat (length pre + 1 + length mid) + Z.of_nat (length rs), n1 - Z.of_nat (length rs))) /\
          parts_events ps e /\ small_batches e) as Hgen.
      { clear Hrp Hwp Hf. clear IH.
        induction ps as [|g ps IHp]; intros rs mid fu n1 Hrp Hwp Hd IH Hmid Hfu Hn1; inversion Hrp; subst.
        - exists []. split; [|split; constructor]. destruct fu; cbn [ploop length]; change (N.of_nat 0 =? 0)%N with true;
            cbv iota; cbn [trace]; do 3 f_equal; lia.
        - destruct fu as [|fu]; [cbn in Hfu; lia|]. cbn [ploop].
          destruct (N.eqb_spec (N.of_nat (length (g :: ps))) 0) as [Hz|_]; [cbn in Hz; lia|].
          inversion Hwp; subst. inversion IH as [|? ? IHg IHps]; subst. rewrite depths_cons in Hd.
          match goal with H : repr_geom _ _ ?a g |- _ => rename a into ng; rename H into Hg end.
          match goal with H : repr_parts _ _ ?a ps |- _ => rename a into nps; rename H into Hps end.
          rewrite app_length in Hn1.
          destruct (IHg ltac:(assumption) _ _ Hg (pre ++ nd :: mid) (nps ++ post) f ltac:(lia) n1 ltac:(lia))
            as (e1 & E1 & Hge & Hb1).
          destruct (IHp nps (mid ++ ng) fu (n1 - Z.of_nat (length ng)) Hps ltac:(assumption) ltac:(lia) IHps
                      ltac:(rewrite <- app_assoc; reflexivity) ltac:(cbn in Hfu; lia) ltac:(lia)) as (e2 & E2 & Hpe & Hb2).
          exists (e1 ++ e2). split; [|split; [constructor; assumption|apply Forall_app; split; assumption]].
          eapply trace_bind_ok.
          + unfold body. eapply trace_bind_ret; [|reflexivity].
            replace (pre ++ nd :: (mid ++ ng ++ nps) ++ post) with ((pre ++ nd :: mid) ++ ng ++ nps ++ post)
              by (repeat (rewrite <- app_assoc; cbn [app]); reflexivity).
            replace (length pre + 1 + length mid)%nat with (length (pre ++ nd :: mid))
              by (rewrite app_length; cbn [length]; lia).
            exact E1.
          + replace (N.of_nat (length (g :: ps)) - 1)%N with (N.of_nat (length ps)) by (cbn [length]; lia).
            replace (Z.of_nat (length pre + 1 + length mid) + (n1 - (n1 - Z.of_nat (length ng))))
              with (Z.of_nat (length pre + 1 + length (mid ++ ng))) by (rewrite app_length; lia).
            rewrite E2. do 3 f_equal; rewrite !app_length; lia. }
      intros Hfu.
      destruct (Hgen parts rest [] fuel (n - 1) Hrp Hwp ltac:(lia) IH eq_refl Hfu ltac:(lia)) as (e & E & H1 & H2).
      exists e. split; [|split; assumption]. cbn [length] in E.
      replace (Z.of_nat (length pre) + 1) with (Z.of_nat (length pre + 1 + 0)) by lia. exact E. }
    exists ([EGeomStart (coll_code k) (dimN d)] ++ e ++ [EGeomEnd]). split; [|split].
    + apply trace_emit_bind. eapply trace_bind_ok.
      * eapply trace_bind_ret; [exact E|reflexivity].
      * apply trace_emit_bind. cbn [trace]. do 2 f_equal. cbn [length]. lia.
    + constructor. exact Hp.
    + constructor; [cbn; lia|]. apply Forall_app. split; [exact Hb|]. repeat constructor. cbn; lia.
Qed.

Lemma repr_depth m : forall g lvl sub, repr_geom m lvl sub g -> (depth g <= length sub)%nat.
Proof.
  induction g as [d cs|d cs|d rings|k d parts IH] using geom_ind'; intros lvl sub H; inversion H; subst; cbn [depth length]; try lia.
  rewrite <- depth_coll with (k := k) (d := d). rewrite depth_coll.
  match goal with H : repr_parts _ _ ?r parts |- _ => rename r into rest; rename H into Hrp end.
  apply le_n_S. clear -IH Hrp. remember (lvl + 1)%N as l1 eqn:E. clear E.
  revert rest Hrp; induction parts as [|g gs IHg]; intros rest Hrp; inversion Hrp; subst; [cbn; lia|].
  inversion IH as [|? ? Ha Hb]; subst. rewrite depths_cons, app_length.
  specialize (Ha _ _ ltac:(eassumption)). specialize (IHg Hb _ ltac:(eassumption)). lia.
Qed.

Lemma view_visit_ok m nodes g : repr_geom m 0 nodes g -> wf_geom g ->
  exists evs, trace (view_visit m nodes) = ([EFeatStart] ++ evs ++ [EFeatEnd], Ok tt) /\
    geom_events g evs /\ small_batches evs.
Proof.
  intros Hr Hwf.
  destruct (visit_node_ok m g Hwf 0%N nodes Hr [] [] (S (length nodes))) with (n := Z.of_nat (length nodes)) as (evs & E & Hg & Hb).
  { pose proof (repr_depth m g 0 nodes Hr). lia. }
  { lia. }
  cbn [app length] in E. rewrite app_nil_r in E.
  exists evs. split; [|split; assumption]. unfold view_visit. apply trace_emit_bind.
  eapply trace_bind_ok; [exact E|]. rewrite Z.sub_diag. reflexivity.
Qed.
