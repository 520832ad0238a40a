(** * Where the C++ WKB parser finds a wrong byte order or a wrong geometry type *)
From Verif Require Import Base BaseFacts Text TypesModel TypesProofs TypesSpec GeomSpec GeomFacts WkbSpec CppCoordModel CppWkbSpec CppWkbModel
  CppWkbTells WkbReaderProofs CppWkbProofs CppWkbReads CppWkbAccepts CppWkbPrefix CppWkbWitness CppErrorSpec.
Local Open Scope Z_scope.

Definition wrong (st : status) (l : bytes) : Prop :=
  match st with
  | INVALID_ENDIAN => exists q x rest, before_header q /\ l = q ++ x :: rest /\ (forall e, x <> endian_byte e)
  | INVALID_GEOMETRY_TYPE => exists q e w rest, before_header q /\ l = q ++ [endian_byte e] ++ enc32 e w ++ rest /\ (w < 2 ^ 32)%N /\
      (iso_code w mod 1000 = 0 \/ 7 < iso_code w mod 1000)%N
  | TOO_FEW_BYTES => exists q r, before_header q /\ l = q ++ r /\ cut r
  | _ => True
  end.

Lemma wrong_deeper st h k d n members l : header_ok h d (coll_code k) -> (n < 2 ^ 32)%N -> Forall tree_ok members ->
  (N.of_nat (length members) < n)%N -> wrong st l -> wrong st (header_bytes h ++ enc32 (h_endian h) n ++ flat_map tree_bytes members ++ l).
Proof.
  intros Hh Hn Hm Hl. destruct st; cbn [wrong]; try auto.
  - intros (q & r & Hq & -> & Hr). eexists _, r. split; [exact (in_collection h k d n members q Hh Hn Hm Hl Hq)|]. split; [|exact Hr].
    rewrite <- !app_assoc. reflexivity.
  - intros (q & x & rest & Hq & -> & Hx). eexists _, x, rest. split; [exact (in_collection h k d n members q Hh Hn Hm Hl Hq)|]. split; [|exact Hx].
    rewrite <- !app_assoc. reflexivity.
  - intros (q & e & w & rest & Hq & -> & Hw). eexists _, e, w, rest. split; [exact (in_collection h k d n members q Hh Hn Hm Hl Hq)|]. split; [|exact Hw].
    rewrite <- !app_assoc. reflexivity.
Qed.

Lemma tail_exists src s : sync src s -> exists l, tail_at src (ps_cursor s) l.
Proof.
  intros [A B C]. exists (skipn (Z.to_nat (ps_cursor s)) src), (firstn (Z.to_nat (ps_cursor s)) src). rewrite firstn_skipn. split; [reflexivity|].
  rewrite firstn_length. lia.
Qed.

Lemma tail_length src s l : sync src s -> tail_at src (ps_cursor s) l -> ps_remaining s = Z.of_nat (length l).
Proof. intros [A B C] (pre & E & H). subst src. rewrite app_length in B. lia. Qed.
Lemma tail_wf src p l : wf_bytes src -> tail_at src p l -> wf_bytes l.
Proof. intros Hwf (pre & -> & _). apply wf_bytes_app in Hwf. apply Hwf. Qed.

(** The header *)
Lemma header_where src s out st s' out' t : wf_bytes src -> sync src s -> parse_header src s (reset out) = Ok (st, s', out', t) ->
  st <> OK -> exists l, tail_at src (ps_cursor s) l /\ wrong st l.
Proof.
  intros Hwf Hs H Hst. destruct (tail_exists src s Hs) as (l0 & Hl0).
  destruct (parse_header_any src s out Hwf Hs) as [(st1 & s1 & out1 & E1 & Hst1 & _)|(h & d & base & l & Hh & Ht & Hr)].
  2:{ destruct (parse_header_ok src s h d base l out Hh Ht Hr) as (s1 & E1 & _). rewrite E1 in H. injection H as <- _ _ _. congruence. }
  rewrite E1 in H. injection H as <- <- <- <-. exists l0. split; [exact Hl0|]. pose proof (tail_length src s l0 Hs Hl0) as Hlen.
  unfold parse_header in E1. destruct (check_cases s 5) as [[E2 H2]|[E2 H2]]; rewrite E2 in E1.
  2:{ injection E1 as <- _ _. exists [], l0. split; [exact at_start|]. split; [reflexivity|]. apply no_word. lia. }
  destruct (sync_bytes src s 1 Hwf Hs ltac:(lia)) as (b & l & Ht & Hl & Hwb & Eb). destruct b as [|x [|? ?]]; try discriminate Hl. clear Hl.
  pose proof (tail_at_det _ _ _ _ Hl0 Ht) as ->. destruct (N.eqb x 1 || N.eqb x 0)%bool eqn:Een.
  2:{ unfold read_endian_unchecked in E1. rewrite Eb in E1. cbn [or_ub obind] in E1. replace (le_val [x]) with x in E1 by (cbn [le_val]; lia).
      rewrite Een in E1. cbn [obind] in E1. injection E1 as <- _ _. exists [], x, l. split; [exact at_start|]. split; [reflexivity|].
      intros e ->. destruct e; discriminate Een. }
  destruct (endian_cases x Een) as [e ->]. destruct (read_endian_ok' src s e l Ht) as [E3 Ht3]. rewrite E3 in E1. cbn [obind] in E1.
  match type of E3 with _ = Ok (OK, ?x) => set (s2 := x) in * end.
  assert (sync src s2) as Hs2.
  { subst s2. apply sync_advance; [|cbn [ps_remaining]; lia]. destruct Hs. constructor; assumption. }
  destruct (read_uint32_any src s2 e Hwf Hs2 ltac:(subst s2; cbn [advance ps_remaining]; lia) eq_refl) as (w & l1 & E4 & Hw & Ht4).
  pose proof (tail_at_det src (ps_cursor s2) l (enc32 e w ++ l1) Ht3 Ht4) as ->. rewrite E4 in E1. cbn [obind] in E1. unfold parse_srid in E1.
  destruct (word_has w kEWKBSrid) eqn:Esrid; [|cbn [obind] in E1; exfalso; assert (OK = st1) by congruence; destruct Hst1; congruence].
  destruct (check_cases (advance s2 4) 4) as [[E5 H5]|[E5 H5]]; rewrite E5 in E1.
  { destruct (read_uint32_unchecked src (advance s2 4)) as [[s3 n]| | |]; cbn [obind] in E1; try discriminate E1. exfalso. assert (OK = st1) by congruence. destruct Hst1; congruence. }
  cbn [obind] in E1. injection E1 as <- _ _. exists [], ([endian_byte e] ++ enc32 e w ++ l1). split; [exact at_start|]. split; [reflexivity|].
  apply (no_srid _ e w l1); [reflexivity | exact Hw | rewrite (word_has_bit w 29) in Esrid by reflexivity; exact Esrid |].
  rewrite !app_length, enc32_length in Hlen. subst s2. cbn [advance ps_remaining length] in *. lia.
Qed.

(** The members of a collection *)
Lemma members_where src f0 : wf_bytes src ->
  (forall s out st s' out', sync src s -> ps_remaining s < Z.of_nat f0 -> parse_geometry src f0 s out = Ok (st, s', out') ->
     st <> OK -> exists l, tail_at src (ps_cursor s) l /\ wrong st l) ->
  forall f n s out st s' out', sync src s -> ps_remaining s < Z.of_nat f0 ->
  parse_n f (parse_member (parse_geometry src f0)) n s out = Ok (st, s', out') -> st <> OK ->
  exists ts l, Forall tree_ok ts /\ (N.of_nat (length ts) < n)%N /\ tail_at src (ps_cursor s) (flat_map tree_bytes ts ++ l) /\ wrong st l.
Proof.
  intros Hwf IHg. induction f as [|f IH]; intros n s out st s' out' Hs Hf H Hst.
  { cbn [parse_n] in H. destruct (N.eqb_spec n 0); [injection H as <- _ _; congruence|discriminate H]. }
  destruct (N.eq_dec n 0) as [->|Hn]; [rewrite parse_n_zero in H; injection H as <- _ _; congruence|].
  rewrite parse_n_succ in H by lia. unfold parse_member at 1 in H.
  destruct (append_geometry out) as [[g child]| | |]; cbn [obind] in H; try discriminate H.
  destruct (parse_geometry src f0 s child) as [[[st1 s1] c1]| | |] eqn:E1; cbn [obind] in H; try discriminate H.
  destruct (set_last_geometry g c1) as [g2| | |]; cbn [obind] in H; try discriminate H.
  assert (st1 = OK \/ st1 <> OK) as [->|Hst1] by (destruct st1; (left; congruence) || (right; congruence)).
  2:{ destruct (IHg _ _ _ _ _ Hs Hf E1 Hst1) as (l & Ht & Hw). exists [], l. split; [constructor|]. split; [cbn; lia|]. split; [exact Ht|].
      destruct st1; [congruence|injection H as <- _ _; exact Hw..]. }
  destruct (parse_geometry_any src Hwf f0 s child Hs Hf) as (st2 & s2 & c2 & E2 & _ & Hmv & _ & Hok). rewrite E1 in E2. injection E2 as <- <- <-.
  destruct (Hok eq_refl) as (t & l & Htok & Ht & Hrem).
  assert (ps_cursor s1 = ps_cursor s + Z.of_nat (length (tree_bytes t))) as C1.
  { destruct f0 as [|f0]; [destruct Hs; lia|].
    destruct (parse_geometry_ok src t l s f0 child Htok Ht Hrem ltac:(lia)) as (s3 & c3 & E3 & C3 & _). rewrite E1 in E3. injection E3 as <- _. exact C3. }
  pose proof (moves_remaining src s s1 Hs Hmv) as Hr1.
  destruct (IH (n - 1)%N s1 g2 st s' out' (proj1 Hmv) ltac:(lia) H Hst) as (ts & l2 & Hts & Hlen & Ht2 & Hw).
  exists (t :: ts), l2. split; [constructor; assumption|]. split; [cbn [length]; lia|]. split; [|exact Hw].
  cbn [flat_map]. rewrite <- app_assoc. rewrite C1 in Ht2. rewrite <- (tail_at_det _ _ _ _ (tail_at_adv _ _ _ _ Ht) Ht2). exact Ht.
Qed.

(** ** Completing what is cut off *)
Lemma zeros_wf n : wf_bytes (repeat 0%N n).
Proof. induction n; constructor; [unfold is_byte; lia|assumption]. Qed.
Lemma pad_to l n : wf_bytes l -> (length l < n)%nat -> exists pad, pad <> [] /\ wf_bytes (l ++ pad) /\ length (l ++ pad) = n.
Proof.
  intros Hwf H. exists (repeat 0%N (n - length l)). split.
  - intros E. apply (f_equal (@length N)) in E. rewrite repeat_length in E. cbn in E. lia.
  - split; [apply wf_bytes_app; split; [exact Hwf|apply zeros_wf]|]. rewrite app_length, repeat_length. lia.
Qed.
Lemma pad_word e l : wf_bytes l -> (length l < 4)%nat -> exists n pad, pad <> [] /\ (n < 2 ^ 32)%N /\ enc32 e n = l ++ pad.
Proof.
  intros Hwf H. destruct (pad_to l 4 Hwf H) as (pad & Hp & Hw & Hl). destruct (enc32_load e (l ++ pad) Hw Hl) as (E & Hn). eauto.
Qed.
Lemma pad_coords e d n l : wf_bytes l -> (length l < 8 * (n * ndim d))%nat ->
  exists cs pad, pad <> [] /\ length cs = n /\ wf_seq d cs /\ enc_coords e cs = l ++ pad.
Proof.
  intros Hwf H. destruct (pad_to l _ Hwf H) as (pad & Hp & Hw & Hl). destruct (coords_decode e d n _ Hw Hl) as (cs & A & B & C). eauto 6.
Qed.
Lemma more_pad {A} (pad x : list A) : pad <> [] -> pad ++ x <> [].
Proof. destruct pad; [congruence|discriminate]. Qed.
Lemma zero_seq d n : wf_seq d (repeat (repeat 0%N (ndim d)) n).
Proof.
  apply Forall_forall. intros c Hc. apply repeat_spec in Hc. subst c. split; [apply repeat_length|]. apply Forall_forall. intros w Hw. apply repeat_spec in Hw. subst w. reflexivity.
Qed.

Lemma sequence_shape src s e d out st s' out' l : wf_bytes src -> sync src s -> set_for s e d -> tail_at src (ps_cursor s) l ->
  parse_sequence src s out = Ok (st, s', out') ->
  (st = OK /\ exists cs l', wf_seq d cs /\ count_ok cs /\ l = enc_ring e cs ++ l' /\ sync src s' /\ set_for s' e d /\ tail_at src (ps_cursor s') l') \/
  (st = TOO_FEW_BYTES /\ exists cs pad, wf_seq d cs /\ count_ok cs /\ enc_ring e cs = l ++ pad /\ pad <> []).
Proof.
  intros Hwf Hs Hset Ht H. pose proof Hset as (He & Hd & Hst). unfold parse_sequence in H. pose proof (tail_length src s l Hs Ht) as Hlen.
  pose proof (tail_wf src _ l Hwf Ht) as Hwl.
  destruct (check_cases s 4) as [[E1 H1]|[E1 H1]]; rewrite E1 in H.
  2:{ injection H as <- _ _. right. split; [reflexivity|]. destruct (pad_word e l Hwl ltac:(lia)) as (n & pad & Hp & Hn & En).
      exists (repeat (repeat 0%N (ndim d)) (N.to_nat n)), (pad ++ enc_coords e (repeat (repeat 0%N (ndim d)) (N.to_nat n))).
      split; [apply zero_seq|]. split; [unfold count_ok; rewrite repeat_length; lia|]. split; [|apply more_pad, Hp].
      unfold enc_ring. rewrite repeat_length, N2Nat.id, En, <- app_assoc. reflexivity. }
  destruct (read_uint32_any src s e Hwf Hs H1 He) as (n & l1 & E2 & Hn & Ht1). rewrite E2 in H. cbn [obind] in H.
  pose proof (tail_at_det _ _ _ _ Ht Ht1) as ->. pose proof (tail_at_adv' _ _ _ _ 4 Ht1 ltac:(rewrite enc32_length; reflexivity)) as Ht4.
  assert (sync src (advance s 4)) as Hs4 by (apply sync_advance; [exact Hs|lia]).
  pose proof (tail_length src (advance s 4) l1 Hs4 Ht4) as Hlen4. pose proof (tail_wf src _ l1 Hwf Ht4) as Hwl1.
  change (ps_stride (advance s 4)) with (ps_stride s) in H. rewrite Hst in H.
  destruct (check_cases (advance s 4) (Z.of_N (8 * n * N.of_nat (ndim d)))) as [[E3 H3]|[E3 H3]]; rewrite E3 in H.
  2:{ injection H as <- _ _. right. split; [reflexivity|]. destruct (pad_coords e d (N.to_nat n) l1 Hwl1 ltac:(lia)) as (cs & pad & Hp & Hc & Hws & Ec).
      exists cs, pad. split; [exact Hws|]. split; [unfold count_ok; lia|]. split; [|exact Hp]. unfold enc_ring. rewrite Hc, N2Nat.id, Ec, <- app_assoc. reflexivity. }
  destruct (new_sequence_at_cursor _ _ _) as [g| | |]; cbn [obind] in H; try discriminate H. injection H as <- <- _. left. split; [reflexivity|].
  destruct (sync_bytes src (advance s 4) (8 * (N.to_nat n * ndim d)) Hwf Hs4 ltac:(lia)) as (b & l' & Ht' & Hlb & Hwb & _).
  destruct (coords_decode e d (N.to_nat n) b Hwb Hlb) as (cs & Hcs & Hwfs & Eb). pose proof (tail_at_det _ _ _ _ Ht4 Ht') as ->.
  exists cs, l'. split; [exact Hwfs|]. split; [unfold count_ok; lia|].
  split; [unfold enc_ring; rewrite Hcs, N2Nat.id, Eb, <- app_assoc; reflexivity|]. split; [apply sync_advance; [exact Hs4|lia]|]. split; [exact Hset|].
  apply (tail_at_adv' src (ps_cursor (advance s 4)) b l' _ Ht'). lia.
Qed.

Lemma rings_shape src e d : wf_bytes src -> forall f n s out st s' out' l, sync src s -> set_for s e d -> tail_at src (ps_cursor s) l ->
  parse_n f (parse_sequence src) n s out = Ok (st, s', out') -> st = OK \/
  (st = TOO_FEW_BYTES /\ exists rings pad, N.of_nat (length rings) = n /\ Forall (wf_seq d) rings /\ Forall count_ok rings /\
     flat_map (enc_ring e) rings = l ++ pad /\ pad <> []).
Proof.
  intros Hwf. induction f as [|f IH]; intros n s out st s' out' l Hs Hset Ht H.
  { cbn [parse_n] in H. destruct (N.eqb_spec n 0); [injection H as <- _ _; auto|discriminate H]. }
  destruct (N.eq_dec n 0) as [->|Hn]; [rewrite parse_n_zero in H; injection H as <- _ _; auto|].
  rewrite parse_n_succ in H by lia. destruct (parse_sequence src s out) as [[[st1 s1] o1]| | |] eqn:E; cbn [obind] in H; try discriminate H.
  destruct (sequence_shape src s e d out st1 s1 o1 l Hwf Hs Hset Ht E) as [(-> & cs & l' & Hws & Hc & -> & Hs1 & Hset1 & Ht1)|(-> & cs & pad & Hws & Hc & Ec & Hp)].
  - destruct (IH _ _ _ _ _ _ l' Hs1 Hset1 Ht1 H) as [->|(-> & rings & pad & A & B & C & D & Hp)]; [auto|right]. split; [reflexivity|].
    exists (cs :: rings), pad. split; [cbn [length]; lia|]. split; [constructor; assumption|]. split; [constructor; assumption|]. split; [|exact Hp].
    cbn [flat_map]. rewrite D, <- app_assoc. reflexivity.
  - injection H as <- _ _. right. split; [reflexivity|]. exists (cs :: repeat [] (N.to_nat (n - 1))), (pad ++ flat_map (enc_ring e) (repeat [] (N.to_nat (n - 1)))).
    split; [cbn [length]; rewrite repeat_length; lia|].
    split; [constructor; [exact Hws|]; apply Forall_forall; intros r Hr; apply repeat_spec in Hr; subst r; constructor|].
    split; [constructor; [exact Hc|]; apply Forall_forall; intros r Hr; apply repeat_spec in Hr; subst r; reflexivity|].
    split; [|apply more_pad, Hp]. cbn [flat_map]. rewrite Ec, <- app_assoc. reflexivity.
Qed.

Lemma unfinished h l pad t : tree_ok t -> tree_bytes t = header_bytes h ++ l ++ pad -> pad <> [] -> wrong TOO_FEW_BYTES (header_bytes h ++ l).
Proof.
  intros Tok E Hp. exists [], (header_bytes h ++ l). split; [exact at_start|]. split; [reflexivity|]. apply (not_finished _ t Tok). exists pad. split; [exact Hp|].
  rewrite E, <- app_assoc. reflexivity.
Qed.

Lemma geometry_where src : wf_bytes src -> forall f s out st s' out', sync src s -> ps_remaining s < Z.of_nat f ->
  parse_geometry src f s out = Ok (st, s', out') -> st <> OK -> exists l, tail_at src (ps_cursor s) l /\ wrong st l.
Proof.
  intros Hwf. induction f as [|f IH]; intros s out st s' out' Hs Hf H Hst; [discriminate H|]. rewrite parse_geometry_unfold in H.
  destruct (parse_header_any src s out Hwf Hs) as [(st1 & s1 & out1 & E1 & Hst1 & _)|(h & d & base & l & Hh & Ht & Hr)].
  { rewrite E1 in H. cbn [obind] in H. assert (st1 <> OK) as Hn by (destruct Hst1; congruence).
    destruct (header_where src s out st1 s1 out1 0%N Hwf Hs E1 Hn) as (l & Ht & Hw). exists l. split; [exact Ht|].
    destruct Hst1 as [-> | ->]; injection H as <- _ _; exact Hw. }
  destruct (parse_header_ok src s h d base l out Hh Ht Hr) as (s1 & E1 & C1 & R1 & T1 & Hset). rewrite E1 in H. cbn [obind] in H.
  pose proof Hset as (He & Hd & Hstr).
  assert (moves src s s1) as Hm1 by (apply (sync_after src s s1 _ Hs C1 R1); lia). pose proof (proj1 Hm1) as Hs1.
  assert (5 <= length (header_bytes h))%nat as H5 by (rewrite header_bytes_length; destruct (h_srid h); lia).
  rewrite <- C1 in T1. pose proof (tail_length src s1 l Hs1 T1) as Hlen. pose proof (tail_wf src _ l Hwf T1) as Hwl. unfold dispatch in H.
  destruct (N.eqb_spec base 1) as [->|B1].
  { unfold parse_point in H. rewrite Hstr in H. destruct (check_cases s1 (Z.of_N (N.of_nat (ndim d) * 8))) as [[E2 H2]|[E2 H2]]; rewrite E2 in H.
    - destruct (new_sequence_at_cursor s1 _ 1) as [g| | |]; cbn [obind] in H; try discriminate H. injection H as <- _ _. congruence.
    - injection H as <- _ _. exists (header_bytes h ++ l). split; [exact Ht|].
      destruct (pad_coords (h_endian h) d 1 l Hwl ltac:(lia)) as (cs & pad & Hp & Hc & Hws & Ec). destruct cs as [|c [|? ?]]; try discriminate Hc.
      apply (unfinished h l pad (TPoint h d c)); [constructor; [exact Hh|inversion Hws; assumption]| |exact Hp].
      cbn [tree_bytes]. unfold enc_coords in Ec. cbn [flat_map] in Ec. rewrite app_nil_r in Ec. rewrite Ec. reflexivity. }
  destruct (N.eqb_spec base 2) as [->|B2].
  { destruct (sequence_shape src s1 (h_endian h) d _ st s' out' l Hwf Hs1 Hset T1 H) as [(-> & _)|(-> & cs & pad & Hws & Hc & Ec & Hp)]; [congruence|].
    exists (header_bytes h ++ l). split; [exact Ht|]. apply (unfinished h l pad (TLine h d cs)); [constructor; assumption| |exact Hp].
    cbn [tree_bytes]. rewrite Ec. reflexivity. }
  destruct (N.eqb_spec base 3) as [->|B3].
  { exists (header_bytes h ++ l). split; [exact Ht|]. unfold parse_polygon in H. destruct (check_cases s1 4) as [[E2 H2]|[E2 H2]]; rewrite E2 in H.
    2:{ injection H as <- _ _. destruct (pad_word (h_endian h) l Hwl ltac:(lia)) as (n & pad & Hp & Hn & En).
        apply (unfinished h l (pad ++ flat_map (enc_ring (h_endian h)) (repeat [] (N.to_nat n))) (TPoly h d (repeat [] (N.to_nat n)))); [| |apply more_pad, Hp].
        - constructor; [exact Hh | | |unfold count_ok; rewrite repeat_length; lia]; apply Forall_forall; intros r Hr'; apply repeat_spec in Hr'; subst r; [constructor|reflexivity].
        - cbn [tree_bytes]. unfold count_bytes. rewrite repeat_length, N2Nat.id, En, <- !app_assoc. reflexivity. }
    destruct (read_uint32_any src s1 (h_endian h) Hwf Hs1 H2 He) as (n & l2 & E3 & Hn & Ht2). rewrite E3 in H. cbn [obind] in H.
    pose proof (tail_at_adv' _ _ _ _ 4 Ht2 ltac:(rewrite enc32_length; reflexivity)) as Ht4. pose proof (tail_at_det _ _ _ _ T1 Ht2) as ->.
    assert (sync src (advance s1 4)) as Hs4 by (apply sync_advance; [exact Hs1|lia]).
    destruct (rings_shape src (h_endian h) d Hwf f n (advance s1 4) _ st s' out' l2 Hs4 Hset Ht4 H) as [->|(-> & rings & pad & A & B & C & D & Hp)]; [congruence|].
    apply (unfinished h _ pad (TPoly h d rings)); [constructor; try assumption; unfold count_ok; rewrite A; exact Hn| |exact Hp].
    cbn [tree_bytes]. unfold count_bytes. rewrite A, D, <- !app_assoc. reflexivity. }
  destruct ((base =? 4) || (base =? 5) || (base =? 6) || (base =? 7))%N%bool eqn:B4.
  2:{ injection H as <- _ _. exists (header_bytes h ++ l). split; [exact Ht|]. destruct Hh as ((Hw & Hb & _) & _).
      exists [], (h_endian h), (h_word h), (match h_srid h with Some n => enc32 (h_endian h) n | None => [] end ++ l).
      split; [exact at_start|]. split; [unfold header_bytes; cbn [app]; rewrite <- !app_assoc; reflexivity|]. split; [exact Hw|]. rewrite Hb.
      apply Bool.orb_false_iff in B4. destruct B4 as [B4 B7]. apply Bool.orb_false_iff in B4. destruct B4 as [B4 B6]. apply Bool.orb_false_iff in B4.
      destruct B4 as [B4 B5]. apply N.eqb_neq in B4, B5, B6, B7. lia. }
  assert (exists k, coll_code k = base) as [k Hk].
  { apply Bool.orb_true_iff in B4. destruct B4 as [B4|B4]; [apply Bool.orb_true_iff in B4; destruct B4 as [B4|B4];
      [apply Bool.orb_true_iff in B4; destruct B4 as [B4|B4]|]|]; apply N.eqb_eq in B4; subst base;
      [exists CMultipoint|exists CMultilinestring|exists CMultipolygon|exists CCollection]; reflexivity. }
  unfold parse_collection in H. destruct (check_cases s1 4) as [[E2 H2]|[E2 H2]]; rewrite E2 in H.
  2:{ injection H as <- _ _. exists (header_bytes h ++ l). split; [exact Ht|]. destruct (pad_word (h_endian h) l Hwl ltac:(lia)) as (n & pad & Hp & Hn & En).
      apply (unfinished h l (pad ++ flat_map tree_bytes (repeat sample (N.to_nat n))) (TColl h k d (repeat sample (N.to_nat n)))); [| |apply more_pad, Hp].
      - constructor; [rewrite Hk; exact Hh|unfold count_ok; rewrite repeat_length; lia|]. apply Forall_forall. intros t Ht'. apply repeat_spec in Ht'. subst t. exact sample_ok.
      - cbn [tree_bytes]. unfold count_bytes. rewrite repeat_length, N2Nat.id, En, <- !app_assoc. reflexivity. }
  destruct (read_uint32_any src s1 (h_endian h) Hwf Hs1 H2 He) as (n & l2 & E3 & Hn & Ht2). rewrite E3 in H. cbn [obind] in H.
  assert (sync src (advance s1 4)) as Hs4 by (apply sync_advance; [exact Hs1|lia]).
  destruct (members_where src f Hwf IH f n (advance s1 4) _ st s' out' Hs4 ltac:(cbn [advance ps_remaining]; lia) H Hst) as (ts & l3 & Hts & Hmem & Ht3 & Hw).
  pose proof (tail_at_adv' _ _ _ _ 4 Ht2 ltac:(rewrite enc32_length; reflexivity)) as Ht4. cbn [advance ps_cursor] in Ht3.
  pose proof (tail_at_det _ _ _ _ Ht4 Ht3) as ->. pose proof (tail_at_det _ _ _ _ T1 Ht2) as ->.
  eexists. split; [exact Ht|]. rewrite <- Hk in Hh. exact (wrong_deeper st h k d n ts l3 Hh Hn Hts Hmem Hw).
Qed.

Lemma parse_where src s0 out st cur s' out' : wf_bytes src -> parse src s0 out = Ok (st, cur, s', out') ->
  st = TOO_FEW_BYTES \/ st = INVALID_ENDIAN \/ st = INVALID_GEOMETRY_TYPE -> wrong st src.
Proof.
  intros Hwf E Hst. unfold parse in E. pose proof (start_sync src s0) as Hs.
  match type of E with context[parse_geometry _ _ ?a _] => set (s := a) in * end.
  destruct (parse_geometry src (S (length src)) s out) as [[[st1 s1] out1]| | |] eqn:E1; cbn [obind] in E; try discriminate E.
  assert (st1 = st) as ->.
  { destruct st1; try (injection E as <- _ _ _; reflexivity).
    destruct (ps_cursor s1 <? Z.of_nat (length src)); injection E as <- _ _ _; destruct Hst as [?|[?|?]]; discriminate. }
  destruct (geometry_where src Hwf (S (length src)) s out st s1 out1 Hs ltac:(cbn [s ps_remaining]; lia) E1 ltac:(destruct Hst as [?|[?|?]]; congruence)) as (l & (pre & Esrc & Hp) & Hw).
  destruct pre; [|cbn in Hp; lia]. cbn [app] in Esrc. subst l. exact Hw.
Qed.
