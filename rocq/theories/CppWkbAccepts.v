(** * The C++ WKB parser on arbitrary bytes *)
From Verif Require Import Base BaseFacts TypesModel TypesProofs TypesSpec GeomSpec WkbSpec CppCoordModel CppWkbSpec CppWkbModel
  CppWkbTells WkbReaderProofs CppWkbProofs CppWkbReads.
Local Open Scope Z_scope.

(** ** Every group of bytes is the encoding of what it decodes to *)

Lemma enc32_load e b : wf_bytes b -> length b = 4%nat -> enc32 e (load (is_be e) b) = b /\ (load (is_be e) b < 2 ^ 32)%N.
Proof.
  intros Hwf Hl. unfold load. destruct e; cbn [is_be enc32].
  - split; [rewrite <- Hl; apply le_bytes_val, Hwf|].
    pose proof (le_val_bound b Hwf) as H. rewrite Hl in H. exact H.
  - pose proof (wf_bytes_rev b Hwf) as Hr. split.
    + unfold be_bytes. rewrite <- Hl, <- (rev_length b), le_bytes_val by exact Hr. apply rev_involutive.
    + pose proof (le_val_bound _ Hr) as H. rewrite rev_length, Hl in H. exact H.
Qed.
Lemma enc64_load e b : wf_bytes b -> length b = 8%nat -> enc64 e (load (is_be e) b) = b /\ (load (is_be e) b < 2 ^ 64)%N.
Proof.
  intros Hwf Hl. unfold load. destruct e; cbn [is_be enc64].
  - split; [rewrite <- Hl; apply le_bytes_val, Hwf|].
    pose proof (le_val_bound b Hwf) as H. rewrite Hl in H. exact H.
  - pose proof (wf_bytes_rev b Hwf) as Hr. split.
    + unfold be_bytes. rewrite <- Hl, <- (rev_length b), le_bytes_val by exact Hr. apply rev_involutive.
    + pose proof (le_val_bound _ Hr) as H. rewrite rev_length, Hl in H. exact H.
Qed.

Lemma wf_bytes_split k b : wf_bytes b -> (k <= length b)%nat ->
  exists x y, b = x ++ y /\ length x = k /\ wf_bytes x /\ wf_bytes y.
Proof.
  intros Hwf Hk. exists (firstn k b), (skipn k b). rewrite <- (firstn_skipn k b) in Hwf.
  apply wf_bytes_app in Hwf. rewrite firstn_skipn, firstn_length. intuition lia.
Qed.

Lemma words_decode e k : forall b, wf_bytes b -> length b = (8 * k)%nat ->
  exists ws, length ws = k /\ Forall (fun w => (w < 2 ^ 64)%N) ws /\ flat_map (enc64 e) ws = b.
Proof.
  induction k as [|k IH]; intros b Hwf Hl.
  - destruct b; [|discriminate]. exists []. repeat split; auto.
  - destruct (wf_bytes_split 8 b Hwf ltac:(lia)) as (x & y & -> & Hx & Hwx & Hwy). rewrite app_length in Hl.
    destruct (IH y Hwy ltac:(lia)) as (ws & H1 & H2 & H3).
    destruct (enc64_load e x Hwx Hx) as [E Hb].
    exists (load (is_be e) x :: ws). cbn [length flat_map]. split; [lia|]. split; [constructor; assumption|].
    rewrite E, H3. reflexivity.
Qed.

Lemma coords_decode e d n : forall b, wf_bytes b -> length b = (8 * (n * ndim d))%nat ->
  exists cs, length cs = n /\ wf_seq d cs /\ enc_coords e cs = b.
Proof.
  induction n as [|n IH]; intros b Hwf Hl.
  - destruct b; [|discriminate]. exists []. repeat split; auto. constructor.
  - destruct (wf_bytes_split (8 * ndim d) b Hwf ltac:(lia)) as (x & y & -> & Hx & Hwx & Hwy). rewrite app_length in Hl.
    destruct (IH y Hwy ltac:(lia)) as (cs & H1 & H2 & H3).
    destruct (words_decode e (ndim d) x Hwx Hx) as (c & Hc1 & Hc2 & Hc3).
    exists (c :: cs). split; [cbn [length]; lia|]. split; [constructor; [split; assumption|exact H2]|].
    unfold enc_coords, enc_coord in *. cbn [flat_map]. rewrite Hc3, H3. reflexivity.
Qed.

(** ** The parser's cursor *)

Record sync (src : bytes) (s : pstate) : Prop := {
  sync_pos : 0 <= ps_cursor s;
  sync_rem : ps_remaining s = Z.of_nat (length src) - ps_cursor s;
  sync_nonneg : 0 <= ps_remaining s
}.

Lemma sync_advance src s n : sync src s -> 0 <= n <= ps_remaining s -> sync src (advance s n).
Proof. intros [A B C] H. constructor; cbn; lia. Qed.

Lemma sync_bytes src s n : wf_bytes src -> sync src s -> Z.of_nat n <= ps_remaining s ->
  exists b l, tail_at src (ps_cursor s) (b ++ l) /\ length b = n /\ wf_bytes b /\ slice src (ps_cursor s) n = Some b.
Proof.
  intros Hwf [A B C] Hn.
  exists (firstn n (skipn (Z.to_nat (ps_cursor s)) src)), (skipn n (skipn (Z.to_nat (ps_cursor s)) src)).
  assert (length (firstn n (skipn (Z.to_nat (ps_cursor s)) src)) = n) as Hl.
  { rewrite firstn_length, skipn_length. lia. }
  split.
  { exists (firstn (Z.to_nat (ps_cursor s)) src). rewrite !firstn_skipn. split; [reflexivity|].
    rewrite firstn_length. lia. }
  split; [exact Hl|]. split.
  - rewrite <- (firstn_skipn (Z.to_nat (ps_cursor s)) src) in Hwf. apply wf_bytes_app in Hwf. destruct Hwf as [_ Hwf].
    rewrite <- (firstn_skipn n (skipn _ _)) in Hwf. apply wf_bytes_app in Hwf. apply Hwf.
  - unfold slice. destruct (Z.leb_spec 0 (ps_cursor s)); [|lia].
    destruct (Z.leb_spec (ps_cursor s + Z.of_nat n) (Z.of_nat (length src))); [|lia]. reflexivity.
Qed.

Lemma check_few s n : check_remaining s n <> OK -> check_remaining s n = TOO_FEW_BYTES.
Proof. unfold check_remaining. destruct (n <=? ps_remaining s); [congruence|reflexivity]. Qed.

Lemma check_cases s n : (check_remaining s n = OK /\ n <= ps_remaining s) \/
  (check_remaining s n = TOO_FEW_BYTES /\ ps_remaining s < n).
Proof. unfold check_remaining. destruct (Z.leb_spec n (ps_remaining s)); [left|right]; auto. Qed.

Lemma read_uint32_any src s e : wf_bytes src -> sync src s -> 4 <= ps_remaining s -> ps_endian s = endian_byte e ->
  exists n l, read_uint32_unchecked src s = Ok (advance s 4, n) /\ (n < 2 ^ 32)%N /\
    tail_at src (ps_cursor s) (enc32 e n ++ l).
Proof.
  intros Hwf Hs Hr He. destruct (sync_bytes src s 4 Hwf Hs ltac:(lia)) as (b & l & Ht & Hl & Hwb & E).
  destruct (enc32_load e b Hwb Hl) as [Eb Hb]. exists (load (is_be e) b), l.
  unfold read_uint32_unchecked. rewrite E. cbn [or_ub obind]. rewrite He, endian_load.
  split; [reflexivity|]. split; [exact Hb|]. rewrite Eb. exact Ht.
Qed.

Lemma tail_at_det src p a b : tail_at src p a -> tail_at src p b -> a = b.
Proof.
  intros (x & E1 & H1) (y & E2 & H2). subst p. apply Nat2Z.inj in H2. subst src.
  apply (f_equal (skipn (length x))) in E2. rewrite skipn_app, skipn_all, Nat.sub_diag in E2. cbn in E2.
  rewrite H2, skipn_app, skipn_all, Nat.sub_diag in E2. exact E2.
Qed.

(** ** Sequences *)

Definition seqs_inside (src : bytes) (g : wgeom) : Prop := Forall (sequence_inside src) (vis_seqs g).

Lemma parse_sequence_any src s e d out : wf_bytes src -> sync src s -> set_for s e d ->
  fits out -> (wg_num_sequences out + 1 < 2 ^ 32)%N -> seqs_inside src out ->
  (exists out', parse_sequence src s out = Ok (TOO_FEW_BYTES, advance s 4, out) /\ out' = out /\ 4 <= ps_remaining s) \/
  (parse_sequence src s out = Ok (TOO_FEW_BYTES, s, out)) \/
  (exists cs l out', wf_seq d cs /\ count_ok cs /\ tail_at src (ps_cursor s) (enc_ring e cs ++ l) /\
     Z.of_nat (length (enc_ring e cs)) <= ps_remaining s /\
     parse_sequence src s out = Ok (OK, advance s (Z.of_nat (length (enc_ring e cs))), out') /\
     fits out' /\ wg_num_sequences out' = (wg_num_sequences out + 1)%N /\ seqs_inside src out' /\
     vis_geoms out' = vis_geoms out /\ wg_num_geometries out' = wg_num_geometries out).
Proof.
  intros Hwf Hs Hset Hfit Hn Hin. pose proof Hset as (He & Hd & Hst).
  destruct (check_cases s 4) as [[E1 H1]|[E1 H1]].
  2:{ right; left. unfold parse_sequence. rewrite E1. reflexivity. }
  destruct (read_uint32_any src s e Hwf Hs H1 He) as (n & l & E2 & Hn32 & Ht).
  destruct (check_cases (advance s 4) (Z.of_N (8 * n * ps_stride s))) as [[E3 H3]|[E3 H3]].
  2:{ left. exists out. split; [|auto]. unfold parse_sequence. rewrite E1, E2. cbn [obind].
      change (ps_stride (advance s 4)) with (ps_stride s). rewrite E3. reflexivity. }
  right; right. rewrite Hst in *. cbn [advance ps_remaining] in H3.
  assert (sync src (advance s 4)) as Hs4 by (apply sync_advance; [exact Hs|lia]).
  destruct (sync_bytes src (advance s 4) (8 * (N.to_nat n * ndim d)) Hwf Hs4) as (b & l' & Ht' & Hlb & Hwb & _).
  { cbn [advance ps_remaining]. lia. }
  destruct (coords_decode e d (N.to_nat n) b Hwb Hlb) as (cs & Hcs & Hwfs & Eb).
  pose proof (tail_at_adv' _ _ _ _ 4 Ht ltac:(rewrite enc32_length; reflexivity)) as Ht4.
  cbn [advance ps_cursor] in Ht'. pose proof (tail_at_det _ _ _ _ Ht4 Ht') as ->.
  assert (N.of_nat (length cs) = n) as Hcn by lia.
  assert (count_ok cs) as Hc by (unfold count_ok; rewrite Hcn; exact Hn32).
  assert (tail_at src (ps_cursor s) (enc_ring e cs ++ l')) as Ht2.
  { unfold enc_ring. rewrite Hcn, <- app_assoc, Eb. exact Ht. }
  assert (length (enc_ring e cs) = 4 + 8 * (length cs * ndim d))%nat as Hlen.
  { unfold enc_ring. rewrite app_length, enc32_length, (enc_coords_length e d cs Hwfs). lia. }
  assert (Z.of_nat (length (enc_ring e cs)) <= ps_remaining s) as Hrem by lia.
  destruct (parse_sequence_ok src s e d cs l' out Hwfs Hc Hset Ht2 Hrem Hfit Hn)
    as (out' & q & E4 & T4 & Hq & F4 & V4 & N4 & G4 & M4 & X4).
  exists cs, l', out'. split; [exact Hwfs|]. split; [exact Hc|]. split; [exact Ht2|]. split; [exact Hrem|].
  split; [exact E4|]. split; [exact F4|]. split; [exact N4|]. split; [|auto].
  unfold seqs_inside in *. rewrite V4. apply Forall_app. split; [exact Hin|]. constructor; [|constructor].
  destruct Hq as [Q1 Q2 Q3 Q4 Q5]. destruct Q5 as (pre & post & Esrc & Ep).
  unfold sequence_inside. split; [eauto|]. rewrite Q1, Q2, Ep. split; [lia|]. rewrite Esrc, !app_length.
  rewrite (enc_coords_length e d cs Hwfs). lia.
Qed.

(** ** The loops *)

Definition moves (src : bytes) (s s' : pstate) : Prop := sync src s' /\ ps_cursor s <= ps_cursor s'.

Lemma moves_remaining src s s' : sync src s -> moves src s s' -> ps_remaining s' <= ps_remaining s.
Proof. intros [A B C] [[A' B' C'] H]. lia. Qed.

Lemma parse_rings_any src e d : wf_bytes src -> forall f n s out,
  sync src s -> set_for s e d -> ps_remaining s < Z.of_nat f ->
  fits out -> (wg_num_sequences out + n < 2 ^ 32)%N -> seqs_inside src out ->
  exists st s' out', parse_n f (parse_sequence src) n s out = Ok (st, s', out') /\
    (st = OK \/ st = TOO_FEW_BYTES) /\ moves src s s' /\ fits out' /\ seqs_inside src out' /\
    vis_geoms out' = vis_geoms out /\ wg_num_geometries out' = wg_num_geometries out /\
    (st = OK -> exists rings l, Forall (wf_seq d) rings /\ Forall count_ok rings /\ N.of_nat (length rings) = n /\
       tail_at src (ps_cursor s) (flat_map (enc_ring e) rings ++ l)).
Proof.
  intros Hwf. induction f as [|f IH]; intros n s out Hs Hset Hf Hfit Hn Hin.
  { destruct Hs. lia. }
  destruct (N.eq_dec n 0) as [->|Hn0].
  { rewrite parse_n_zero. exists OK, s, out. split; [reflexivity|]. split; [auto|]. split; [split; [exact Hs|lia]|].
    split; [exact Hfit|]. split; [exact Hin|]. split; [reflexivity|]. split; [reflexivity|]. intros _.
    destruct (sync_bytes src s 0 Hwf Hs ltac:(destruct Hs; lia)) as (b & l & Ht & Hl & _ & _).
    destruct b; [|discriminate]. exists [], l. cbn [flat_map length]. auto. }
  rewrite parse_n_succ by lia.
  destruct (parse_sequence_any src s e d out Hwf Hs Hset Hfit ltac:(lia) Hin)
    as [(out' & E & -> & Hr)|[E|(cs & l & out' & Hw & Hc & Ht & Hrem & E & F & Nq & Hin' & G & M)]].
  - rewrite E. cbn [obind]. eexists _, _, _. split; [reflexivity|]. split; [auto|].
    split; [split; [apply sync_advance; [exact Hs|lia]|cbn; lia]|]. split; [exact Hfit|]. split; [exact Hin|].
    split; [reflexivity|]. split; [reflexivity|]. discriminate.
  - rewrite E. cbn [obind]. eexists _, _, _. split; [reflexivity|]. split; [auto|].
    split; [split; [exact Hs|lia]|]. split; [exact Hfit|]. split; [exact Hin|].
    split; [reflexivity|]. split; [reflexivity|]. discriminate.
  - rewrite E. cbn [obind].
    assert (4 <= length (enc_ring e cs))%nat as H4.
    { unfold enc_ring. rewrite app_length, enc32_length. lia. }
    set (s1 := advance s (Z.of_nat (length (enc_ring e cs)))) in *.
    assert (sync src s1) as Hs1 by (apply sync_advance; [exact Hs|lia]).
    destruct (IH (n - 1)%N s1 out' Hs1 Hset) as (st & s2 & out2 & E2 & Hst & [Hs2 Hm2] & F2 & I2 & G2 & M2 & Hok);
      try assumption; try lia.
    { subst s1. cbn [advance ps_remaining]. lia. }
    exists st, s2, out2. split; [exact E2|]. split; [exact Hst|].
    split; [split; [exact Hs2|subst s1; cbn [advance ps_cursor] in Hm2; lia]|].
    split; [exact F2|]. split; [exact I2|]. split; [congruence|]. split; [congruence|].
    intros ->. destruct (Hok eq_refl) as (rings & l2 & R1 & R2 & R3 & R4).
    exists (cs :: rings), l2. split; [constructor; assumption|]. split; [constructor; assumption|].
    split; [cbn [length]; lia|]. cbn [flat_map]. rewrite <- app_assoc.
    pose proof (tail_at_adv _ _ _ _ Ht) as Ht2. subst s1. cbn [advance ps_cursor] in R4.
    rewrite <- (tail_at_det _ _ _ _ Ht2 R4). exact Ht.
Qed.

(** ** Geometries *)

Lemma inside_vis src g : fits g -> seqs_inside src g -> Forall (inside src) (vis_geoms g) -> inside src g.
Proof.
  intros [F1 F2] Hq Hg. constructor.
  - intros i Hi. unfold wg_sequence.
    destruct (nth_error (wg_sequences g) (N.to_nat i)) as [q|] eqn:E; [|apply nth_error_None in E; lia].
    exists q. split; [reflexivity|]. unfold seqs_inside in Hq. rewrite Forall_forall in Hq. apply Hq.
    unfold vis_seqs. apply nth_error_In with (n := N.to_nat i).
    rewrite <- E. rewrite <- (firstn_skipn (N.to_nat (wg_num_sequences g)) (wg_sequences g)) at 2.
    symmetry. apply nth_error_app1. rewrite firstn_length. lia.
  - intros i Hi. unfold wg_geometry.
    destruct (nth_error (wg_geometries g) (N.to_nat i)) as [q|] eqn:E; [|apply nth_error_None in E; lia].
    exists q. split; [reflexivity|]. rewrite Forall_forall in Hg. apply Hg.
    unfold vis_geoms. apply nth_error_In with (n := N.to_nat i).
    rewrite <- E. rewrite <- (firstn_skipn (N.to_nat (wg_num_geometries g)) (wg_geometries g)) at 2.
    symmetry. apply nth_error_app1. rewrite firstn_length. lia.
Qed.

(** What holds of every call of ParseGeometry. *)
Definition outcome_ok (src : bytes) (s : pstate) (r : outcome presult) : Prop :=
  exists st s' out', r = Ok (st, s', out') /\ st <> TOO_MANY_BYTES /\ moves src s s' /\ inside src out' /\
    (st = OK -> exists t l, tree_ok t /\ tail_at src (ps_cursor s) (tree_bytes t ++ l) /\
       Z.of_nat (length (tree_bytes t)) <= ps_remaining s).

Lemma parse_members_any src geometry : wf_bytes src -> forall f n s out,
  (forall s out, sync src s -> ps_remaining s < Z.of_nat f -> outcome_ok src s (geometry s out)) ->
  (forall t l s out, tree_ok t -> tail_at src (ps_cursor s) (tree_bytes t ++ l) ->
     Z.of_nat (length (tree_bytes t)) <= ps_remaining s -> ps_remaining s < Z.of_nat f ->
     exists s' out', geometry s out = Ok (OK, s', out') /\
       ps_cursor s' = ps_cursor s + Z.of_nat (length (tree_bytes t)) /\
       ps_remaining s' = ps_remaining s - Z.of_nat (length (tree_bytes t))) ->
  sync src s -> ps_remaining s < Z.of_nat f ->
  fits out -> (wg_num_geometries out + n < 2 ^ 32)%N -> Forall (inside src) (vis_geoms out) ->
  exists st s' out', parse_n f (parse_member geometry) n s out = Ok (st, s', out') /\
    st <> TOO_MANY_BYTES /\ moves src s s' /\ fits out' /\ Forall (inside src) (vis_geoms out') /\
    vis_seqs out' = vis_seqs out /\ wg_num_sequences out' = wg_num_sequences out /\
    (st = OK -> exists ts l, Forall tree_ok ts /\ N.of_nat (length ts) = n /\
       tail_at src (ps_cursor s) (bytes_of ts ++ l) /\ Z.of_nat (length (bytes_of ts)) <= ps_remaining s).
Proof.
  intros Hwf. induction f as [|f IH]; intros n s out Hgeom Hdet Hs Hf Hfit Hn Hin.
  { destruct Hs. lia. }
  destruct (N.eq_dec n 0) as [->|Hn0].
  { rewrite parse_n_zero. exists OK, s, out. split; [reflexivity|]. split; [discriminate|]. split; [split; [exact Hs|lia]|].
    split; [exact Hfit|]. split; [exact Hin|]. split; [reflexivity|]. split; [reflexivity|]. intros _.
    destruct (sync_bytes src s 0 Hwf Hs ltac:(destruct Hs; lia)) as (b & l & Ht & Hl & _ & _).
    destruct b; [|discriminate]. exists [], l. change (bytes_of []) with (@nil N). cbn [length].
    destruct Hs. auto 10. }
  rewrite parse_n_succ by lia. unfold parse_member at 1.
  destruct (append_geometry_ok out Hfit ltac:(lia)) as (out1 & child & E1 & Hput). rewrite E1. cbn [obind].
  destruct (Hgeom s child Hs Hf) as (st & s1 & child' & E2 & Hst & Hmv & Hins & Hok). rewrite E2. cbn [obind].
  destruct (Hput child') as (out2 & E3 & F3 & V3 & N3 & Q3 & M3 & X3). rewrite E3. cbn [obind].
  assert (Forall (inside src) (vis_geoms out2)) as Hin2.
  { rewrite V3. apply Forall_app. split; [exact Hin|]. constructor; [exact Hins|constructor]. }
  destruct st; try (eexists _, s1, out2; split; [reflexivity|]; split; [discriminate|]; split; [exact Hmv|];
    split; [exact F3|]; split; [exact Hin2|]; split; [exact Q3|]; split; [exact M3|]; discriminate); [|congruence].
  destruct (Hok eq_refl) as (t & l & Htok & Ht & Hrem).
  destruct (Hdet t l s child Htok Ht Hrem Hf) as (s1' & c1' & E2' & C2 & R2).
  assert (s1' = s1) as -> by congruence. assert (c1' = child') as -> by congruence. clear E2'.
  pose proof (tree_bytes_pos t) as Hpos.
  destruct (IH (n - 1)%N s1 out2) as (st & s4 & out4 & E4 & Hst4 & [Hs4 Hm4] & F4 & I4 & Q4 & M4 & Hok4);
    try assumption; try lia.
  { intros s' out' Hs' Hr'. apply Hgeom; [exact Hs'|lia]. }
  { intros t' l' s' out' A1 A2 A3 A4. apply (Hdet t' l' s' out' A1 A2 A3). lia. }
  { exact (proj1 Hmv). }
  exists st, s4, out4. split; [exact E4|]. split; [exact Hst4|]. split; [split; [exact Hs4|lia]|].
  split; [exact F4|]. split; [exact I4|]. split; [congruence|]. split; [congruence|].
  intros ->. destruct (Hok4 eq_refl) as (ts & l4 & A1 & A2 & A3 & A4).
  exists (t :: ts), l4. split; [constructor; assumption|]. split; [cbn [length]; lia|].
  change (bytes_of (t :: ts)) with (tree_bytes t ++ bytes_of ts). split.
  - rewrite <- app_assoc. pose proof (tail_at_adv _ _ _ _ Ht) as Ht2. rewrite C2 in A3.
    rewrite <- (tail_at_det _ _ _ _ Ht2 A3). exact Ht.
  - rewrite app_length. lia.
Qed.

Definition dim_of (z m : bool) : dim := if z then if m then XYZM else XYZ else if m then XYM else XY.

Lemma word_announces w srid : (w < 2 ^ 32)%N ->
  word_has w kEWKBSrid = match srid with Some _ => true | None => false end ->
  announces w srid (dim_of (word_z w) (word_m w)) (word_type w).
Proof.
  intros Hw Hs. split; [exact Hw|]. split; [unfold word_type; rewrite land_mask; reflexivity|].
  rewrite (word_has_bit w 29) in Hs by reflexivity.
  split; [rewrite Hs; destruct srid; intuition congruence|].
  rewrite <- word_z_spec, <- word_m_spec. destruct (word_z w), (word_m w); cbn; intuition.
Qed.

Lemma endian_cases n : (N.eqb n 1 || N.eqb n 0)%bool = true -> exists e, n = endian_byte e.
Proof.
  intros H. apply Bool.orb_true_iff in H. destruct H as [H|H]; apply N.eqb_eq in H; subst n; [exists LE|exists BE]; reflexivity.
Qed.

Definition nothing (g : wgeom) : Prop := fits g /\ wg_num_sequences g = 0%N /\ wg_num_geometries g = 0%N.

Lemma nothing_inside src g : nothing g -> inside src g.
Proof.
  intros (F & Nq & Ng). apply inside_vis; [exact F| |]; [unfold seqs_inside, vis_seqs|unfold vis_geoms];
    rewrite ?Nq, ?Ng; constructor.
Qed.

Lemma nothing_reset g : nothing (reset g).
Proof. split; [apply fits_reset|]. destruct g; split; reflexivity. Qed.

Lemma parse_header_any src s out : wf_bytes src -> sync src s ->
  (exists st s' out', parse_header src s (reset out) = Ok (st, s', out', 0%N) /\
     (st = TOO_FEW_BYTES \/ st = INVALID_ENDIAN) /\ moves src s s' /\ nothing out') \/
  (exists h d base l, header_ok h d base /\ tail_at src (ps_cursor s) (header_bytes h ++ l) /\
     Z.of_nat (length (header_bytes h)) <= ps_remaining s).
Proof.
  intros Hwf Hs. pose proof (nothing_reset out) as Hno.
  destruct (check_cases s 5) as [[E1 H1]|[E1 H1]].
  2:{ left. unfold parse_header. rewrite E1. eexists _, _, _. split; [reflexivity|]. split; [auto|].
      split; [split; [exact Hs|lia]|exact Hno]. }
  destruct (sync_bytes src s 1 Hwf Hs ltac:(lia)) as (b & l & Ht & Hl & Hwb & Eb).
  destruct b as [|x [|? ?]]; try discriminate Hl. clear Hl.
  assert (le_val [x] = x) as Ex by (cbn [le_val]; lia).
  destruct (N.eqb x 1 || N.eqb x 0)%bool eqn:Een.
  2:{ left. unfold parse_header. rewrite E1. unfold read_endian_unchecked. rewrite Eb. cbn [or_ub obind].
      rewrite Ex, Een. cbn [obind]. eexists _, _, _. split; [reflexivity|]. split; [auto|].
      split; [split; [|cbn; lia]|exact Hno]. destruct Hs. constructor; assumption. }
  destruct (endian_cases x Een) as [e ->].
  destruct (read_endian_ok' src s e l Ht) as [E2 Ht2].
  match type of E2 with _ = Ok (OK, ?x) => set (s1 := x) in * end.
  assert (sync src s1) as Hs1.
  { subst s1. apply sync_advance; [|cbn [ps_remaining]; lia]. destruct Hs. constructor; assumption. }
  destruct (read_uint32_any src s1 e Hwf Hs1 ltac:(subst s1; cbn [advance ps_remaining]; lia) eq_refl)
    as (w & l1 & E3 & Hw & Ht3).
  assert (sync src (advance s1 4)) as Hs2.
  { apply sync_advance; [exact Hs1|]. subst s1; cbn [advance ps_remaining]; lia. }
  destruct (word_has w kEWKBSrid) eqn:Esrid.
  - destruct (check_cases (advance s1 4) 4) as [[E4 H4]|[E4 H4]].
    2:{ left. unfold parse_header. rewrite E1, E2. cbn [obind]. rewrite E3. cbn [obind]. unfold parse_srid.
        rewrite Esrid, E4. cbn [obind]. eexists _, _, _. split; [reflexivity|]. split; [auto|].
        split; [split; [exact Hs2|subst s1; cbn [advance ps_cursor]; lia]|exact Hno]. }
    destruct (read_uint32_any src (advance s1 4) e Hwf Hs2 H4 eq_refl) as (n & l2 & E5 & Hn & Ht4).
    right. exists (Header e w (Some n)), (dim_of (word_z w) (word_m w)), (word_type w), l2.
    split; [split; [apply word_announces; [exact Hw|exact Esrid]|exact Hn]|].
    rewrite header_bytes_length. cbn [h_srid]. split.
    + unfold header_bytes. cbn [h_endian h_word h_srid]. rewrite <- !app_assoc.
      pose proof (tail_at_adv' _ _ _ _ 4 Ht3 ltac:(rewrite enc32_length; reflexivity)) as T.
      rewrite <- (tail_at_det _ _ _ _ T Ht4).
      assert (tail_at src (ps_cursor s1) l) as T1 by exact Ht2.
      rewrite <- (tail_at_det _ _ _ _ T1 Ht3). exact Ht.
    + subst s1; cbn [advance ps_remaining] in *; lia.
  - right. exists (Header e w None), (dim_of (word_z w) (word_m w)), (word_type w), l1.
    split; [split; [apply word_announces; [exact Hw|exact Esrid]|exact I]|].
    rewrite header_bytes_length. cbn [h_srid]. split; [|lia].
    unfold header_bytes. cbn [h_endian h_word h_srid]. rewrite <- !app_assoc. cbn [app].
    assert (tail_at src (ps_cursor s1) l) as T1 by exact Ht2.
    rewrite <- (tail_at_det _ _ _ _ T1 Ht3). exact Ht.
Qed.

Lemma sync_after src s s' n : sync src s -> ps_cursor s' = ps_cursor s + n -> ps_remaining s' = ps_remaining s - n ->
  0 <= n <= ps_remaining s -> moves src s s'.
Proof. intros [A B C] H1 H2 H3. split; [constructor|]; lia. Qed.

Lemma parse_geometry_any src : wf_bytes src -> forall f s out,
  sync src s -> ps_remaining s < Z.of_nat f -> outcome_ok src s (parse_geometry src f s out).
Proof.
  intros Hwf. induction f as [|f IH]; intros s out Hs Hf.
  { destruct Hs. lia. }
  rewrite parse_geometry_unfold.
  destruct (parse_header_any src s out Hwf Hs) as [(st & s1 & out1 & E1 & Hst & Hmv & Hno)|(h & d & base & l & Hh & Ht & Hr)].
  { rewrite E1. cbn [obind]. pose proof (nothing_inside src out1 Hno) as Hin.
    destruct Hst as [-> | ->]; eexists _, s1, out1; (split; [reflexivity|]; split; [discriminate|]; split; [exact Hmv|];
      split; [exact Hin|discriminate]). }
  destruct (parse_header_ok src s h d base l out Hh Ht Hr) as (s1 & E1 & C1 & R1 & T1 & Hset).
  rewrite E1. cbn [obind].
  assert (moves src s s1) as Hm1 by (apply (sync_after src s s1 _ Hs C1 R1); lia).
  assert (5 <= length (header_bytes h))%nat as H5 by (rewrite header_bytes_length; destruct (h_srid h); lia).
  pose proof (proj1 Hm1) as Hs1.
  destruct (start_facts out (reported_srid (h_srid h)) (dimN d) base) as (F & Vq & Vg & Nq & Ng & Hm).
  rewrite <- C1 in T1. pose proof Hset as (He & Hd & Hst). unfold dispatch.
  destruct (N.eqb_spec base 1) as [->|B1].
  { (* point *)
    set (g := set_type _ _) in *. unfold parse_point. rewrite Hst.
    destruct (check_cases s1 (Z.of_N (N.of_nat (ndim d) * 8))) as [[E2 H2]|[E2 H2]]; rewrite E2.
    2:{ eexists _, _, _. split; [reflexivity|]. split; [discriminate|]. split; [exact Hm1|].
        split; [apply nothing_inside; repeat split; [apply F|apply F|exact Nq|exact Ng]|discriminate]. }
    unfold new_sequence_at_cursor.
    match goal with |- context[append_sequence g ?x] => set (q := x) end.
    destruct (append_sequence_ok g q F ltac:(rewrite Nq; cbn; lia)) as (g' & E3 & F3 & V3 & N3 & G3 & M3 & X3).
    rewrite E3. cbn [obind]. eexists _, _, _. split; [reflexivity|]. split; [discriminate|].
    split.
    { split; [apply sync_advance; [exact Hs1|lia]|]. cbn [advance ps_cursor]. lia. }
    split.
    { apply inside_vis; [exact F3| |rewrite G3, Vg; constructor]. unfold seqs_inside. rewrite V3, Vq. cbn [app].
      constructor; [|constructor]. destruct Hs1 as [A B C]. subst q. unfold sequence_inside.
      cbn [sq_data sq_length sq_stride sq_dims]. split; [eauto|]. rewrite Hst. lia. }
    intros _. destruct (sync_bytes src s1 (8 * (1 * ndim d)) Hwf Hs1 ltac:(lia)) as (b & l' & Ht' & Hlb & Hwb & _).
    destruct (coords_decode (h_endian h) d 1 b Hwb Hlb) as (cs & Hcs & Hwfs & Eb).
    destruct cs as [|c [|? ?]]; try discriminate Hcs. inversion Hwfs; subst.
    assert (enc_coord (h_endian h) c = enc_coords (h_endian h) [c]) as Ec.
    { unfold enc_coords. cbn [flat_map]. rewrite app_nil_r. reflexivity. }
    exists (TPoint h d c), l'. split; [constructor; assumption|]. cbn [tree_bytes]. split.
    - rewrite <- app_assoc, Ec, <- (tail_at_det _ _ _ _ T1 Ht'). exact Ht.
    - rewrite app_length, Ec, Hlb. lia. }
  destruct (N.eqb_spec base 2) as [->|B2].
  { (* linestring *)
    set (g := set_type _ _) in *.
    assert (seqs_inside src g) as Hin by (unfold seqs_inside; rewrite Vq; constructor).
    destruct (parse_sequence_any src s1 (h_endian h) d g Hwf Hs1 Hset F ltac:(rewrite Nq; cbn; lia) Hin)
      as [(out' & E & -> & Hr4)|[E|(cs & l' & out' & Hw & Hc & Ht' & Hrem & E & F' & Nq' & Hin' & G' & M')]]; rewrite E.
    - eexists _, _, _. split; [reflexivity|]. split; [discriminate|].
      split; [split; [apply sync_advance; [exact Hs1|lia]|cbn [advance ps_cursor]; lia]|].
      split; [apply nothing_inside; repeat split; [apply F|apply F|exact Nq|exact Ng]|discriminate].
    - eexists _, _, _. split; [reflexivity|]. split; [discriminate|]. split; [exact Hm1|].
      split; [apply nothing_inside; repeat split; [apply F|apply F|exact Nq|exact Ng]|discriminate].
    - eexists _, _, _. split; [reflexivity|]. split; [discriminate|].
      split; [split; [apply sync_advance; [exact Hs1|lia]|cbn [advance ps_cursor]; lia]|].
      split; [apply inside_vis; [exact F'|exact Hin'|rewrite G', Vg; constructor]|]. intros _.
      exists (TLine h d cs), l'. split; [constructor; assumption|]. cbn [tree_bytes]. split.
      + rewrite <- app_assoc, <- (tail_at_det _ _ _ _ T1 Ht'). exact Ht.
      + rewrite app_length. lia. }
  destruct (N.eqb_spec base 3) as [->|B3].
  { (* polygon *)
    set (g := set_type _ _) in *. unfold parse_polygon.
    destruct (check_cases s1 4) as [[E2 H2]|[E2 H2]]; rewrite E2.
    2:{ eexists _, _, _. split; [reflexivity|]. split; [discriminate|]. split; [exact Hm1|].
        split; [apply nothing_inside; repeat split; [apply F|apply F|exact Nq|exact Ng]|discriminate]. }
    destruct (read_uint32_any src s1 (h_endian h) Hwf Hs1 H2 He) as (n & l2 & E3 & Hn & Ht2). rewrite E3. cbn [obind].
    assert (seqs_inside src g) as Hin by (unfold seqs_inside; rewrite Vq; constructor).
    assert (sync src (advance s1 4)) as Hs4 by (apply sync_advance; [exact Hs1|lia]).
    destruct (parse_rings_any src (h_endian h) d Hwf f n (advance s1 4) g Hs4 Hset
                ltac:(cbn [advance ps_remaining]; lia) F ltac:(rewrite Nq; lia) Hin)
      as (st & s' & out' & E & Hst' & [Hs' Hc'] & F' & I' & G' & M' & Hok).
    rewrite E. eexists _, _, _. split; [reflexivity|]. split; [destruct Hst'; congruence|].
    split; [split; [exact Hs'|cbn [advance ps_cursor] in Hc'; lia]|].
    split; [apply inside_vis; [exact F'|exact I'|rewrite G', Vg; constructor]|].
    intros ->. destruct (Hok eq_refl) as (rings & l' & W & C & Hlen & T').
    pose proof (tail_at_adv' _ _ _ _ 4 Ht2 ltac:(rewrite enc32_length; reflexivity)) as Ht4.
    cbn [advance ps_cursor] in T'. pose proof (tail_at_det _ _ _ _ Ht4 T') as ->.
    exists (TPoly h d rings), l'.
    assert (tail_at src (ps_cursor s) (tree_bytes (TPoly h d rings) ++ l')) as Hall.
    { cbn [tree_bytes]. unfold count_bytes. rewrite Hlen, <- !app_assoc, <- (tail_at_det _ _ _ _ T1 Ht2). exact Ht. }
    split; [constructor; try assumption; unfold count_ok; rewrite Hlen; exact Hn|]. split; [exact Hall|].
    destruct Hall as (pre & Esrc & Hpre). destruct Hs as [A B C0]. rewrite B, Hpre, Esrc, !app_length. lia. }
  destruct ((base =? 4) || (base =? 5) || (base =? 6) || (base =? 7))%N%bool eqn:B4.
  2:{ eexists _, _, _. split; [reflexivity|]. split; [discriminate|]. split; [exact Hm1|].
      split; [|discriminate]. apply nothing_inside. destruct out. repeat split; cbn; lia. }
  (* collection *)
  assert (exists k, coll_code k = base) as [k Hk].
  { apply Bool.orb_true_iff in B4. destruct B4 as [B4|B4]; [apply Bool.orb_true_iff in B4; destruct B4 as [B4|B4];
      [apply Bool.orb_true_iff in B4; destruct B4 as [B4|B4]|]|]; apply N.eqb_eq in B4; subst base;
      [exists CMultipoint|exists CMultilinestring|exists CMultipolygon|exists CCollection]; reflexivity. }
  set (g := set_type _ _) in *. unfold parse_collection.
  destruct (check_cases s1 4) as [[E2 H2]|[E2 H2]]; rewrite E2.
  2:{ eexists _, _, _. split; [reflexivity|]. split; [discriminate|]. split; [exact Hm1|].
      split; [apply nothing_inside; repeat split; [apply F|apply F|exact Nq|exact Ng]|discriminate]. }
  destruct (read_uint32_any src s1 (h_endian h) Hwf Hs1 H2 He) as (n & l2 & E3 & Hn & Ht2). rewrite E3. cbn [obind].
  assert (sync src (advance s1 4)) as Hs4 by (apply sync_advance; [exact Hs1|lia]).
  destruct (parse_members_any src (parse_geometry src f) Hwf f n (advance s1 4) g) as
    (st & s' & out' & E & Hst' & [Hs' Hc'] & F' & I' & Q' & M' & Hok).
  { exact IH. }
  { intros t l' s0 out0 A1 A2 A3 A4. destruct f as [|f']; [lia|].
    destruct (parse_geometry_ok src t l' s0 f' out0 A1 A2 A3 ltac:(lia)) as (sx & ox & X1 & X2 & X3 & _). eauto. }
  { exact Hs4. }
  { cbn [advance ps_remaining]; lia. }
  { exact F. }
  { rewrite Ng; lia. }
  { rewrite Vg. constructor. }
  rewrite E. eexists _, _, _. split; [reflexivity|]. split; [exact Hst'|].
  split; [split; [exact Hs'|cbn [advance ps_cursor] in Hc'; lia]|].
  split; [apply inside_vis; [exact F'|unfold seqs_inside; rewrite Q', Vq; constructor|exact I']|].
  intros ->. destruct (Hok eq_refl) as (ts & l' & W & Hlen & T' & R').
  pose proof (tail_at_adv' _ _ _ _ 4 Ht2 ltac:(rewrite enc32_length; reflexivity)) as Ht4.
  cbn [advance ps_cursor] in T'. pose proof (tail_at_det _ _ _ _ Ht4 T') as ->.
  exists (TColl h k d ts), l'.
  assert (tail_at src (ps_cursor s) (tree_bytes (TColl h k d ts) ++ l')) as Hall.
  { cbn [tree_bytes]. fold (bytes_of ts). unfold count_bytes.
    rewrite Hlen, <- !app_assoc, <- (tail_at_det _ _ _ _ T1 Ht2). exact Ht. }
  split; [constructor; try assumption; [rewrite Hk; exact Hh|unfold count_ok; rewrite Hlen; exact Hn]|].
  split; [exact Hall|].
  destruct Hall as (pre & Esrc & Hpre). destruct Hs as [A B C0]. rewrite B, Hpre, Esrc, !app_length. lia.
Qed.
