From Verif Require Import Base BaseFacts TypesModel GeomSpec GeomFacts WkbSpec NodesModel NodesSpec VisitorModel VisitorSpec
  VisitorFacts GeomVisitModel GeomVisitProofs BufferModel BufferFacts ArraySpec WkbWriterModel.
Local Open Scope Z_scope.

(** ** The visitor on the events of one geometry *)

Definition data (s : wst) : bytes := b_data (w_values s).

(** Everything the events of a subgeometry leave alone: the bookkeeping, and the levels up to the current one. *)
Record same_book (s s' : wst) : Prop := {
  sb_validity : w_validity s' = w_validity s;
  sb_offsets : w_offsets s' = w_offsets s;
  sb_length : w_length s' = w_length s;
  sb_nulls : w_nulls s' = w_nulls s;
  sb_is_null : w_is_null s' = w_is_null s
}.
Record frame_eq (s s' : wst) : Prop := {
  fr_book : same_book s s';
  fr_level : w_level s' = w_level s;
  fr_gt : forall i, i <= w_level s -> aget (w_gt s') i = aget (w_gt s) i;
  fr_dims : forall i, i <= w_level s -> aget (w_dims s') i = aget (w_dims s) i;
  fr_pos : forall i, i <= w_level s -> aget (w_pos s') i = aget (w_pos s) i;
  fr_size : forall i, i < w_level s -> aget (w_size s') i = aget (w_size s) i
}.

Lemma same_book_refl s : same_book s s.
Proof. split; reflexivity. Qed.
Lemma same_book_trans a b c : same_book a b -> same_book b c -> same_book a c.
Proof. intros [] []. split; congruence. Qed.
Lemma frame_refl s : frame_eq s s.
Proof. split; try reflexivity. apply same_book_refl. Qed.
Lemma frame_trans a b c : frame_eq a b -> frame_eq b c -> frame_eq a c.
Proof.
  intros [B1 L1 G1 D1 P1 S1] [B2 L2 G2 D2 P2 S2]. split; try (intros i Hi).
  - eapply same_book_trans; eassumption.
  - congruence.
  - rewrite G2 by lia. apply G1; lia.
  - rewrite D2 by lia. apply D1; lia.
  - rewrite P2 by lia. apply P1; lia.
  - rewrite S2 by lia. apply S1; lia.
Qed.

(** [delivers L evs bs n]: from any state at level [L], the events append [bs] and count [n] at that level. *)
Definition delivers (L : Z) (evs : list event) (bs : bytes) (n : N) : Prop :=
  forall s x, w_level s = L -> aget (w_size s) L = Some x -> (x < 2 ^ 32)%N -> buf_ok (w_values s) ->
  exists s', feed wkb_step s evs = Some (s', 0) /\ frame_eq s s' /\ data s' = data s ++ bs /\
    aget (w_size s') L = Some (wrap32 (x + n)) /\ buf_ok (w_values s').

Lemma wrap32_lt n : (wrap32 n < 2 ^ 32)%N.
Proof. apply N.mod_lt. discriminate. Qed.

Lemma check_level_ok s L : w_level s = L -> 0 <= L <= 30 -> wkb_check_level s = true.
Proof. intros Hl H. unfold wkb_check_level. rewrite Hl. lia. Qed.

Lemma bump_size_ok s L x n : w_level s = L -> 0 <= L <= 30 -> aget (w_size s) L = Some x ->
  exists a, bump_size s n = VRet (set_size s a) 0 /\
    forall j, aget a j = if j =? L then Some (wrap32 (x + n)) else aget (w_size s) j.
Proof.
  intros Hl HL Hx. unfold bump_size. rewrite Hl, Hx. cbn [vor_ub].
  destruct (aset_some (w_size s) L (wrap32 (x + n))) as [a Ha]; [lia|]. rewrite Ha. cbn [vor_ub].
  exists a. split; [reflexivity|]. exact (aget_aset _ _ _ _ Ha).
Qed.

Lemma delivers_coords L n cs : 0 <= L <= 30 ->
  delivers L [ECoords n cs] (enc_coords LE cs) (N.of_nat (length cs)).
Proof.
  intros HL s x Hl Hx Hlt Hok. cbn [feed wkb_step]. unfold coords_wkb. rewrite (check_level_ok s L Hl HL). cbn [negb].
  destruct (bump_size_ok s L x (wrap32 (N.of_nat (length cs))) Hl HL Hx) as (a & -> & Hg).
  change (0 =? 0) with true. cbv iota.
  eexists. split; [reflexivity|].
  split; [|split; [|split]].
  - split; try reflexivity; [split; reflexivity|].
    intros i Hi. cbn. rewrite Hg. rewrite Hl in Hi. destruct (Z.eqb_spec i L); [lia|reflexivity].
  - apply buf_append_data.
  - cbn. rewrite Hg, Z.eqb_refl. rewrite wrap32_add_r. reflexivity.
  - apply buf_append_ok.
Qed.

Lemma delivers_nil L : delivers L [] [] 0.
Proof.
  intros s x Hl Hx Hlt Hok. exists s. split; [reflexivity|]. split; [apply frame_refl|]. rewrite app_nil_r.
  split; [reflexivity|]. split; [|exact Hok]. rewrite N.add_0_r, wrap32_id by exact Hlt. exact Hx.
Qed.

Lemma delivers_app L e1 e2 b1 b2 n1 n2 : delivers L e1 b1 n1 -> delivers L e2 b2 n2 ->
  delivers L (e1 ++ e2) (b1 ++ b2) (n1 + n2).
Proof.
  intros H1 H2 s x Hl Hx Hlt Hok.
  destruct (H1 s x Hl Hx Hlt Hok) as (s1 & F1 & Fr1 & D1 & X1 & O1).
  destruct (H2 s1 _ ltac:(rewrite (fr_level _ _ Fr1); exact Hl) X1 (wrap32_lt _) O1) as (s2 & F2 & Fr2 & D2 & X2 & O2).
  exists s2. split; [rewrite (feed_app_ok _ _ _ _ _ F1); exact F2|].
  split; [eapply frame_trans; eassumption|]. split; [rewrite D2, D1, app_assoc; reflexivity|].
  split; [|exact O2]. rewrite X2, wrap32_add, N.add_assoc. reflexivity.
Qed.

Lemma delivers_seq L d cs evs : 0 <= L <= 30 -> seq_events d cs evs ->
  delivers L evs (enc_coords LE cs) (N.of_nat (length cs)).
Proof.
  intros HL. induction 1 as [|b cs evs H IH].
  - apply delivers_nil.
  - unfold enc_coords in *. rewrite flat_map_app, app_length, Nat2N.inj_add.
    apply (delivers_app L [_] evs); [apply delivers_coords; exact HL|exact IH].
Qed.

(** ** Opening and closing a level *)

Record opened (s s' : wst) (L : Z) (x : N) (header : bytes) : Prop := {
  op_book : same_book s s';
  op_level : w_level s' = L + 1;
  op_gt : forall i, i <= L -> aget (w_gt s') i = aget (w_gt s) i;
  op_dims : forall i, i <= L -> aget (w_dims s') i = aget (w_dims s) i;
  op_pos : forall i, i <= L -> aget (w_pos s') i = aget (w_pos s) i;
  op_size : forall i, i < L -> aget (w_size s') i = aget (w_size s) i;
  op_count : aget (w_size s') L = Some (wrap32 (x + 1));
  op_zero : aget (w_size s') (L + 1) = Some 0%N;
  op_data : data s' = data s ++ header;
  op_ok : buf_ok (w_values s')
}.

Ltac arr := repeat match goal with
  | H : forall j, aget ?a j = _ |- context [aget ?a _] => rewrite H
  | |- context [?x =? ?y] => destruct (Z.eqb_spec x y); try lia
  end; try reflexivity.

Lemma aset_spec {A} (a : arr32 A) i v : 0 <= i < 32 ->
  exists b, aset a i v = Some b /\ forall j, aget b j = if j =? i then Some v else aget a j.
Proof. intros H. destruct (aset_some a i v H) as [b Hb]. exists b. split; [exact Hb|]. exact (aget_aset _ _ _ _ Hb). Qed.

Lemma geom_start_ok s L x t d : w_level s = L -> 0 <= L <= 30 -> aget (w_size s) L = Some x ->
  exists s', wkb_step s (EGeomStart t d) = VRet s' 0 /\
    opened s s' L x ([1%N] ++ le_bytes 4 (type_code t d) ++ if N.eqb t 1 then [] else le_bytes 4 0) /\
    aget (w_gt s') (L + 1) = Some t /\ aget (w_dims s') (L + 1) = Some d /\
    (t <> 1%N -> aget (w_pos s') (L + 1) = Some (Z.of_nat (length (data s) + 5))).
Proof.
  intros Hl HL Hx. cbn [wkb_step]. unfold geom_start_wkb. rewrite (check_level_ok s L Hl HL). cbn [negb].
  destruct (bump_size_ok s L x 1 Hl HL Hx) as (a & -> & Ha). cbn [w_level set_size set_level]. rewrite Hl.
  cbn [w_gt w_dims w_pos w_size set_size set_level set_meta w_level].
  destruct (aset_spec (w_gt s) (L + 1) t) as (gt & -> & Hgt); [lia|]. cbn [vor_ub].
  destruct (aset_spec (w_dims s) (L + 1) d) as (dims & -> & Hdims); [lia|]. cbn [vor_ub].
  destruct (aset_spec a (L + 1) 0%N) as (size & -> & Hsize); [lia|]. cbn [vor_ub].
  destruct (N.eqb_spec t 1) as [->|Ht]; cbn [negb].
  - eexists. split; [reflexivity|].
    split; [|cbn; rewrite Hgt, Hdims, Z.eqb_refl; repeat split; congruence].
    split; cbn -[le_bytes app]; try (intros i Hi); arr; [split; reflexivity| |].
    + unfold data. cbn [append_bytes set_values w_values set_size set_meta set_level]. rewrite !buf_append_data.
      repeat (rewrite <- app_assoc; cbn [app]). reflexivity.
    + apply buf_append_ok.
  - set (v := buf_append (buf_append (w_values s) [1%N]) (le_bytes 4 (type_code t d))).
    cbn [append_bytes set_values set_size set_meta set_level w_pos w_level w_values].
    destruct (aset_spec (w_pos s) (L + 1) (b_size v)) as (pos & Ep & Hpos); [lia|].
    cbn [vor_ub]. fold v. rewrite Ep. cbn [vor_ub].
    eexists. split; [reflexivity|]. cbn -[le_bytes app].
    split; [|split; [|split]]; try (rewrite ?Hgt, ?Hdims, ?Hpos, Z.eqb_refl; reflexivity).
    + split; cbn -[le_bytes app]; try (intros i Hi); arr; [split; reflexivity| |].
      * unfold data. cbn -[le_bytes app]. rewrite buf_append_data. unfold v. rewrite !buf_append_data.
        repeat (rewrite <- app_assoc; cbn [app]). reflexivity.
      * apply buf_append_ok.
    + intros _. rewrite Hpos, Z.eqb_refl. f_equal. unfold v. rewrite !buf_append_size, le_bytes_length. cbn [length].
      unfold b_size, data. lia.
Qed.

Lemma ring_start_ok s L x : w_level s = L -> 0 <= L <= 30 -> aget (w_size s) L = Some x ->
  exists s', wkb_step s ERingStart = VRet s' 0 /\ opened s s' L x (le_bytes 4 0) /\
    aget (w_gt s') (L + 1) = Some 0%N /\ aget (w_pos s') (L + 1) = Some (Z.of_nat (length (data s))).
Proof.
  intros Hl HL Hx. cbn [wkb_step]. unfold ring_start_wkb. rewrite (check_level_ok s L Hl HL). cbn [negb].
  destruct (bump_size_ok s L x 1 Hl HL Hx) as (a & -> & Ha). cbn [w_level set_size set_level]. rewrite Hl.
  cbn [w_gt w_dims w_pos w_size set_size set_level set_meta w_level w_values].
  destruct (aset_spec (w_gt s) (L + 1) 0%N) as (gt & -> & Hgt); [lia|]. cbn [vor_ub].
  destruct (aset_spec (w_pos s) (L + 1) (b_size (w_values s))) as (pos & -> & Hpos); [lia|]. cbn [vor_ub].
  destruct (aset_spec a (L + 1) 0%N) as (size & -> & Hsize); [lia|]. cbn [vor_ub].
  eexists. split; [reflexivity|]. cbn -[le_bytes app].
  split; [|rewrite Hgt, Hpos, Z.eqb_refl; split; reflexivity].
  split; cbn -[le_bytes app]; try (intros i Hi); arr; [split; reflexivity| |].
  - unfold data. cbn -[le_bytes app]. rewrite !buf_append_data. reflexivity.
  - apply buf_append_ok.
Qed.

(** Closing a level whose count is patched in. *)
Record closed (s s' : wst) : Prop := {
  cl_book : same_book s s';
  cl_level : w_level s' = w_level s - 1;
  cl_gt : w_gt s' = w_gt s;
  cl_dims : w_dims s' = w_dims s;
  cl_pos : w_pos s' = w_pos s;
  cl_size : w_size s' = w_size s;
  cl_ok : buf_ok (w_values s')
}.

Lemma patch_size_ok s L n pre post : w_level s = L -> data s = pre ++ le_bytes 4 0 ++ post ->
  aget (w_pos s) L = Some (Z.of_nat (length pre)) -> aget (w_size s) L = Some n ->
  patch_size s = Some (set_values s {| b_data := pre ++ le_bytes 4 n ++ post; b_cap := b_cap (w_values s) |}).
Proof.
  intros Hl Hd Hp Hn. unfold patch_size. rewrite Hl, Hp, Hn. fold (data s). rewrite Hd.
  rewrite patch_at by (rewrite !le_bytes_length; reflexivity). reflexivity.
Qed.

Lemma closed_patch s b : (length b = length (data s)) -> buf_ok (w_values s) ->
  closed s (set_level (set_values s {| b_data := b; b_cap := b_cap (w_values s) |}) (w_level s - 1)).
Proof.
  intros Hb Hok. split; try reflexivity; [split; reflexivity|].
  unfold buf_ok, b_size in *. cbn. unfold data in Hb. rewrite Hb. exact Hok.
Qed.

Lemma cap_pos s : buf_ok (w_values s) -> data s <> [] -> (b_cap (w_values s) =? 0) = false.
Proof.
  unfold buf_ok, b_size, data. intros H Hd. destruct (b_data (w_values s)) as [|b l]; [congruence|]. cbn [length] in H. lia.
Qed.

Lemma ring_end_ok s L n pre post : w_level s = L -> 0 <= L <= 30 -> buf_ok (w_values s) ->
  data s = pre ++ le_bytes 4 0 ++ post -> aget (w_pos s) L = Some (Z.of_nat (length pre)) -> aget (w_size s) L = Some n ->
  exists s', wkb_step s ERingEnd = VRet s' 0 /\ closed s s' /\ data s' = pre ++ le_bytes 4 n ++ post.
Proof.
  intros Hl HL Hok Hd Hp Hn. cbn [wkb_step]. unfold ring_end_wkb. rewrite (check_level_ok s L Hl HL). cbn [negb].
  rewrite cap_pos; [|exact Hok|rewrite Hd; destruct pre; discriminate].
  rewrite (patch_size_ok s L n pre post) by assumption. cbn [vor_ub].
  eexists. split; [reflexivity|]. split; [|reflexivity]. refine (closed_patch s (pre ++ le_bytes 4 n ++ post) _ Hok).
  rewrite Hd, !app_length, !le_bytes_length. reflexivity.
Qed.

Lemma geom_end_ok s L t n pre post : w_level s = L -> 0 <= L <= 30 -> buf_ok (w_values s) ->
  aget (w_gt s) L = Some t -> t <> 1%N ->
  data s = pre ++ le_bytes 4 0 ++ post -> aget (w_pos s) L = Some (Z.of_nat (length pre)) -> aget (w_size s) L = Some n ->
  exists s', wkb_step s EGeomEnd = VRet s' 0 /\ closed s s' /\ data s' = pre ++ le_bytes 4 n ++ post.
Proof.
  intros Hl HL Hok Ht Ht1 Hd Hp Hn. cbn [wkb_step]. unfold geom_end_wkb. rewrite (check_level_ok s L Hl HL). cbn [negb].
  rewrite cap_pos; [|exact Hok|rewrite Hd; destruct pre; discriminate].
  rewrite Hl, Ht. cbn [vor_ub]. destruct (N.eqb_spec t 1); [contradiction|]. cbn [negb].
  rewrite (patch_size_ok s L n pre post) by assumption. cbn [vor_ub].
  eexists. split; [reflexivity|]. split; [|reflexivity]. refine (closed_patch s (pre ++ le_bytes 4 n ++ post) _ Hok).
  rewrite Hd, !app_length, !le_bytes_length. reflexivity.
Qed.

Lemma nan_bytes d : enc_coord LE (nan_coord d) = match d with
  | XY => wkb_nan_bytes ++ wkb_nan_bytes
  | XYZ | XYM => wkb_nan_bytes ++ wkb_nan_bytes ++ wkb_nan_bytes
  | XYZM => wkb_nan_bytes ++ wkb_nan_bytes ++ wkb_nan_bytes ++ wkb_nan_bytes
  end.
Proof. destruct d; reflexivity. Qed.

Lemma point_end_ok s L n d : w_level s = L -> 0 <= L <= 30 -> buf_ok (w_values s) -> data s <> [] ->
  aget (w_gt s) L = Some 1%N -> aget (w_dims s) L = Some (dimN d) -> aget (w_size s) L = Some n ->
  exists s', wkb_step s EGeomEnd = VRet s' 0 /\ closed s s' /\
    data s' = data s ++ if N.eqb n 0 then enc_coord LE (nan_coord d) else [].
Proof.
  intros Hl HL Hok Hne Ht Hd Hn. cbn [wkb_step]. unfold geom_end_wkb. rewrite (check_level_ok s L Hl HL). cbn [negb].
  rewrite cap_pos by assumption. rewrite Hl, Ht. cbn [vor_ub]. change (negb (1 =? 1)%N) with false. cbv iota.
  rewrite Hn. cbn [vor_ub]. destruct (N.eqb_spec n 0).
  - rewrite Hd. cbn [vor_ub]. rewrite nan_bytes.
    destruct d; cbn [dimN];
      match goal with |- context [if (?a =? ?b)%N then _ else _] =>
        let v := eval vm_compute in (a =? b)%N in change (a =? b)%N with v end; cbv iota;
      try match goal with |- context [if ?b then _ else _] => let v := eval vm_compute in b in change b with v end; cbv iota;
      try match goal with |- context [if ?b then _ else _] => let v := eval vm_compute in b in change b with v end; cbv iota;
      (eexists; split; [reflexivity|]; split;
       [split; try reflexivity; [split; reflexivity|cbn; rewrite Hl; reflexivity|apply buf_append_ok]
       |unfold data; cbn; rewrite buf_append_data; reflexivity]).
  - eexists. split; [reflexivity|]. rewrite app_nil_r. split; [|reflexivity].
    split; try reflexivity; [split; reflexivity|cbn; rewrite Hl; reflexivity|exact Hok].
Qed.

(** From the opening through the events inside to the closing. *)
Lemma open_close s s1 s2 s3 L x header : w_level s = L -> opened s s1 L x header -> frame_eq s1 s2 -> closed s2 s3 ->
  frame_eq s s3 /\ aget (w_size s3) L = Some (wrap32 (x + 1)) /\ buf_ok (w_values s3).
Proof.
  intros Hl O F C.
  assert (w_level s3 = w_level s).
  { rewrite (cl_level _ _ C), (fr_level _ _ F), (op_level _ _ _ _ _ O). lia. }
  split; [|split].
  - split.
    + eapply same_book_trans; [apply O|]. eapply same_book_trans; [apply F|apply C].
    + assumption.
    + intros i Hi. rewrite (cl_gt _ _ C), (fr_gt _ _ F) by (rewrite (op_level _ _ _ _ _ O); lia). apply (op_gt _ _ _ _ _ O); lia.
    + intros i Hi. rewrite (cl_dims _ _ C), (fr_dims _ _ F) by (rewrite (op_level _ _ _ _ _ O); lia). apply (op_dims _ _ _ _ _ O); lia.
    + intros i Hi. rewrite (cl_pos _ _ C), (fr_pos _ _ F) by (rewrite (op_level _ _ _ _ _ O); lia). apply (op_pos _ _ _ _ _ O); lia.
    + intros i Hi. rewrite (cl_size _ _ C), (fr_size _ _ F) by (rewrite (op_level _ _ _ _ _ O); lia). apply (op_size _ _ _ _ _ O); lia.
  - rewrite (cl_size _ _ C), (fr_size _ _ F) by (rewrite (op_level _ _ _ _ _ O); lia). apply (op_count _ _ _ _ _ O).
  - apply C.
Qed.

Lemma delivers_ring L d cs evs : 0 <= L -> L + 1 <= 30 -> seq_events d cs evs ->
  delivers L (ERingStart :: evs ++ [ERingEnd]) (enc_ring LE cs) 1.
Proof.
  intros HL HL' He s x Hl Hx Hlt Hok.
  destruct (ring_start_ok s L x Hl ltac:(lia) Hx) as (s1 & E1 & O & G1 & P1).
  destruct (delivers_seq (L + 1) d cs evs ltac:(lia) He s1 0%N (op_level _ _ _ _ _ O) (op_zero _ _ _ _ _ O) ltac:(lia) (op_ok _ _ _ _ _ O))
    as (s2 & E2 & F & D2 & X2 & O2).
  destruct (ring_end_ok s2 (L + 1) (wrap32 (0 + N.of_nat (length cs))) (data s) (enc_coords LE cs)) as (s3 & E3 & C & D3); auto.
  - rewrite (fr_level _ _ F). apply O.
  - lia.
  - rewrite D2, (op_data _ _ _ _ _ O), <- app_assoc. reflexivity.
  - rewrite (fr_pos _ _ F) by (rewrite (op_level _ _ _ _ _ O); lia). exact P1.
  - exists s3. split.
    + rewrite (feed_cons_ok _ _ _ _ _ E1), (feed_app_ok _ _ _ _ _ E2). cbn [feed]. rewrite E3. reflexivity.
    + destruct (open_close s s1 s2 s3 L x _ Hl O F C) as (F' & X' & O').
      split; [exact F'|]. split; [|split; assumption].
      rewrite D3, le_bytes_wrap32. reflexivity.
Qed.

Lemma delivers_rings L d rings evs : 0 <= L -> (rings <> [] -> L + 1 <= 30) -> ring_events d rings evs ->
  delivers L evs (flat_map (enc_ring LE) rings) (N.of_nat (length rings)).
Proof.
  intros HL HL'. induction 1 as [|cs rings e1 e2 H1 H2 IH].
  - apply delivers_nil.
  - cbn [flat_map length].
    replace (ERingStart :: e1 ++ [ERingEnd] ++ e2) with ((ERingStart :: e1 ++ [ERingEnd]) ++ e2)
      by (cbn [app]; rewrite <- app_assoc; reflexivity).
    replace (N.of_nat (S (length rings))) with (1 + N.of_nat (length rings))%N by lia.
    apply delivers_app.
    + eapply delivers_ring; [exact HL|apply HL'; discriminate|exact H1].
    + apply IH. intros _. apply HL'. discriminate.
Qed.

Lemma type_code_iso t d : (t < 1000)%N -> type_code t (dimN d) = (t + 1000 * (dimN d - 1))%N.
Proof. intros H. unfold type_code. rewrite Z.mod_small; destruct d; cbn [dimN]; lia. Qed.

(** A linestring, polygon or collection around the events of its contents. *)
Lemma delivers_counted L t d evs bs n : 0 <= L -> L + 1 <= 30 -> (1 < t < 8)%N -> delivers (L + 1) evs bs n ->
  delivers L ([EGeomStart t (dimN d)] ++ evs ++ [EGeomEnd]) (iso_header d t ++ le_bytes 4 n ++ bs) 1.
Proof.
  intros HL HL' Ht He s x Hl Hx Hlt Hok.
  destruct (geom_start_ok s L x t (dimN d) Hl ltac:(lia) Hx) as (s1 & E1 & O & G1 & D1 & P1).
  destruct (N.eqb_spec t 1) as [->|Hne]; [lia|]. specialize (P1 Hne).
  destruct (He s1 0%N (op_level _ _ _ _ _ O) (op_zero _ _ _ _ _ O) ltac:(lia) (op_ok _ _ _ _ _ O)) as (s2 & E2 & F & D2 & X2 & O2).
  destruct (geom_end_ok s2 (L + 1) t (wrap32 (0 + n)) (data s ++ iso_header d t) bs) as (s3 & E3 & C & D3); auto.
  - rewrite (fr_level _ _ F). apply O.
  - lia.
  - rewrite (fr_gt _ _ F) by (rewrite (op_level _ _ _ _ _ O); lia). exact G1.
  - rewrite D2, (op_data _ _ _ _ _ O). unfold iso_header. rewrite type_code_iso by lia.
    repeat (rewrite <- app_assoc; cbn [app]). reflexivity.
  - rewrite (fr_pos _ _ F) by (rewrite (op_level _ _ _ _ _ O); lia). rewrite P1. f_equal. f_equal.
    rewrite app_length. unfold iso_header. cbn [app length]. rewrite le_bytes_length. reflexivity.
  - exists s3. split.
    + cbn [app]. rewrite (feed_cons_ok _ _ _ _ _ E1), (feed_app_ok _ _ _ _ _ E2). cbn [feed]. rewrite E3. reflexivity.
    + destruct (open_close s s1 s2 s3 L x _ Hl O F C) as (F' & X' & O').
      split; [exact F'|]. split; [|split; assumption].
      rewrite D3, le_bytes_wrap32, N.add_0_l. rewrite <- app_assoc. reflexivity.
Qed.

Lemma delivers_point L d cs evs : 0 <= L -> L + 1 <= 30 -> (length cs <= 1)%nat -> seq_events d cs evs ->
  delivers L ([EGeomStart 1 (dimN d)] ++ evs ++ [EGeomEnd]) (iso_wkb (GPoint d cs)) 1.
Proof.
  intros HL HL' Hlen He s x Hl Hx Hlt Hok.
  destruct (geom_start_ok s L x 1 (dimN d) Hl ltac:(lia) Hx) as (s1 & E1 & O & G1 & D1 & _).
  change (1 =? 1)%N with true in O. cbv iota in O.
  destruct (delivers_seq (L + 1) d cs evs ltac:(lia) He s1 0%N (op_level _ _ _ _ _ O) (op_zero _ _ _ _ _ O) ltac:(lia) (op_ok _ _ _ _ _ O))
    as (s2 & E2 & F & D2 & X2 & O2).
  destruct (point_end_ok s2 (L + 1) (wrap32 (0 + N.of_nat (length cs))) d) as (s3 & E3 & C & D3); auto.
  - rewrite (fr_level _ _ F). apply O.
  - lia.
  - rewrite D2, (op_data _ _ _ _ _ O). destruct (data s); discriminate.
  - rewrite (fr_gt _ _ F) by (rewrite (op_level _ _ _ _ _ O); lia). exact G1.
  - rewrite (fr_dims _ _ F) by (rewrite (op_level _ _ _ _ _ O); lia). exact D1.
  - exists s3. split.
    + cbn [app]. rewrite (feed_cons_ok _ _ _ _ _ E1), (feed_app_ok _ _ _ _ _ E2). cbn [feed]. rewrite E3. reflexivity.
    + destruct (open_close s s1 s2 s3 L x _ Hl O F C) as (F' & X' & O').
      split; [exact F'|]. split; [|split; assumption].
      rewrite D3, D2, (op_data _ _ _ _ _ O). rewrite wrap32_id by lia.
      rewrite type_code_iso by lia.
      destruct cs as [|c [|c2 cs]]; [| |cbn in Hlen; lia]; cbn [length iso_wkb];
        match goal with |- context [if (?a =? 0)%N then _ else _] =>
          let v := eval vm_compute in (a =? 0)%N in change (a =? 0)%N with v end; cbv iota;
        unfold iso_header; rewrite ?app_nil_r; repeat (rewrite <- app_assoc; cbn [app]); reflexivity.
Qed.

Lemma iso_wkb_coll k d parts :
  iso_wkb (GColl k d parts) = iso_header d (coll_code k) ++ le_bytes 4 (N.of_nat (length parts)) ++ flat_map iso_wkb parts.
Proof. reflexivity. Qed.

Lemma delivers_geom g : wf_geom g -> forall L evs, 0 <= L -> L + Z.of_nat (nesting g) <= 30 -> geom_events g evs ->
  delivers L evs (iso_wkb g) 1.
Proof.
  induction g as [d cs|d cs|d rings|k d parts IH] using geom_ind'; intros Hwf L evs HL Hn He;
    inversion He; inversion Hwf; subst.
  - cbn [nesting] in Hn. apply delivers_point; [exact HL|lia|assumption|assumption].
  - cbn [nesting] in Hn. cbn [iso_wkb]. apply delivers_counted; [exact HL|lia|lia|].
    eapply delivers_seq; [lia|eassumption].
  - assert (L + 1 <= 30) by (destruct rings; cbn [nesting] in Hn; lia).
    cbn [iso_wkb]. apply delivers_counted; [exact HL|lia|lia|].
    eapply delivers_rings; [lia| |eassumption].
    intros Hr. destruct rings; [congruence|]. cbn [nesting] in Hn. lia.
  - rewrite nesting_coll in Hn. rewrite iso_wkb_coll.
    apply delivers_counted; [exact HL|lia|destruct k; cbn; lia|].
    assert (Z.of_nat (nestings parts) <= 30 - (L + 1)) as Hns by lia.
    match goal with H : wf_geoms parts |- _ => apply wf_geoms_Forall in H; rename H into Hwfs end.
    match goal with H : parts_events parts _ |- _ => rename H into Hp end.
    clear He Hwf Hn.
    revert Hwfs Hns e Hp. induction IH as [|g gs Hg Hgs IHgs]; intros Hwfs Hns e Hp; inversion Hp; subst.
    + apply delivers_nil.
    + inversion Hwfs; subst. rewrite nestings_cons in Hns. cbn [flat_map length].
      replace (N.of_nat (S (length gs))) with (1 + N.of_nat (length gs))%N by lia.
      apply delivers_app.
      * apply Hg; [assumption|lia|lia|assumption].
      * apply IHgs; [assumption|lia|assumption].
Qed.
