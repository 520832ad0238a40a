From Verif Require Import Base BaseFacts TypesModel GeomSpec GeomFacts NodesModel NodesSpec VisitorModel VisitorSpec VisitorFacts
  BufferModel BufferFacts GeomVisitModel GeomVisitProofs WkbSpec WkbReaderProofs WkbWriterHistory CopyCoordsModel
  GeomBuildModel GeomBuildSpec GeomBuildProofs GeomBuildRoll.
Local Open Scope Z_scope.

(** ** Reachable states have a block *)

Lemma reserve_blk s n s' : reserve_coords s n = Ok s' -> (1 <= g_blk s)%nat -> (1 <= g_blk s')%nat.
Proof.
  unfold reserve_coords. destruct (_ <? _).
  - destruct (rebase_nodes _ _ _); cbn [obind]; try discriminate. intros H; injection H as <-. cbn. lia.
  - intros H; injection H as <-. auto.
Qed.

Lemma geom_start_blk s t d s' c : g_geom_start s t d = VRet s' c -> (1 <= g_blk s)%nat -> (1 <= g_blk s')%nat.
Proof.
  intros H Hb. unfold g_geom_start in H. destruct (is_sequence t).
  - destruct (num_dimensions _) as [n|]; cbn [or_ub obind] in H; [|discriminate].
    destruct (reserve_coords s n) as [s1| | |] eqn:E; cbn [obind] in H; try discriminate.
    apply reserve_blk in E; [|exact Hb]. destruct (_ =? _); injection H as <- <-; exact E.
  - destruct (_ =? _); injection H as <- <-; exact Hb.
Qed.

Lemma step_blk s e s' c : geom_step s e = VRet s' c -> (1 <= g_blk s)%nat -> (1 <= g_blk s')%nat.
Proof.
  destruct e; cbn [geom_step]; intros H Hb.
  - injection H as <- <-. exact Hb.
  - injection H as <- <-. exact Hb.
  - eapply geom_start_blk; eassumption.
  - unfold g_ring_start in H. destruct (rev _); [injection H as <- <-; exact Hb|]. eapply geom_start_blk; eassumption.
  - unfold g_coords_event in H. destruct (g_nodes s); [injection H as <- <-; exact Hb|].
    destruct (reserve_coords _ _) as [s1| | |] eqn:E; try discriminate. apply reserve_blk in E; [|exact Hb].
    injection H as <- <-. exact E.
  - unfold g_end in H. destruct (_ =? _); injection H as <- <-; exact Hb.
  - unfold g_end in H. destruct (_ =? _); injection H as <- <-; exact Hb.
  - unfold g_feat_end in H. destruct (g_nodes s); [injection H as <- <-; exact Hb|].
    destruct (_ =? _); [injection H as <- <-; exact Hb|]. destruct (roll _ _ _) as [[[? ?] ?]| | |]; try discriminate.
    injection H as <- <-. exact Hb.
Qed.

Lemma feed_blk evs : forall s s' c, feed geom_step s evs = Some (s', c) -> (1 <= g_blk s)%nat -> (1 <= g_blk s')%nat.
Proof.
  induction evs as [|e evs IH]; intros s s' c H Hb; cbn [feed] in H; [injection H as <- <-; exact Hb|].
  destruct (geom_step s e) as [s1 c1|] eqn:E; [|discriminate]. apply step_blk in E; [|exact Hb].
  destruct (c1 =? 0); [eapply IH; eassumption|]. injection H as <- <-. exact E.
Qed.

Lemma reachable_blk s : g_reachable s -> (1 <= g_blk s)%nat.
Proof.
  intros (calls & H). assert (1 <= g_blk g_init)%nat as H0 by (cbn; lia). revert H H0. generalize g_init as s0.
  induction calls as [|evs calls IH]; intros s0 H Hb; cbn [feed_each] in H; [injection H as <-; exact Hb|].
  destruct (feed geom_step s0 evs) as [[s1 c1]|] eqn:E; [|discriminate]. eapply IH; [exact H|]. eapply feed_blk; eassumption.
Qed.

(** ** No undefined behaviour between a feat_start and the first error *)

Definition sound (b : nat) (nd : node) : Prop :=
  (nd_level nd <= 30)%N /\ (1 <= nd_dims nd <= 4)%N /\
  (is_sequence (nd_type nd) = true -> (exists z, q0 (nd_coords nd) = (b, z)) /\ q0 (nd_stride nd) <> 0).

Lemma sound_move b b' nd : (1 <= b)%nat -> sound b nd -> sound b' (move b' nd).
Proof.
  intros Hb (A & B & C). split; [exact A|]. split; [exact B|]. intros H. destruct (C H) as [(z & E) S]. split; [|exact S].
  exists z. cbn [move nd_coords q0]. rewrite E. apply move_ptr_block, Hb.
Qed.

Record sinv (s : gstate) : Prop := {
  si_home : home s;
  si_level : 0 <= g_level s <= 31;
  si_sound : Forall (sound (g_blk s)) (g_nodes s)
}.

Lemma sinv_grown s s' ns bs lvl : sinv s -> grown s s' ns bs lvl -> 0 <= lvl <= 31 -> Forall (sound (g_blk s')) (ns (g_blk s')) -> sinv s'.
Proof.
  intros [Hh Hl Hs] [A B C D] Hlvl Hn. split; [exact A|lia|]. rewrite B. apply Forall_app. split; [|exact Hn].
  apply Forall_map. eapply Forall_impl; [|exact Hs]. intros nd. apply sound_move, Hh.
Qed.

Lemma sound_seq b ty d lvl off cs : (lvl <= 30)%N -> sound b (seq_at false b ty d lvl off cs).
Proof.
  intros Hl. destruct d; (split; [exact Hl|split; [cbn; lia|]]); intros _; (split; [eexists; reflexivity|cbn; discriminate]).
Qed.

Lemma dims_dimN d : (1 <= d <= 4)%N -> exists dd, d = dimN dd.
Proof.
  intros H. assert (d = 1 \/ d = 2 \/ d = 3 \/ d = 4)%N as [->|[->|[->| ->]]] by lia;
    [exists XY|exists XYZ|exists XYM|exists XYZM]; reflexivity.
Qed.

Lemma safe_geom_start s t d : sinv s -> (t <= 7 \/ t = 990)%N -> (1 <= d <= 4)%N ->
  exists s' c, g_geom_start s t d = VRet s' c /\ (c = 0 -> sinv s').
Proof.
  intros Hi Ht Hd. pose proof (si_home s Hi) as Hh. pose proof (si_level s Hi) as Hl.
  destruct (dims_dimN d Hd) as (dd & ->).
  destruct (is_sequence t) eqn:Eseq.
  - assert (t = 1 \/ t = 2)%N as Ht12.
    { unfold is_sequence in Eseq. destruct (N.eqb_spec t 1); [auto|]. destruct (N.eqb_spec t 2); [auto|discriminate]. }
    destruct (Z.eq_dec (g_level s) 31) as [E31|E31].
    + destruct (geom_start_full s t dd Hh E31 ltac:(lia)) as (s' & E). exists s', EINVAL. split; [exact E|discriminate].
    + destruct (geom_start_seq s t dd [] Hh ltac:(lia) Ht12) as (s' & E & G). exists s', 0. split; [exact E|]. intros _.
      eapply sinv_grown; [exact Hi|exact G|lia|]. constructor; [|constructor]. apply sound_seq. lia.
  - unfold g_geom_start. rewrite Eseq, dimN_mod. unfold MAX_NESTING.
    destruct (Z.eqb_spec (g_level s) 31); do 2 eexists; (split; [reflexivity|]); [discriminate|]. intros _.
    split; cbn [add_node g_nodes g_coords g_blk g_level].
    + split; cbn [g_nodes g_blk]; [apply Hh|]. apply Forall_app. split; [apply Hh|]. constructor; [|constructor].
      unfold at_block, at_ptr. cbn. auto.
    + lia.
    + apply Forall_app. split; [apply Hi|]. constructor; [|constructor]. split; [|split].
      * cbn [nd_level]. rewrite level_mod by lia. lia.
      * cbn [nd_dims]. exact Hd.
      * cbn [nd_type]. intros H. exfalso. destruct Ht as [Ht| ->]; [|discriminate H].
        rewrite N.mod_small in H by lia. congruence.
Qed.

Definition full_sizes (sizes : arr32 N) : Prop := forall j, 0 <= j < 32 -> exists n, aget sizes j = Some n.

Lemma full_aset sizes i v s' : full_sizes sizes -> aset sizes i v = Some s' -> full_sizes s'.
Proof. intros H E j Hj. rewrite (aget_aset _ _ _ _ E). destruct (j =? i); [eauto|apply H, Hj]. Qed.

Lemma roll_node_safe b nd z sizes : sound b nd -> at_block b nd -> full_sizes sizes ->
  exists nd' z' sizes', roll_node nd (b, z) sizes = Ok (nd', (b, z'), sizes') /\ full_sizes sizes' /\ sound b nd' /\ at_block b nd'.
Proof.
  intros (Hl & Hd & Hs) Hat Hf. unfold roll_node.
  destruct (Hf (Z.of_N (nd_level nd)) ltac:(lia)) as (n & En). rewrite En. cbn [or_ub obind].
  destruct (aset_some sizes (Z.of_N (nd_level nd)) (wrap32 (n + 1)) ltac:(lia)) as (s1 & E1). rewrite E1. cbn [or_ub obind].
  pose proof (full_aset _ _ _ _ Hf E1) as F1.
  destruct (is_sequence (nd_type nd)) eqn:Et.
  - destruct (Hs eq_refl) as [(z0 & Ez) Hst]. rewrite Ez. cbn [fst snd]. rewrite Nat.eqb_refl. cbn [negb].
    destruct (Z.eqb_spec (q0 (nd_stride nd)) 0); [contradiction|].
    do 3 eexists. split; [reflexivity|]. split; [exact F1|]. split; [|exact Hat].
    split; [exact Hl|]. split; [exact Hd|]. intros _. split; [exists z0; exact Ez|exact Hst].
  - destruct (_ && _).
    + destruct (F1 (Z.of_N (nd_level nd) + 1) ltac:(lia)) as (k & Ek). rewrite Ek. cbn [or_ub obind].
      destruct (aset_some s1 (Z.of_N (nd_level nd) + 1) 0%N ltac:(lia)) as (s2 & E2). rewrite E2. cbn [or_ub obind].
      do 3 eexists. split; [reflexivity|]. split; [exact (full_aset _ _ _ _ F1 E2)|]. split; [|exact Hat].
      split; [exact Hl|]. split; [exact Hd|]. cbn [with_size nd_type]. rewrite Et. discriminate.
    + do 3 eexists. split; [reflexivity|]. split; [exact F1|]. split; [|exact Hat].
      split; [exact Hl|]. split; [exact Hd|]. rewrite Et. discriminate.
Qed.

Lemma roll_safe b ns : Forall (sound b) ns -> Forall (at_block b) ns -> forall z sizes, full_sizes sizes ->
  exists ns' z' sizes', roll ns (b, z) sizes = Ok (ns', (b, z'), sizes') /\ full_sizes sizes' /\ Forall (sound b) ns' /\ Forall (at_block b) ns'.
Proof.
  induction 1 as [|nd ns Hnd _ IH]; intros Hat z sizes Hf; cbn [roll].
  - exists [], z, sizes. auto.
  - inversion Hat; subst. destruct (IH ltac:(assumption) z sizes Hf) as (ns' & z1 & s1 & -> & F1 & S1 & A1). cbn [obind].
    destruct (roll_node_safe b nd z1 s1 Hnd ltac:(assumption) F1) as (nd' & z2 & s2 & -> & F2 & S2 & A2). cbn [obind].
    exists (nd' :: ns'), z2, s2. auto.
Qed.

Lemma step_safe s e : sinv s -> plain_event e -> exists s' c, geom_step s e = VRet s' c /\ (c = 0 -> sinv s').
Proof.
  intros Hi He. pose proof (si_home s Hi) as Hh. pose proof (si_level s Hi) as Hl. pose proof (si_sound s Hi) as Hs.
  destruct e; cbn [geom_step plain_event] in *.
  - do 2 eexists. split; [reflexivity|]. intros _. split; cbn [g_level g_nodes g_blk]; [split; [apply Hh|constructor]|lia|constructor].
  - contradiction.
  - destruct He as [Ht Hd]. apply safe_geom_start; assumption.
  - unfold g_ring_start. destruct (rev (g_nodes s)) as [|nd r] eqn:E; [do 2 eexists; split; [reflexivity|discriminate]|].
    apply safe_geom_start; [exact Hi|left; lia|].
    assert (In nd (g_nodes s)) as Hin by (apply in_rev; rewrite E; left; reflexivity).
    exact (proj1 (proj2 (proj1 (Forall_forall _ _) Hs nd Hin))).
  - destruct (g_nodes s) as [|nd ns] eqn:E.
    + unfold g_coords_event. rewrite E. do 2 eexists. split; [reflexivity|discriminate].
    + destruct (coords_ok s n_values cs Hh ltac:(rewrite E; discriminate)) as (s' & E' & G). exists s', 0. split; [exact E'|]. intros _.
      eapply sinv_grown; [exact Hi|exact G|exact Hl|constructor].
  - destruct (Z.eq_dec (g_level s) 0) as [E0|E0].
    + unfold g_end. rewrite E0. do 2 eexists. split; [reflexivity|discriminate].
    + destruct (end_ok s Hh ltac:(lia)) as (s' & E' & G). exists s', 0. split; [exact E'|]. intros _.
      eapply sinv_grown; [exact Hi|exact G|lia|constructor].
  - destruct (Z.eq_dec (g_level s) 0) as [E0|E0].
    + unfold g_end. rewrite E0. do 2 eexists. split; [reflexivity|discriminate].
    + destruct (end_ok s Hh ltac:(lia)) as (s' & E' & G). exists s', 0. split; [exact E'|]. intros _.
      eapply sinv_grown; [exact Hi|exact G|lia|constructor].
  - unfold g_feat_end. destruct (g_nodes s) as [|nd ns] eqn:E; [do 2 eexists; split; [reflexivity|discriminate]|].
    destruct (_ =? _); [do 2 eexists; split; [reflexivity|intros _; exact Hi]|]. rewrite <- E in *.
    destruct (roll_safe (g_blk s) (g_nodes s) Hs (proj2 Hh) (b_size (g_coords s)) zero_sizes) as (ns' & z & sz & -> & _ & S & A).
    { intros j Hj. exists 0%N. unfold aget, in32, zero_sizes. destruct (_ && _) eqn:Ej; [reflexivity|lia]. }
    do 2 eexists. split; [reflexivity|]. intros _. split; cbn [g_nodes g_blk g_level]; [split; [apply Hh|exact A]|exact Hl|exact S].
Qed.

Lemma feed_safe evs : Forall plain_event evs -> forall s, sinv s -> feed geom_step s evs <> None.
Proof.
  induction 1 as [|e evs He _ IH]; intros s Hi; cbn [feed]; [discriminate|].
  destruct (step_safe s e Hi He) as (s' & c & -> & Hc). destruct (Z.eqb_spec c 0) as [->|]; [apply IH, Hc, eq_refl|discriminate].
Qed.

Theorem build_safe s evs : g_reachable s -> Forall plain_event evs -> feed geom_step s (EFeatStart :: evs) <> None.
Proof.
  intros Hr He. pose proof (reachable_blk s Hr) as Hb. cbn [feed geom_step g_feat_start]. change (0 =? 0) with true. cbv iota.
  apply feed_safe; [exact He|]. split; cbn [g_level g_nodes g_blk]; [split; [exact Hb|constructor]|lia|constructor].
Qed.

Theorem build_null s : g_reachable s ->
  exists s', feed geom_step s [EFeatStart; ENullFeat; EFeatEnd] = Some (s', 0) /\ g_nodes s' = [fresh_node].
Proof. intros _. eexists. split; reflexivity. Qed.
