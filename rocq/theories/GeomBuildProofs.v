From Verif Require Import Base BaseFacts TypesModel GeomSpec GeomFacts NodesModel NodesSpec VisitorModel VisitorSpec VisitorFacts
  BufferModel BufferFacts GeomVisitModel GeomVisitProofs WkbSpec WkbReaderProofs WkbWriterHistory CopyCoordsModel
  GeomBuildModel GeomBuildSpec.
Local Open Scope Z_scope.

(** ** Moving nodes between blocks *)

Definition move_ptr (b : nat) (p : ptr) : ptr := if ptr_eqb p nan_ptr then p else (b, snd p).
Definition at_ptr (b : nat) (p : ptr) : Prop := p = nan_ptr \/ fst p = b.
Definition move (b : nat) (nd : node) : node :=
  let q := nd_coords nd in
  {| nd_coords := Quad (move_ptr b (q0 q)) (move_ptr b (q1 q)) (move_ptr b (q2 q)) (move_ptr b (q3 q));
     nd_stride := nd_stride nd; nd_size := nd_size nd; nd_type := nd_type nd;
     nd_dims := nd_dims nd; nd_swap := nd_swap nd; nd_level := nd_level nd |}.
Definition at_block (b : nat) (nd : node) : Prop :=
  let q := nd_coords nd in at_ptr b (q0 q) /\ at_ptr b (q1 q) /\ at_ptr b (q2 q) /\ at_ptr b (q3 q).

Lemma ptr_eqb_spec a b : reflect (a = b) (ptr_eqb a b).
Proof.
  destruct a as [a x], b as [b y]. unfold ptr_eqb. cbn [fst snd].
  destruct (Nat.eqb_spec a b), (Z.eqb_spec x y); cbn [andb]; constructor; congruence.
Qed.

Lemma rebase_ptr_ok old new p : at_ptr old p -> rebase_ptr old new p = Ok (move_ptr new p).
Proof.
  unfold rebase_ptr, move_ptr. destruct (ptr_eqb_spec p nan_ptr) as [|Hn]; [reflexivity|].
  intros [H|H]; [contradiction|]. rewrite H, Nat.eqb_refl. reflexivity.
Qed.

Lemma rebase_nodes_ok old new ns : Forall (at_block old) ns -> rebase_nodes old new ns = Ok (map (move new) ns).
Proof.
  induction 1 as [|nd ns (A & B & C & D) _ IH]; [reflexivity|]. cbn [rebase_nodes map].
  rewrite !rebase_ptr_ok by assumption. cbn [obind]. rewrite IH. reflexivity.
Qed.

Lemma move_ptr_at b p : at_ptr b (move_ptr b p).
Proof. unfold move_ptr, at_ptr. destruct (ptr_eqb_spec p nan_ptr); [left; assumption|right; reflexivity]. Qed.
Lemma move_at b nd : at_block b (move b nd).
Proof. unfold at_block, move. cbn. repeat split; apply move_ptr_at. Qed.

Lemma move_ptr_id b p : at_ptr b p -> move_ptr b p = p.
Proof. unfold move_ptr. destruct (ptr_eqb_spec p nan_ptr); [reflexivity|]. intros [|<-]; [contradiction|]. destruct p; reflexivity. Qed.
Lemma move_id b nd : at_block b nd -> move b nd = nd.
Proof.
  destruct nd as [[a b' c d] ? ? ? ? ? ?]. unfold at_block, move. cbn. intros (A & B & C & D).
  rewrite !move_ptr_id by assumption. reflexivity.
Qed.
Lemma moves_id b ns : Forall (at_block b) ns -> map (move b) ns = ns.
Proof. induction 1 as [|nd ns H _ IH]; [reflexivity|]. cbn [map]. rewrite IH, move_id by exact H. reflexivity. Qed.

Lemma move_ptr_move b b' p : (1 <= b)%nat -> move_ptr b' (move_ptr b p) = move_ptr b' p.
Proof.
  intros Hb. unfold move_ptr at 2. destruct (ptr_eqb_spec p nan_ptr); [reflexivity|].
  unfold move_ptr. destruct (ptr_eqb_spec p nan_ptr); [contradiction|].
  destruct (ptr_eqb_spec (b, snd p) nan_ptr) as [E|]; [|reflexivity]. unfold nan_ptr in E. injection E. lia.
Qed.
Lemma move_move b b' nd : (1 <= b)%nat -> move b' (move b nd) = move b' nd.
Proof. intros Hb. unfold move. cbn. rewrite !move_ptr_move by exact Hb. reflexivity. Qed.
Lemma moves_move b b' ns : (1 <= b)%nat -> map (move b') (map (move b) ns) = map (move b') ns.
Proof. intros Hb. rewrite map_map. apply map_ext. intros nd. apply move_move, Hb. Qed.

(** ** The nodes of a geometry during ([fin = false]) and after ([fin = true]) the visit *)

Definition blank (fin : bool) (ty : N) (d : dim) (lvl : N) (n : nat) : node :=
  {| nd_coords := qconst nan_ptr; nd_stride := qconst 0; nd_size := if fin then N.of_nat n else 0%N; nd_type := ty;
     nd_dims := dimN d; nd_swap := false; nd_level := lvl |}.
Definition seq_at (fin : bool) (b : nat) (ty : N) (d : dim) (lvl : N) (off : Z) (cs : list coord) : node :=
  point_at (ndim d) 0 (b, off) (Z.of_nat (ndim d) * 8) (blank fin ty d lvl (length cs)).

Definition span (cs : list coord) : Z := Z.of_nat (length (enc_coords LE cs)).
Definition gbytes (g : geom) : bytes := enc_coords LE (map snd (geom_coords g)).
Definition gspan (g : geom) : Z := Z.of_nat (length (gbytes g)).

Fixpoint rings_at (fin : bool) (b : nat) (d : dim) (lvl : N) (off : Z) (rings : list (list coord)) : list node :=
  match rings with
  | [] => []
  | cs :: r => seq_at fin b 2 d lvl off cs :: rings_at fin b d lvl (off + span cs) r
  end.

Fixpoint geom_at (fin : bool) (b : nat) (lvl : N) (off : Z) (g : geom) : list node :=
  match g with
  | GPoint d cs => [seq_at fin b 1 d lvl off cs]
  | GLine d cs => [seq_at fin b 2 d lvl off cs]
  | GPoly d rings => blank fin 3 d lvl (length rings) :: rings_at fin b d (lvl + 1) off rings
  | GColl k d parts =>
      blank fin (coll_code k) d lvl (length parts) ::
      (fix go off gs := match gs with [] => [] | g :: gs => geom_at fin b (lvl + 1) off g ++ go (off + gspan g) gs end) off parts
  end.
Fixpoint parts_at (fin : bool) (b : nat) (lvl : N) (off : Z) (gs : list geom) : list node :=
  match gs with [] => [] | g :: gs => geom_at fin b lvl off g ++ parts_at fin b lvl (off + gspan g) gs end.

Lemma geom_at_coll fin b lvl off k d parts :
  geom_at fin b lvl off (GColl k d parts) = blank fin (coll_code k) d lvl (length parts) :: parts_at fin b (lvl + 1) off parts.
Proof.
  cbn [geom_at]. f_equal. revert off; induction parts as [|g gs IH]; intros off; cbn [parts_at]; [reflexivity|].
  rewrite IH. reflexivity.
Qed.

Lemma enc_coords_app e a b : enc_coords e (a ++ b) = enc_coords e a ++ enc_coords e b.
Proof. apply flat_map_app. Qed.

Lemma span_app a b : span (a ++ b) = span a + span b.
Proof. unfold span. rewrite enc_coords_app, app_length. lia. Qed.
Lemma span_wf d cs : wf_seq d cs -> span cs = Z.of_nat (length cs) * (Z.of_nat (ndim d) * 8).
Proof. intros H. unfold span. rewrite (enc_coords_length LE d cs H). lia. Qed.

Definition rings_bytes (rings : list (list coord)) : bytes := enc_coords LE (concat rings).
Lemma map_snd_pair (d : dim) (cs : list coord) : map snd (map (pair d) cs) = cs.
Proof. rewrite map_map. apply map_id. Qed.
Lemma gbytes_point d cs : gbytes (GPoint d cs) = enc_coords LE cs.
Proof. unfold gbytes. cbn [geom_coords]. rewrite map_snd_pair. reflexivity. Qed.
Lemma gbytes_line d cs : gbytes (GLine d cs) = enc_coords LE cs.
Proof. unfold gbytes. cbn [geom_coords]. rewrite map_snd_pair. reflexivity. Qed.
Lemma gbytes_poly d rings : gbytes (GPoly d rings) = rings_bytes rings.
Proof. unfold gbytes. cbn [geom_coords]. rewrite map_snd_pair. reflexivity. Qed.
Lemma gbytes_coll k d parts : gbytes (GColl k d parts) = flat_map gbytes parts.
Proof.
  unfold gbytes. rewrite geom_coords_coll. induction parts as [|g gs IH]; [reflexivity|].
  cbn [flat_map]. rewrite map_app, enc_coords_app, IH. reflexivity.
Qed.

(** Families of nodes that follow their block. *)
Definition mobile (ns : nat -> list node) : Prop := forall b, (1 <= b)%nat ->
  Forall (at_block b) (ns b) /\ forall b', (1 <= b')%nat -> map (move b') (ns b) = ns b'.

Lemma mobile_app n1 n2 : mobile n1 -> mobile n2 -> mobile (fun b => n1 b ++ n2 b).
Proof.
  intros H1 H2 b Hb. destruct (H1 b Hb) as [A1 B1], (H2 b Hb) as [A2 B2]. split.
  - apply Forall_app; split; assumption.
  - intros b' Hb'. rewrite map_app, B1, B2 by exact Hb'. reflexivity.
Qed.
Lemma mobile_nil : mobile (fun _ => []).
Proof. intros b Hb. split; [constructor|reflexivity]. Qed.

Lemma blank_mobile fin ty d lvl n : mobile (fun _ => [blank fin ty d lvl n]).
Proof.
  intros b Hb. split.
  - constructor; [|constructor]. unfold at_block, at_ptr. cbn. auto.
  - reflexivity.
Qed.

Lemma move_ptr_block b b' z : (1 <= b)%nat -> move_ptr b' (b, z) = (b', z).
Proof. intros Hb. unfold move_ptr. destruct (ptr_eqb_spec (b, z) nan_ptr) as [E|]; [|reflexivity]. unfold nan_ptr in E. injection E. lia. Qed.

Lemma seq_mobile fin ty d lvl off cs : mobile (fun b => [seq_at fin b ty d lvl off cs]).
Proof.
  intros b Hb. split.
  - constructor; [|constructor]. destruct d; unfold at_block, at_ptr, seq_at, blank; cbn; auto.
  - intros b' Hb'. cbn [map]. f_equal.
    destruct d; unfold seq_at, blank, move; cbn; unfold ptr_add; cbn [fst snd]; rewrite !move_ptr_block by exact Hb; reflexivity.
Qed.

Lemma rings_mobile fin d lvl rings : forall off, mobile (fun b => rings_at fin b d lvl off rings).
Proof.
  induction rings as [|cs r IH]; intros off; cbn [rings_at]; [apply mobile_nil|].
  apply (mobile_app (fun b => [seq_at fin b 2 d lvl off cs])); [apply seq_mobile|apply IH].
Qed.

Lemma geom_mobile fin g : forall lvl off, mobile (fun b => geom_at fin b lvl off g).
Proof.
  induction g as [d cs|d cs|d rings|k d parts IH] using geom_ind'; intros lvl off.
  - apply seq_mobile.
  - apply seq_mobile.
  - apply (mobile_app (fun _ => [blank fin 3 d lvl (length rings)])); [apply blank_mobile|apply rings_mobile].
  - assert (mobile (fun b => parts_at fin b (lvl + 1) off parts)) as H.
    { revert off; induction IH as [|g gs Hg _ IHgs]; intros off; cbn [parts_at]; [apply mobile_nil|].
      apply (mobile_app (fun b => geom_at fin b (lvl + 1) off g)); [apply Hg|apply IHgs]. }
    pose proof (mobile_app _ _ (blank_mobile fin (coll_code k) d lvl (length parts)) H) as M.
    intros b Hb. destruct (M b Hb) as [A B]. split.
    + rewrite geom_at_coll. exact A.
    + intros b' Hb'. rewrite !geom_at_coll. apply B, Hb'.
Qed.

(** ** States *)

Definition home (s : gstate) : Prop := (1 <= g_blk s)%nat /\ Forall (at_block (g_blk s)) (g_nodes s).

(** From [s] to [s'] the nodes moved, the family [ns] and the bytes [bs] were added, and the level became [lvl]. *)
Record grown (s s' : gstate) (ns : nat -> list node) (bs : bytes) (lvl : Z) : Prop := {
  gr_home : home s';
  gr_nodes : g_nodes s' = map (move (g_blk s')) (g_nodes s) ++ ns (g_blk s');
  gr_data : b_data (g_coords s') = b_data (g_coords s) ++ bs;
  gr_level : g_level s' = lvl
}.

Lemma grown_trans s s1 s2 n1 n2 b1 b2 l1 l2 : home s -> mobile n1 ->
  grown s s1 n1 b1 l1 -> grown s1 s2 n2 b2 l2 -> grown s s2 (fun b => n1 b ++ n2 b) (b1 ++ b2) l2.
Proof.
  intros Hs M1 [H1 N1 D1 L1] [H2 N2 D2 L2]. split; [exact H2| | |exact L2].
  - rewrite N2, N1, map_app, moves_move, <- app_assoc by apply H1.
    destruct (M1 (g_blk s1) (proj1 H1)) as [_ E]. rewrite (E (g_blk s2) (proj1 H2)). reflexivity.
  - rewrite D2, D1, app_assoc. reflexivity.
Qed.

Lemma grown_ext s s' ns ns' bs bs' l : (forall b, ns b = ns' b) -> bs = bs' -> grown s s' ns bs l -> grown s s' ns' bs' l.
Proof. intros E <- [A B C D]. split; [exact A| |exact C|exact D]. rewrite <- E. exact B. Qed.

Lemma reserve_ok s n : home s -> exists s', reserve_coords s n = Ok s' /\ grown s s' (fun _ => []) [] (g_level s).
Proof.
  intros [Hb Hn]. unfold reserve_coords. destruct (_ <? _).
  - rewrite (rebase_nodes_ok _ _ _ Hn). cbn [obind]. eexists. split; [reflexivity|]. split; cbn.
    + split; cbn; [lia|]. apply Forall_map, Forall_forall. intros nd _. apply move_at.
    + rewrite app_nil_r. reflexivity.
    + rewrite buf_append_data, buf_reserve_data, app_nil_r. reflexivity.
    + reflexivity.
  - exists s. split; [reflexivity|]. split; [split; assumption| | |reflexivity].
    + rewrite app_nil_r, moves_id by exact Hn. reflexivity.
    + rewrite app_nil_r. reflexivity.
Qed.

Lemma dimN_mod d : (dimN d mod 256)%N = dimN d.
Proof. destruct d; reflexivity. Qed.

Lemma level_mod l : 0 <= l <= 31 -> Z.to_N (l mod 256) = Z.to_N l.
Proof. intros H. rewrite Z.mod_small by lia. reflexivity. Qed.

Lemma geom_start_seq s ty d cs : home s -> 0 <= g_level s < 31 -> ty = 1%N \/ ty = 2%N ->
  exists s', g_geom_start s ty (dimN d) = VRet s' 0 /\
    grown s s' (fun b => [seq_at false b ty d (Z.to_N (g_level s)) (b_size (g_coords s)) cs]) [] (g_level s + 1).
Proof.
  intros Hs Hl Hty. unfold g_geom_start.
  replace (is_sequence ty) with true by (destruct Hty; subst; reflexivity).
  replace (ty mod 256)%N with ty by (destruct Hty; subst; reflexivity).
  rewrite dimN_mod, level_mod by lia. rewrite num_dimensions_dimN. cbn [or_ub obind].
  destruct (reserve_ok s (Z.of_nat (ndim d)) Hs) as (s1 & -> & [H1 N1 D1 L1]). cbn [obind].
  unfold MAX_NESTING. destruct (Z.eqb_spec (g_level s) 31); [lia|].
  eexists. split; [reflexivity|]. rewrite Nat2Z.id. cbn [add_node g_nodes g_coords g_blk g_level].
  assert (b_size (g_coords s1) = b_size (g_coords s)) as Es by (unfold b_size; rewrite D1, app_nil_r; reflexivity).
  rewrite Es. split; cbn [g_nodes g_coords g_blk g_level].
  - split; cbn [g_nodes g_blk]; [apply H1|]. apply Forall_app. split; [apply H1|].
    exact (proj1 (seq_mobile false ty d (Z.to_N (g_level s)) (b_size (g_coords s)) cs (g_blk s1) (proj1 H1))).
  - rewrite N1, app_nil_r. reflexivity.
  - exact D1.
  - rewrite L1. reflexivity.
Qed.

Lemma geom_start_inner s ty d n : home s -> 0 <= g_level s < 31 -> (3 <= ty <= 7)%N ->
  exists s', g_geom_start s ty (dimN d) = VRet s' 0 /\
    grown s s' (fun _ => [blank false ty d (Z.to_N (g_level s)) n]) [] (g_level s + 1).
Proof.
  intros Hs Hl Hty. unfold g_geom_start, is_sequence.
  destruct (N.eqb_spec ty 1); [lia|]. destruct (N.eqb_spec ty 2); [lia|]. cbn [orb].
  rewrite dimN_mod, level_mod, N.mod_small by lia.
  unfold MAX_NESTING. destruct (Z.eqb_spec (g_level s) 31); [lia|].
  eexists. split; [reflexivity|]. split; cbn [add_node g_nodes g_coords g_blk g_level].
  - split; cbn [g_nodes g_blk]; [apply Hs|]. apply Forall_app. split; [apply Hs|].
    exact (proj1 (blank_mobile false ty d (Z.to_N (g_level s)) n (g_blk s) (proj1 Hs))).
  - rewrite moves_id by apply Hs. reflexivity.
  - rewrite app_nil_r. reflexivity.
  - reflexivity.
Qed.

Lemma end_ok s : home s -> 0 < g_level s -> exists s', g_end s = VRet s' 0 /\ grown s s' (fun _ => []) [] (g_level s - 1).
Proof.
  intros Hs Hl. unfold g_end. destruct (Z.eqb_spec (g_level s) 0); [lia|]. eexists. split; [reflexivity|].
  split; cbn [g_nodes g_coords g_blk g_level].
  - exact Hs.
  - rewrite app_nil_r, moves_id by apply Hs. reflexivity.
  - rewrite app_nil_r. reflexivity.
  - reflexivity.
Qed.

Lemma coords_ok s n cs : home s -> g_nodes s <> [] ->
  exists s', g_coords_event s n cs = VRet s' 0 /\ grown s s' (fun _ => []) (enc_coords LE cs) (g_level s).
Proof.
  intros Hs Hn. unfold g_coords_event. destruct (g_nodes s) as [|nd ns] eqn:E; [contradiction|].
  destruct (reserve_ok s (Z.of_nat (length cs) * Z.of_N n) Hs) as (s1 & -> & [H1 N1 D1 L1]).
  eexists. split; [reflexivity|]. split; cbn [g_nodes g_coords g_blk g_level b_data].
  - exact H1.
  - exact N1.
  - rewrite D1, app_nil_r. reflexivity.
  - exact L1.
Qed.

Lemma grown_nonempty s s' ns bs l : grown s s' ns bs l -> g_nodes s <> [] -> g_nodes s' <> [].
Proof. intros [_ N _ _] H. rewrite N. destruct (g_nodes s); [contradiction|discriminate]. Qed.

Lemma seq_feed d cs evs : seq_events d cs evs -> forall s, home s -> g_nodes s <> [] ->
  exists s', feed geom_step s evs = Some (s', 0) /\ grown s s' (fun _ => []) (enc_coords LE cs) (g_level s).
Proof.
  induction 1 as [|b cs evs H IH]; intros s Hs Hn.
  - exists s. split; [reflexivity|]. split; [exact Hs| | |reflexivity].
    + rewrite app_nil_r, moves_id by apply Hs. reflexivity.
    + rewrite app_nil_r. reflexivity.
  - destruct (coords_ok s (N.of_nat (ndim d)) b Hs Hn) as (s1 & E1 & G1).
    destruct (IH s1 (gr_home _ _ _ _ _ G1) (grown_nonempty _ _ _ _ _ G1 Hn)) as (s2 & E2 & G2).
    exists s2. split.
    + erewrite feed_cons_ok by exact E1. exact E2.
    + rewrite (gr_level _ _ _ _ _ G1) in G2. rewrite enc_coords_app.
      eapply grown_ext; [|reflexivity|exact (grown_trans _ _ _ _ _ _ _ _ _ Hs mobile_nil G1 G2)]. reflexivity.
Qed.

Lemma grown_size s s' ns bs l : grown s s' ns bs l -> b_size (g_coords s') = b_size (g_coords s) + Z.of_nat (length bs).
Proof. intros [_ _ D _]. unfold b_size. rewrite D, app_length. lia. Qed.

(** start, sequence, end *)
Lemma seq_geom_feed start s d cs e ty : home s -> 0 <= g_level s < 31 -> ty = 1%N \/ ty = 2%N ->
  geom_step s start = g_geom_start s ty (dimN d) -> seq_events d cs e -> forall end_, end_ = ERingEnd \/ end_ = EGeomEnd ->
  exists s', feed geom_step s (start :: e ++ [end_]) = Some (s', 0) /\
    grown s s' (fun b => [seq_at false b ty d (Z.to_N (g_level s)) (b_size (g_coords s)) cs]) (enc_coords LE cs) (g_level s).
Proof.
  intros Hs Hl Hty Est He end_ Hend.
  destruct (geom_start_seq s ty d cs Hs Hl Hty) as (s1 & E1 & G1).
  assert (g_nodes s1 <> []) as Hn1 by (rewrite (gr_nodes _ _ _ _ _ G1); destruct (map _ _); discriminate).
  destruct (seq_feed d cs e He s1 (gr_home _ _ _ _ _ G1) Hn1) as (s2 & E2 & G2).
  pose proof (gr_level _ _ _ _ _ G1) as L1. pose proof (gr_level _ _ _ _ _ G2) as L2.
  destruct (end_ok s2 (gr_home _ _ _ _ _ G2) ltac:(lia)) as (s3 & E3 & G3).
  exists s3. split.
  - rewrite (feed_cons_ok _ _ s1) by (rewrite Est; exact E1). rewrite (feed_app_ok _ _ s2) by exact E2.
    rewrite (feed_cons_ok _ _ s3) by (destruct Hend; subst end_; exact E3). reflexivity.
  - pose proof (grown_trans _ _ _ _ _ _ _ _ _ Hs (seq_mobile _ _ _ _ _ _) G1 G2) as G12.
    pose proof (grown_trans _ _ _ _ _ _ _ _ _ Hs (mobile_app _ _ (seq_mobile _ _ _ _ _ _) mobile_nil) G12 G3) as G.
    replace (g_level s2 - 1) with (g_level s) in G by lia.
    eapply grown_ext; [| |exact G].
    + reflexivity.
    + cbn [app]. apply app_nil_r.
Qed.

Lemma rings_feed d : forall rings e, ring_events d rings e -> forall s pre nd, home s -> 0 <= g_level s < 31 ->
  g_nodes s = pre ++ [nd] -> nd_dims nd = dimN d ->
  exists s', feed geom_step s e = Some (s', 0) /\
    grown s s' (fun b => rings_at false b d (Z.to_N (g_level s)) (b_size (g_coords s)) rings) (rings_bytes rings) (g_level s).
Proof.
  induction 1 as [|cs rings e1 e2 H1 H2 IH]; intros s pre nd Hs Hl Hn Hd.
  - exists s. split; [reflexivity|]. split; [exact Hs| | |reflexivity].
    + cbn [rings_at]. rewrite app_nil_r, moves_id by apply Hs. reflexivity.
    + rewrite app_nil_r. reflexivity.
  - assert (geom_step s ERingStart = g_geom_start s 2 (dimN d)) as Est.
    { cbn [geom_step]. unfold g_ring_start. rewrite Hn, rev_unit, Hd. reflexivity. }
    destruct (seq_geom_feed ERingStart s d cs e1 2 Hs Hl (or_intror eq_refl) Est H1 ERingEnd (or_introl eq_refl)) as (s1 & E1 & G1).
    destruct (IH s1 (map (move (g_blk s1)) (g_nodes s)) (seq_at false (g_blk s1) 2 d (Z.to_N (g_level s)) (b_size (g_coords s)) cs)) as (s2 & E2 & G2).
    + apply G1.
    + rewrite (gr_level _ _ _ _ _ G1). exact Hl.
    + apply G1.
    + destruct d; reflexivity.
    + exists s2. split.
      * replace (ERingStart :: e1 ++ [ERingEnd] ++ e2) with ((ERingStart :: e1 ++ [ERingEnd]) ++ e2)
          by (cbn [app]; rewrite <- app_assoc; reflexivity).
        rewrite (feed_app_ok _ _ s1) by exact E1. exact E2.
      * rewrite (gr_level _ _ _ _ _ G1), (grown_size _ _ _ _ _ G1) in G2.
        eapply grown_ext; [| |exact (grown_trans _ _ _ _ _ _ _ _ _ Hs (seq_mobile _ _ _ _ _ _) G1 G2)].
        -- intros b. reflexivity.
        -- unfold rings_bytes. cbn [concat]. rewrite enc_coords_app. reflexivity.
Qed.

Definition fed (g : geom) : Prop := forall e, geom_events g e -> forall s, home s -> 0 <= g_level s ->
  g_level s + Z.of_nat (nesting g) <= 31 ->
  exists s', feed geom_step s e = Some (s', 0) /\
    grown s s' (fun b => geom_at false b (Z.to_N (g_level s)) (b_size (g_coords s)) g) (gbytes g) (g_level s).

Lemma parts_feed gs : Forall fed gs -> forall e, parts_events gs e -> forall s, home s -> 0 <= g_level s ->
  g_level s + Z.of_nat (nestings gs) <= 31 ->
  exists s', feed geom_step s e = Some (s', 0) /\
    grown s s' (fun b => parts_at false b (Z.to_N (g_level s)) (b_size (g_coords s)) gs) (flat_map gbytes gs) (g_level s).
Proof.
  induction 1 as [|g gs Hg _ IH]; intros e He s Hs Hl Hnest; inversion He; subst.
  - exists s. split; [reflexivity|]. split; [exact Hs| | |reflexivity].
    + cbn [parts_at]. rewrite app_nil_r, moves_id by apply Hs. reflexivity.
    + rewrite app_nil_r. reflexivity.
  - rewrite nestings_cons in Hnest.
    destruct (Hg e1 ltac:(assumption) s Hs Hl ltac:(lia)) as (s1 & E1 & G1).
    pose proof (gr_level _ _ _ _ _ G1) as L1.
    destruct (IH e2 ltac:(assumption) s1 (gr_home _ _ _ _ _ G1) ltac:(lia) ltac:(lia)) as (s2 & E2 & G2).
    exists s2. split.
    + rewrite (feed_app_ok _ _ s1) by exact E1. exact E2.
    + rewrite L1, (grown_size _ _ _ _ _ G1) in G2.
      exact (grown_trans _ _ _ _ _ _ _ _ _ Hs (geom_mobile _ _ _ _) G1 G2).
Qed.

Lemma inner_feed s ty d n e ns bs : home s -> 0 <= g_level s < 31 -> (3 <= ty <= 7)%N -> mobile ns ->
  (forall s1, grown s s1 (fun _ => [blank false ty d (Z.to_N (g_level s)) n]) [] (g_level s + 1) ->
     exists s2, feed geom_step s1 e = Some (s2, 0) /\ grown s1 s2 ns bs (g_level s1)) ->
  exists s', feed geom_step s ([EGeomStart ty (dimN d)] ++ e ++ [EGeomEnd]) = Some (s', 0) /\
    grown s s' (fun b => blank false ty d (Z.to_N (g_level s)) n :: ns b) bs (g_level s).
Proof.
  intros Hs Hl Hty Hm Hin. destruct (geom_start_inner s ty d n Hs Hl Hty) as (s1 & E1 & G1).
  destruct (Hin s1 G1) as (s2 & E2 & G2).
  pose proof (gr_level _ _ _ _ _ G1) as L1. pose proof (gr_level _ _ _ _ _ G2) as L2.
  destruct (end_ok s2 (gr_home _ _ _ _ _ G2) ltac:(lia)) as (s3 & E3 & G3).
  exists s3. split.
  - cbn [app]. rewrite (feed_cons_ok _ _ s1) by exact E1. rewrite (feed_app_ok _ _ s2) by exact E2.
    rewrite (feed_cons_ok _ _ s3) by exact E3. reflexivity.
  - pose proof (grown_trans _ _ _ _ _ _ _ _ _ Hs (blank_mobile _ _ _ _ _) G1 G2) as G12.
    pose proof (grown_trans _ _ _ _ _ _ _ _ _ Hs (mobile_app _ _ (blank_mobile _ _ _ _ _) Hm) G12 G3) as G.
    replace (g_level s2 - 1) with (g_level s) in G by lia.
    eapply grown_ext; [| |exact G].
    + intros b. cbn [app]; rewrite app_nil_r. reflexivity.
    + rewrite app_nil_r. reflexivity.
Qed.

Lemma coll_code_37 k : (3 <= coll_code k <= 7)%N.
Proof. destruct k; cbn; lia. Qed.

Lemma geom_feed g : fed g.
Proof.
  induction g as [d cs|d cs|d rings|k d parts IH] using geom_ind'; intros e He s Hs Hl Hnest; inversion He; subst.
  - cbn [nesting] in Hnest. rewrite gbytes_point.
    apply (seq_geom_feed (EGeomStart 1 (dimN d)) s d cs e0 1 Hs); auto; lia.
  - cbn [nesting] in Hnest. rewrite gbytes_line.
    apply (seq_geom_feed (EGeomStart 2 (dimN d)) s d cs e0 2 Hs); auto; lia.
  - pose proof (nesting_pos (GPoly d rings)).
    rewrite gbytes_poly. apply (inner_feed s 3 d (length rings) e0 (fun b => rings_at false b d (Z.to_N (g_level s) + 1) (b_size (g_coords s)) rings)); try assumption; try lia.
    + apply rings_mobile.
    + intros s1 G1. pose proof (gr_level _ _ _ _ _ G1) as L1.
      destruct rings as [|cs rings].
      * inversion H2; subst. exists s1. split; [reflexivity|]. split; [apply G1| | |reflexivity].
        -- cbn [rings_at]. rewrite app_nil_r, moves_id by apply G1. reflexivity.
        -- rewrite app_nil_r. reflexivity.
      * cbn [nesting] in Hnest.
        destruct (rings_feed d _ _ H2 s1 (map (move (g_blk s1)) (g_nodes s)) (blank false 3 d (Z.to_N (g_level s)) (length (cs :: rings)))) as (s2 & E2 & G2);
          [apply G1|lia|apply G1|reflexivity|].
        exists s2. split; [exact E2|]. eapply grown_ext; [|reflexivity|exact G2].
        intros b. rewrite L1, (grown_size _ _ _ _ _ G1). cbn [length]. rewrite Z.add_0_r.
        replace (Z.to_N (g_level s + 1)) with (Z.to_N (g_level s) + 1)%N by lia. reflexivity.
  - rewrite nesting_coll in Hnest. rewrite gbytes_coll.
    destruct (inner_feed s (coll_code k) d (length parts) e0 (fun b => parts_at false b (Z.to_N (g_level s) + 1) (b_size (g_coords s)) parts) (flat_map gbytes parts))
      as (s' & E & G); try assumption; try lia.
    + apply coll_code_37.
    + pose proof (geom_mobile false (GColl k d parts) (Z.to_N (g_level s)) (b_size (g_coords s))) as M.
      intros b Hb. destruct (M b Hb) as [A B]. rewrite geom_at_coll in A. split; [inversion A; assumption|].
      intros b' Hb'. specialize (B b' Hb'). rewrite !geom_at_coll in B. cbn [map] in B. injection B. auto.
    + intros s1 G1. pose proof (gr_level _ _ _ _ _ G1) as L1.
      destruct (parts_feed parts IH _ H3 s1) as (s2 & E2 & G2); [apply G1|lia|lia|].
      exists s2. split; [exact E2|]. eapply grown_ext; [|reflexivity|exact G2].
      intros b. rewrite L1, (grown_size _ _ _ _ _ G1). cbn [length]. rewrite Z.add_0_r.
      replace (Z.to_N (g_level s + 1)) with (Z.to_N (g_level s) + 1)%N by lia. reflexivity.
    + exists s'. split; [exact E|]. eapply grown_ext; [|reflexivity|exact G]. intros b. rewrite geom_at_coll. reflexivity.
Qed.
