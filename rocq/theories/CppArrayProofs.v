(** * C++ views of native arrays: proofs *)
From Verif Require Import Base BaseFacts TypesSpec GeomSpec GeomFacts ArrowModel BufferModel BitmapModel BitmapSpec BitmapProofs
  ArrayViewModel NativeSpec NativeProofs NativeVisitProofs CppCoordModel CppWkbModel CppWkbSpec CppWkbVisit CppArrayModel
  CppArraySpec.
Local Open Scope Z_scope.

Lemma coord_size_ndim d : coord_size d = ndim d.
Proof. destruct d; reflexivity. Qed.

(** ** Consecutive lists *)
Lemma concat_at {X} (R : arrow_array -> Z -> X -> Prop) a : forall xss o, xss <> [] ->
  (forall j xs, nth_error xss j = Some xs -> list_at R a (o + Z.of_nat j) xs) ->
  exists b child lo hi, second_buffer a = Some b /\ aa_children a = [child] /\ int32_at b (aa_offset a + o) = Some lo /\
    int32_at b (aa_offset a + o + Z.of_nat (length xss)) = Some hi /\ hi = lo + Z.of_nat (length (concat xss)) /\
    forall k x, nth_error (concat xss) k = Some x -> R child (lo + Z.of_nat k) x.
Proof.
  induction xss as [|xs xss IH]; intros o Hne H; [congruence|].
  pose proof (H 0%nat xs eq_refl) as H0. change (Z.of_nat 0) with 0 in H0. rewrite Z.add_0_r in H0.
  destruct H0 as (b & lo & hi & child & Hb & Hch & Hlo & Hhi & Hlen & HR).
  destruct xss as [|ys xss].
  - exists b, child, lo, hi. cbn [concat length]. rewrite app_nil_r. change (Z.of_nat 1) with 1. auto 8.
  - destruct (IH (o + 1) ltac:(discriminate)) as (b' & child' & lo' & hi' & Hb' & Hch' & Hlo' & Hhi' & Hlen' & HR').
    { intros j zs Hj. replace (o + 1 + Z.of_nat j) with (o + Z.of_nat (S j)) by lia. apply H, Hj. }
    rewrite Hb in Hb'. injection Hb' as <-. rewrite Hch in Hch'. injection Hch' as <-.
    rewrite Z.add_assoc, Hhi in Hlo'. injection Hlo' as <-.
    exists b, child, lo, hi'. split; [exact Hb|]. split; [exact Hch|]. split; [exact Hlo|].
    set (r := ys :: xss) in *. cbn [concat length]. rewrite app_length. split.
    { rewrite <- Hhi'. f_equal. lia. }
    split; [lia|]. intros k x Hk.
    destruct (Nat.ltb_spec k (length xs)) as [L|L].
    + rewrite nth_error_app1 in Hk by exact L. apply HR, Hk.
    + rewrite nth_error_app2 in Hk by exact L.
      replace (lo + Z.of_nat k) with (hi + Z.of_nat (k - length xs)) by lia. apply HR', Hk.
Qed.

Section Shows.
Variables (l : layout) (d : dim) (size : nat).

(** The contents of an element [depth] lists above the coordinates. *)
Fixpoint tt_of (depth : nat) : Type := match depth with O => coord | S n => list (tt_of n) end.
Fixpoint elt (depth : nat) : arrow_array -> Z -> tt_of depth -> Prop :=
  match depth return arrow_array -> Z -> tt_of depth -> Prop with O => coord_at l d | S n => list_at (elt n) end.
Fixpoint flat (depth : nat) : tt_of depth -> list coord :=
  match depth return tt_of depth -> list coord with O => fun c => [c] | S n => flat_map (flat n) end.

(** The pointers of a sequence are those of an array. *)
Fixpoint shows (depth : nat) : seq_of depth -> arrow_array -> Prop :=
  match depth return seq_of depth -> arrow_array -> Prop with
  | O => fun (s : cseq) a => length (cs_values s) = size /\
      forall j p, nth_error (cs_values s) j = Some p -> forall i w, ordinate_at l d a i j = Some w ->
        load_double p ((aa_offset a + i) * cs_stride s) = Ok w
  | S n => fun (s : lseq (seq_of n)) a => exists child, aa_children a = [child] /\ seq_offset n (ls_child s) = aa_offset child /\
      shows n (ls_child s) child /\
      (0 < aa_length a -> exists ob, second_buffer a = Some ob /\ ls_offsets s = RPtr ob 0)
  end.
Definition covers (depth : nat) (s : seq_of depth) (a : arrow_array) (o : Z) (m : nat) : Prop :=
  seq_offset depth s = aa_offset a + o /\ seq_length depth s = Z.of_nat m /\ shows depth s a.

Lemma window_offset depth s o n : seq_offset depth (seq_window depth s o n) = o.
Proof. destruct depth; reflexivity. Qed.
Lemma window_length depth s o n : seq_length depth (seq_window depth s o n) = n.
Proof. destruct depth; reflexivity. Qed.
Lemma window_shows depth s o n a : shows depth s a -> shows depth (seq_window depth s o n) a.
Proof. destruct depth; intros H; exact H. Qed.

Lemma nested_length n a : nested l d n a -> 0 <= aa_length a.
Proof. destruct n; intros (_ & H & _); exact H. Qed.

Lemma offsets_loads n (s : lseq (seq_of n)) a : nested l d (S n) a -> shows (S n) s a -> 0 < aa_length a ->
  exists ob, second_buffer a = Some ob /\ forall i z, int32_at ob i = Some z -> load_int32 (ls_offsets s) i = Ok z.
Proof.
  intros (_ & _ & v0 & b0 & child0 & Hbuf & _ & _ & Hoff) (child & _ & _ & _ & Hp) Hpos.
  destruct (Hp Hpos) as (ob & Hs & Hq). destruct (Hoff Hpos) as (ob' & -> & Hwf & _).
  exists ob. split; [exact Hs|]. intros i z Hz. rewrite Hq. apply load_int32_ok; [|exact Hz].
  unfold second_buffer in Hs. rewrite Hbuf in Hs. cbn in Hs. injection Hs as <-. exact Hwf.
Qed.

(** The ends of a list are within the child. *)
Lemma list_bounds n a ob i lo hi child : nested l d (S n) a -> 0 <= i < aa_length a -> second_buffer a = Some ob ->
  aa_children a = [child] -> int32_at ob (aa_offset a + i) = Some lo -> int32_at ob (aa_offset a + i + 1) = Some hi ->
  0 <= lo /\ lo <= hi /\ hi <= aa_length child /\ nested l d n child.
Proof.
  intros (_ & _ & v0 & b0 & child0 & Hbuf & Hch & Hok & Hoff) Hi Hs Hch' Hlo Hhi.
  destruct (Hoff ltac:(lia)) as (ob' & -> & _ & Hb). unfold second_buffer in Hs. rewrite Hbuf in Hs. cbn in Hs.
  injection Hs as ->. rewrite Hch in Hch'. injection Hch' as ->.
  destruct (Hb i Hi) as (x & y & Hx & Hy & Hxy & Hyl). rewrite Hlo in Hx. injection Hx as <-.
  rewrite Hhi in Hy. injection Hy as <-. repeat split; try lia. exact Hok.
Qed.

Lemma nested_child n a child : nested l d (S n) a -> aa_children a = [child] -> nested l d n child.
Proof.
  intros (_ & _ & v0 & b0 & child0 & Hbuf & Hch & Hok & _) H. rewrite H in Hch. injection Hch as <-. exact Hok.
Qed.

Lemma list_item_ok {X} (R : arrow_array -> Z -> X -> Prop) n (s : lseq (seq_of n)) a o i xs :
  nested l d (S n) a -> shows (S n) s a -> ls_offset s = aa_offset a + o -> 0 <= o + i < aa_length a ->
  list_at R a (o + i) xs ->
  exists item child lo, list_item s i = Ok item /\ aa_children a = [child] /\ nested l d n child /\
    covers n item child lo (length xs) /\ 0 <= lo /\ lo + Z.of_nat (length xs) <= aa_length child /\
    forall k x, nth_error xs k = Some x -> R child (lo + Z.of_nat k) x.
Proof.
  intros N Sh Ho Hi (b & lo & hi & child & Hb & Hch & Hlo & Hhi & Hlen & HR).
  destruct (offsets_loads n s a N Sh ltac:(lia)) as (ob & Hob & Hld). rewrite Hb in Hob. injection Hob as <-.
  destruct (list_bounds n a b (o + i) lo hi child N Hi Hb Hch Hlo Hhi) as (B1 & B2 & B3 & N').
  destruct Sh as (child' & Hch' & Hso & Hsc & _). rewrite Hch in Hch'. injection Hch' as <-.
  exists (seq_window n (ls_child s) (seq_offset n (ls_child s) + lo) (hi - lo)), child, lo.
  split.
  { unfold list_item. rewrite Ho. rewrite <- Z.add_assoc. rewrite (Hld _ _ Hlo). cbn [obind].
    rewrite (Hld _ _ Hhi). reflexivity. }
  split; [exact Hch|]. split; [exact N'|]. split.
  { split; [rewrite window_offset, Hso; reflexivity|]. split; [rewrite window_length; lia|apply window_shows, Hsc]. }
  split; [exact B1|]. split; [lia|exact HR].
Qed.

Lemma valid_children_ok {X} (R : arrow_array -> Z -> X -> Prop) n (s : lseq (seq_of n)) a o xss :
  nested l d (S n) a -> covers (S n) s a o (length xss) -> 0 <= o -> o + Z.of_nat (length xss) <= aa_length a ->
  (forall j xs, nth_error xss j = Some xs -> list_at R a (o + Z.of_nat j) xs) ->
  exists c child lo, valid_child_elements s = Ok c /\ aa_children a = [child] /\ nested l d n child /\
    covers n c child lo (length (concat xss)) /\ 0 <= lo /\ lo + Z.of_nat (length (concat xss)) <= aa_length child /\
    forall k x, nth_error (concat xss) k = Some x -> R child (lo + Z.of_nat k) x.
Proof.
  intros N (Ho & Hn & Sh) H0 Hle H. cbn [seq_offset seq_length] in Ho, Hn. unfold valid_child_elements. rewrite Hn.
  destruct xss as [|xs0 xss].
  - destruct Sh as (child & Hch & Hso & Hsc & _). cbn [length concat]. change (Z.of_nat 0 =? 0) with true. cbn iota.
    exists (seq_slice n (ls_child s) 0 0), child, 0. split; [reflexivity|]. split; [exact Hch|].
    pose proof (nested_child n a child N Hch) as N'. split; [exact N'|]. split.
    { unfold seq_slice. split; [rewrite window_offset, Hso; lia|]. split; [apply window_length|apply window_shows, Hsc]. }
    split; [lia|]. split; [apply nested_length in N'; cbn; lia|]. intros [|k] x Hk; discriminate.
  - set (ys := xs0 :: xss) in *. assert (0 < Z.of_nat (length ys)) as Hp by (subst ys; cbn [length]; lia).
    destruct (Z.eqb_spec (Z.of_nat (length ys)) 0) as [E|_]; [lia|].
    destruct (concat_at R a ys o ltac:(subst ys; discriminate) H) as (b & child & lo & hi & Hb & Hch & Hlo & Hhi & Hlen & HR).
    destruct (offsets_loads n s a N Sh ltac:(lia)) as (ob & Hob & Hld). rewrite Hb in Hob. injection Hob as <-.
    rewrite Ho. rewrite (Hld _ _ Hlo). cbn [obind]. rewrite (Hld _ _ Hhi). cbn [obind].
    destruct Sh as (child' & Hch' & Hso & Hsc & _). rewrite Hch in Hch'. injection Hch' as <-.
    exists (seq_slice n (ls_child s) lo (hi - lo)), child, lo. split; [reflexivity|]. split; [exact Hch|].
    pose proof (nested_child n a child N Hch) as N'. split; [exact N'|].
    assert (0 <= lo /\ hi <= aa_length child) as (L1 & L2).
    { destruct N as (_ & _ & v0 & b0 & child0 & Hbuf & Hch0 & _ & Hoff). rewrite Hch in Hch0. injection Hch0 as <-.
      destruct (Hoff ltac:(lia)) as (ob' & -> & _ & Hbd). unfold second_buffer in Hb. rewrite Hbuf in Hb. cbn in Hb.
      injection Hb as ->. destruct (Hbd o ltac:(lia)) as (x & y & Hx & _ & Hxy & _).
      rewrite Hlo in Hx. injection Hx as <-.
      destruct (Hbd (o + Z.of_nat (length ys) - 1) ltac:(lia)) as (x & y' & _ & Hy & _ & Hyl).
      replace (aa_offset a + (o + Z.of_nat (length ys) - 1) + 1) with (aa_offset a + o + Z.of_nat (length ys)) in Hy by lia.
      rewrite Hhi in Hy. injection Hy as <-. lia. }
    split.
    { unfold seq_slice. split; [rewrite window_offset, Hso; reflexivity|].
      split; [rewrite window_length; lia|apply window_shows, Hsc]. }
    split; [exact L1|]. split; [lia|exact HR].
Qed.

(** ** Coordinates *)
Lemma values_at_ok : forall vs index ws, length vs = length ws ->
  (forall j p w, nth_error vs j = Some p -> nth_error ws j = Some w -> load_double p index = Ok w) ->
  values_at vs index = Ok ws.
Proof.
  induction vs as [|p vs IH]; intros index [|w ws] Hl H; try discriminate; cbn [values_at]; [reflexivity|].
  rewrite (H 0%nat p w eq_refl eq_refl). cbn [obind]. rewrite (IH index ws); [reflexivity|cbn in Hl; lia|].
  intros j q x Hq Hx. exact (H (S j) q x Hq Hx).
Qed.

Lemma nth_error_firstn_some {A} (xs : list A) n j x : nth_error (firstn n xs) j = Some x -> nth_error xs j = Some x.
Proof.
  revert xs j. induction n as [|n IH]; intros [|y xs] [|j]; cbn; try discriminate; auto.
Qed.

Lemma cseq_coord_ok s a o i c : (size <= ndim d)%nat -> shows 0 s a -> cs_offset s = aa_offset a + o ->
  coord_at l d a (o + i) c -> cseq_coord s i = Ok (firstn size c).
Proof.
  intros Hsz (Hl & Hv) Ho (Hlen & Hc). unfold cseq_coord. rewrite Ho. rewrite <- Z.add_assoc. apply values_at_ok.
  - rewrite Hl, firstn_length. lia.
  - intros j p w Hp Hw. apply nth_error_firstn_some in Hw. apply (Hv j p Hp). apply Hc, Hw.
Qed.

(** ** Loops *)
Lemma collect_ok {T A} (f : T -> list A) body : forall xs i,
  (forall j x, nth_error xs j = Some x -> body (i + Z.of_nat j) = Ok (f x)) ->
  collect (length xs) i body = Ok (flat_map f xs).
Proof.
  induction xs as [|x xs IH]; intros i H; cbn [length collect flat_map]; [reflexivity|].
  pose proof (H 0%nat x eq_refl) as H0. change (Z.of_nat 0) with 0 in H0. rewrite Z.add_0_r in H0. rewrite H0. cbn [obind].
  rewrite (IH (i + 1)); [reflexivity|].
  intros j y Hy. replace (i + 1 + Z.of_nat j) with (i + Z.of_nat (S j)) by lia. apply H, Hy.
Qed.
Lemma over_ok {T A} (f : T -> list A) body xs n : n = Z.of_nat (length xs) ->
  (forall j x, nth_error xs j = Some x -> body (Z.of_nat j) = Ok (f x)) ->
  over 0 n body = Ok (flat_map f xs).
Proof.
  intros -> H. unfold over. destruct (Z.ltb_spec (Z.of_nat (length xs)) 0); [lia|].
  rewrite Z.sub_0_r, Nat2Z.id. apply collect_ok. intros j x Hx. rewrite Z.add_0_l. apply H, Hx.
Qed.

Lemma flat_map_concat {A B} (f : A -> list B) xss : flat_map f (concat xss) = flat_map (flat_map f) xss.
Proof. induction xss as [|xs xss IH]; cbn; [reflexivity|]. rewrite flat_map_app, IH. reflexivity. Qed.
Lemma map_flat_map' {A B C} (g : B -> C) (f : A -> list B) xs : map g (flat_map f xs) = flat_map (fun x => map g (f x)) xs.
Proof. induction xs as [|x xs IH]; cbn; [reflexivity|]. rewrite map_app, IH. reflexivity. Qed.

(** ** Vertices *)
Variables (d' dst : dim).
Hypothesis size_d' : size = ndim d'.
Hypothesis fits : (size <= ndim d)%nat.
Definition seen (c : coord) : coord := as_dims dst (d', firstn size c).

Lemma cast_seen c : length c = ndim d -> coord_cast d' dst (firstn size c) = seen c.
Proof.
  intros H. unfold seen, as_dims. cbn [fst snd]. apply coord_cast_spec. rewrite firstn_length. lia.
Qed.

Lemma seq_vertices_ok depth : forall s a o (xs : list (tt_of depth)), nested l d depth a ->
  covers depth s a o (length xs) -> 0 <= o -> o + Z.of_nat (length xs) <= aa_length a ->
  (forall j x, nth_error xs j = Some x -> elt depth a (o + Z.of_nat j) x) ->
  seq_vertices d' dst depth s = Ok (map seen (flat_map (flat depth) xs)).
Proof.
  induction depth as [|n IH]; intros s a o xs N C H0 Hle H; cbn [seq_vertices].
  - destruct C as (Ho & Hn & Sh). cbn [seq_offset seq_length] in Ho, Hn. rewrite map_flat_map'.
    apply over_ok; [exact Hn|]. intros j c Hj. pose proof (H j c Hj) as He. cbn [elt] in He.
    rewrite (cseq_coord_ok s a o _ c fits Sh Ho He). cbn [obind flat map]. rewrite cast_seen; [reflexivity|apply He].
  - destruct (valid_children_ok (elt n) n s a o xs N C H0 Hle H) as (c & child & lo & E & Hch & N' & C' & L0 & L1 & HR).
    rewrite E. cbn [obind]. rewrite (IH c child lo (concat xs) N' C' L0 L1 HR). cbn [flat]. rewrite flat_map_concat. reflexivity.
Qed.

Lemma item_vertices_ok depth s a o i x : nested l d depth a -> shows depth s a -> seq_offset depth s = aa_offset a + o ->
  0 <= o + i < aa_length a -> elt depth a (o + i) x -> item_vertices d' dst depth s i = Ok (map seen (flat depth x)).
Proof.
  destruct depth as [|n]; intros N Sh Ho Hi He; cbn [item_vertices seq_offset elt] in *.
  - rewrite (cseq_coord_ok s a o i x fits Sh Ho He). cbn [obind flat map]. rewrite cast_seen; [reflexivity|apply He].
  - destruct (list_item_ok (elt n) n s a o i x N Sh Ho Hi He) as (item & child & lo & E & Hch & N' & C' & L0 & L1 & HR).
    rewrite E. cbn [obind]. exact (seq_vertices_ok n item child lo x N' C' L0 L1 HR).
Qed.

(** ** Edges *)
Definition cut (c : coord) : coord := firstn size c.
Fixpoint lists_edges (n : nat) : list (tt_of n) -> list (coord * coord) :=
  match n return list (tt_of n) -> list (coord * coord) with
  | O => fun cs => pairs (map cut cs)
  | S m => flat_map (lists_edges m)
  end.
Definition edges_of (depth : nat) : tt_of depth -> list (coord * coord) :=
  match depth return tt_of depth -> list (coord * coord) with
  | O => fun c => [(cut c, cut c)]
  | S n => lists_edges n
  end.

Lemma edges_from_ok s a o : shows 0 s a -> cs_offset s = aa_offset a + o -> forall cs i start,
  (forall j c, nth_error cs j = Some c -> coord_at l d a (o + (i + Z.of_nat j)) c) ->
  cseq_edges_from (length cs) s start i = Ok (pairs (start :: map cut cs)).
Proof.
  intros Sh Ho. induction cs as [|c cs IH]; intros i start H; cbn [length cseq_edges_from map]; [reflexivity|].
  pose proof (H 0%nat c eq_refl) as H0. change (Z.of_nat 0) with 0 in H0. rewrite Z.add_0_r in H0.
  rewrite (cseq_coord_ok s a o i c fits Sh Ho H0). cbn [obind].
  rewrite (IH (i + 1) (firstn size c)); [reflexivity|].
  intros j x Hx. replace (i + 1 + Z.of_nat j) with (i + Z.of_nat (S j)) by lia. apply H, Hx.
Qed.

Lemma cseq_edges_ok s a o cs : covers 0 s a o (length cs) ->
  (forall j c, nth_error cs j = Some c -> coord_at l d a (o + Z.of_nat j) c) ->
  cseq_edges s = Ok (pairs (map cut cs)).
Proof.
  intros (Ho & Hn & Sh) H. cbn [seq_offset seq_length] in Ho, Hn. unfold cseq_edges. rewrite Hn.
  destruct cs as [|c [|c2 cs]]; [reflexivity..|]. cbn [length].
  destruct (Z.ltb_spec (Z.of_nat (S (S (length cs)))) 2) as [L2|_]; [lia|].
  pose proof (H 0%nat c eq_refl) as Hc0. change (Z.of_nat 0) with 0 in Hc0.
  rewrite (cseq_coord_ok s a o 0 c fits Sh Ho Hc0). cbn [obind].
  replace (Z.to_nat (Z.of_nat (S (S (length cs))) - 1)) with (length (c2 :: cs)) by (cbn [length]; lia).
  rewrite (edges_from_ok s a o Sh Ho (c2 :: cs) 1 (firstn size c)); [reflexivity|].
  intros j x Hx. replace (1 + Z.of_nat j) with (Z.of_nat (S j)) by lia. apply H, Hx.
Qed.

(** [depth] lists above the coordinates: the edges of the elements of a list sequence. *)
Lemma seq_edges_ok depth : forall s a o (xs : list (tt_of depth)), nested l d depth a ->
  covers depth s a o (length xs) -> 0 <= o -> o + Z.of_nat (length xs) <= aa_length a ->
  (forall j x, nth_error xs j = Some x -> elt depth a (o + Z.of_nat j) x) ->
  seq_edges depth s = Ok (edges_of (S depth) xs).
Proof.
  induction depth as [|n IH]; intros s a o xs N C H0 Hle H.
  - cbn [seq_edges edges_of]. exact (cseq_edges_ok s a o xs C H).
  - change (edges_of (S (S n)) xs) with (flat_map (edges_of (S n)) xs). cbn [seq_edges].
    destruct C as (Ho & Hn & Sh). cbn [seq_offset seq_length] in Ho, Hn.
    apply over_ok; [exact Hn|]. intros j x Hj.
    assert (j < length xs)%nat by (apply nth_error_Some; congruence).
    destruct (list_item_ok (elt n) n s a o (Z.of_nat j) x N Sh Ho ltac:(lia) (H j x Hj))
      as (item & child & lo & E & Hch & N' & C' & L0 & L1 & HR).
    rewrite E. cbn [obind]. exact (IH item child lo x N' C' L0 L1 HR).
Qed.

Lemma item_edges_ok depth s a o i x : nested l d depth a -> shows depth s a -> seq_offset depth s = aa_offset a + o ->
  0 <= o + i < aa_length a -> elt depth a (o + i) x -> item_edges depth s i = Ok (edges_of depth x).
Proof.
  destruct depth as [|n]; intros N Sh Ho Hi He; cbn [item_edges seq_offset elt] in *.
  - rewrite (cseq_coord_ok s a o i x fits Sh Ho He). reflexivity.
  - destruct (list_item_ok (elt n) n s a o i x N Sh Ho Hi He) as (item & child & lo & E & Hch & N' & C' & L0 & L1 & HR).
    rewrite E. cbn [obind]. exact (seq_edges_ok n item child lo x N' C' L0 L1 HR).
Qed.

(** ** Arrays *)
Definition elt_or_null (depth : nat) (a : arrow_array) (i : Z) (e : option (tt_of depth)) : Prop :=
  match e with
  | None => valid_at a i = Some false
  | Some x => valid_at a i = Some true /\ elt depth a i x
  end.

Lemma valid_index_ok a b0 i b : nth_error (aa_buffers a) 0 = Some b0 -> valid_at a i = Some b ->
  valid_index (rptr_of b0) (aa_offset a + i) = Ok b.
Proof.
  intros H0 H. unfold valid_at in H. rewrite H0 in H. destruct b0 as [m|]; cbn [rptr_of valid_index].
  - apply bit_get_ok, H.
  - injection H as <-. reflexivity.
Qed.

Section OfArray.
Variables (depth : nat) (arr : carray (seq_of depth)) (a : arrow_array) (b0 : option bytes) (o : Z)
          (es : list (option (tt_of depth))).
Hypothesis N : nested l d depth a.
Hypothesis C : covers depth (ca_value arr) a o (length es).
Hypothesis H0 : 0 <= o.
Hypothesis Hle : o + Z.of_nat (length es) <= aa_length a.
Hypothesis Hb : nth_error (aa_buffers a) 0 = Some b0.
Hypothesis Hval : ca_validity arr = rptr_of b0.
Hypothesis He : forall j e, nth_error es j = Some e -> elt_or_null depth a (o + Z.of_nat j) e.

Lemma is_valid_ok j e : nth_error es j = Some e ->
  array_is_valid arr (Z.of_nat j) = Ok (match e with Some _ => true | None => false end).
Proof.
  intros Hj. unfold array_is_valid. rewrite Hval. destruct C as (Ho & _). rewrite Ho.
  replace (Z.of_nat j + (aa_offset a + o)) with (aa_offset a + (o + Z.of_nat j)) by lia.
  apply (valid_index_ok a b0 _ _ Hb). specialize (He j e Hj). destruct e; [apply He|exact He].
Qed.
Lemma is_null_ok j e : nth_error es j = Some e ->
  array_is_null arr (Z.of_nat j) = Ok (match e with Some _ => false | None => true end).
Proof.
  intros Hj. pose proof (is_valid_ok j e Hj) as H. unfold array_is_valid, array_is_null, valid_index in *.
  destruct (ca_validity arr); [destruct e; [reflexivity|discriminate]|].
  rewrite H. destruct e; reflexivity.
Qed.

Lemma no_nulls : b0 = None -> exists xs, es = map Some xs.
Proof.
  intros ->. assert (forall e, In e es -> e <> None) as H.
  { intros e Hin ->. apply In_nth_error in Hin. destruct Hin as (j & Hj). specialize (He j None Hj). cbn in He.
    unfold valid_at in He. rewrite Hb in He. discriminate. }
  clear - H. induction es as [|[x|] r IH].
  - exists []. reflexivity.
  - destruct IH as (xs & ->); [intros e Hin; apply H; right; exact Hin|]. exists (x :: xs). reflexivity.
  - exfalso. apply (H None); [left; reflexivity|reflexivity].
Qed.

Lemma null_bitmap : ca_validity arr = RNull -> b0 = None.
Proof. rewrite Hval. destruct b0; [discriminate|reflexivity]. Qed.

Lemma array_vertices_ok :
  array_vertices d' dst depth arr =
  Ok (map seen (flat_map (fun e => match e with Some x => flat depth x | None => [] end) es)).
Proof.
  unfold array_vertices. case_eq (ca_validity arr); [intros Ev|intros m mo Ev].
  - destruct (no_nulls (null_bitmap Ev)) as (xs & Exs).
    assert (length xs = length es) as L by (rewrite Exs, map_length; reflexivity).
    rewrite (seq_vertices_ok depth (ca_value arr) a o xs N).
    + do 2 f_equal. rewrite Exs, flat_map_map. reflexivity.
    + rewrite L. exact C.
    + exact H0.
    + rewrite L. exact Hle.
    + intros j x Hj. pose proof (He j (Some x)) as Hej. rewrite Exs, nth_error_map, Hj in Hej. apply (Hej eq_refl).
  - pose proof C as (Ho & Hn & Sh). rewrite map_flat_map'. apply over_ok; [exact Hn|]. intros j e Hj.
    rewrite (is_valid_ok j e Hj). cbn [obind]. assert (j < length es)%nat by (apply nth_error_Some; congruence).
    pose proof (He j e Hj) as Hej. destruct e as [x|]; [|reflexivity].
    apply (item_vertices_ok depth _ a o); [exact N|exact Sh|exact Ho|lia|apply Hej].
Qed.

Lemma array_edges_ok : (0 < depth)%nat ->
  array_edges depth arr = Ok (flat_map (fun e => match e with Some x => edges_of depth x | None => [] end) es).
Proof.
  intros Hd. unfold array_edges. case_eq (ca_validity arr); [intros Ev|intros m mo Ev].
  - destruct (no_nulls (null_bitmap Ev)) as (xs & Exs).
    assert (length xs = length es) as L by (rewrite Exs, map_length; reflexivity).
    rewrite (seq_edges_ok depth (ca_value arr) a o xs N).
    + rewrite Exs, flat_map_map. f_equal. clear - Hd. destruct depth; [lia|]. reflexivity.
    + rewrite L. exact C.
    + exact H0.
    + rewrite L. exact Hle.
    + intros j x Hj. pose proof (He j (Some x)) as Hej. rewrite Exs, nth_error_map, Hj in Hej. apply (Hej eq_refl).
  - pose proof C as (Ho & Hn & Sh). apply over_ok; [exact Hn|]. intros j e Hj.
    rewrite (is_valid_ok j e Hj). cbn [obind]. assert (j < length es)%nat by (apply nth_error_Some; congruence).
    pose proof (He j e Hj) as Hej. destruct e as [x|]; [|reflexivity].
    apply (item_edges_ok depth _ a o); [exact N|exact Sh|exact Ho|lia|apply Hej].
Qed.

Lemma coords_ok_all : (forall e, In e es -> e <> None) -> exists cs xs, seq_coords depth (ca_value arr) = Ok cs /\ es = map Some xs /\
  seq_vertices d' dst 0 cs = Ok (map seen (flat_map (flat depth) xs)).
Proof.
  intros H. assert (exists xs, es = map Some xs) as (xs & Exs).
  { clear - H. induction es as [|[x|] r IH].
    - exists []. reflexivity.
    - destruct IH as (xs & ->); [intros e Hin; apply H; right; exact Hin|]. exists (x :: xs). reflexivity.
    - exfalso. apply (H None); [left; reflexivity|reflexivity]. }
  assert (length xs = length es) as L by (rewrite Exs, map_length; reflexivity).
  assert (forall j x, nth_error xs j = Some x -> elt depth a (o + Z.of_nat j) x) as Hx.
  { intros j x Hj. pose proof (He j (Some x)) as Hej. rewrite Exs, nth_error_map, Hj in Hej. apply (Hej eq_refl). }
  pose proof C as C'. rewrite <- L in C'. pose proof Hle as Hle'. rewrite <- L in Hle'.
  pose proof (seq_vertices_ok depth _ a o xs N C' H0 Hle' Hx) as V. clear Hx.
  assert (forall r n (s : seq_of n), seq_vertices d' dst n s = Ok r -> exists cs, seq_coords n s = Ok cs /\ seq_vertices d' dst 0 cs = Ok r) as K.
  { intros r. induction n as [|n IH]; intros s Hs; [exists s; split; [reflexivity|exact Hs]|].
    cbn [seq_vertices seq_coords] in *. destruct (valid_child_elements s) as [c| | |]; cbn [obind] in *; try discriminate.
    apply IH, Hs. }
  destruct (K _ depth _ V) as (cs & E1 & E2). exists cs, xs. auto.
Qed.
End OfArray.
End Shows.
