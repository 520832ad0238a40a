(** * Proofs about the messages of GeoArrowArrayViewSetArray *)
From Verif Require Import Base BaseFacts Text TypesModel TypesSpec TypesProofs GeomSpec BufferModel ArrowModel ArrayViewModel NativeSpec NativeProofs NativeVisitProofs
  NativeShapeProofs WktErrorModel ArrayViewErrorModel ArrayViewErrorSpec.
Local Open Scope Z_scope.

(** ** Without the texts the model is that of ArrayViewModel.v *)
Definition erased {A} (r : reply A) : outcome A := match r with Took a => Ok a | Complained _ => Err EINVAL | Crashed => UB end.
Definition crashes {A} (o : outcome A) : Prop := o = UB \/ exists a, o = Ok a.
Lemma erased_then {A B} (m : reply A) (k : A -> reply B) : erased (reply_then m k) = (do x <- erased m; erased (k x)).
Proof. destruct m; reflexivity. Qed.
Lemma erased_from {A} (o : outcome A) : crashes o -> erased (taken_from o) = o.
Proof. intros [->|(a & ->)]; reflexivity. Qed.
Lemma or_ub_crashes {A} (o : option A) : crashes (or_ub o).
Proof. destruct o; [right; eexists; reflexivity | left; reflexivity]. Qed.
Lemma load_crashes p i : crashes (load_int32 p i).
Proof. unfold load_int32, crashes. destruct p as [|b o]; [auto|]. destruct (slice b (o + 4 * i) 4); cbn [or_ub obind]; eauto. Qed.
Lemma count_crashes v a n : crashes (coord_count v a n).
Proof.
  unfold coord_count, crashes. destruct n; [eauto|]. destruct (qget _ n); cbn [or_ub obind]; [|auto]. destruct (qget _ n); cbn [or_ub obind]; [|auto].
  cbv zeta. destruct (_ || _); eauto.
Qed.
Lemma obind_eq {A B} (m m' : outcome A) (f g : A -> outcome B) : m = m' -> (forall x, f x = g x) -> obind m f = obind m' g.
Proof. intros -> H. destruct m'; cbn [obind]; auto. Qed.

Lemma erased_values text n : forall chs, erased (e_child_values text n chs) = child_values n chs.
Proof.
  induction n as [|n IH]; intros chs; cbn [e_child_values child_values]; [reflexivity|]. destruct chs as [|ch r]; [reflexivity|].
  destruct (negb _); [reflexivity|]. rewrite erased_then. apply obind_eq; [apply erased_from, or_ub_crashes|]. intros b.
  rewrite erased_then. apply obind_eq; [apply IH | reflexivity].
Qed.
Lemma erased_coords v a n : erased (e_set_coord_array v a n) = set_coord_array v a n.
Proof.
  unfold e_set_coord_array, set_coord_array. rewrite erased_then. apply obind_eq; [apply erased_from, count_crashes|]. intros c. cbv zeta.
  destruct (av_ctype v =? CT_SEPARATE); [destruct (negb _); [reflexivity|]; rewrite erased_then; apply obind_eq; [apply erased_values | reflexivity]|].
  destruct (av_ctype v =? CT_INTERLEAVED); [|reflexivity]. destruct (aa_children a) as [|ch [|]]; try reflexivity.
  destruct (negb _); [reflexivity|]. rewrite erased_then. apply obind_eq; [apply erased_from, or_ub_crashes | reflexivity].
Qed.
Lemma erased_internal : forall a v n, erased (e_set_array_internal v a n) = set_array_internal v a n.
Proof.
  fix IH 1. intros [len off nc bufs chs] v n. cbn [e_set_array_internal set_array_internal].
  destruct (_ =? av_n_offsets _); [apply erased_coords|]. destruct (negb _); [reflexivity|].
  destruct chs as [|ch [|]]; try reflexivity. rewrite erased_then. apply obind_eq; [|intros w; apply IH].
  destruct (0 <? len); [|reflexivity]. rewrite erased_then. apply obind_eq; [apply erased_from, or_ub_crashes|]. intros b. cbv zeta.
  rewrite erased_then. apply obind_eq; [apply erased_from, load_crashes|]. intros x.
  rewrite erased_then. apply obind_eq; [apply erased_from, load_crashes | reflexivity].
Qed.
Lemma erased_set v a : erased (e_set_array v a) = set_array v a.
Proof.
  unfold e_set_array, set_array. rewrite erased_then. apply obind_eq.
  - destruct (_ || _).
    + apply erased_from. unfold set_array_serialized, crashes. cbv zeta.
      destruct (nth_error _ 1); cbn [or_ub obind]; [|auto]. destruct (nth_error _ 2); cbn [or_ub obind]; eauto.
    + destruct (_ || _ || _ || _); [|apply erased_internal]. unfold e_set_array_box, set_array_box. cbv zeta. destruct (negb _); [reflexivity|].
      rewrite erased_then. apply obind_eq; [apply erased_values | reflexivity].
  - intros w. rewrite erased_then. apply obind_eq; [apply erased_from, or_ub_crashes | reflexivity].
Qed.

(** ** Complaints are true *)
Definition blames {A} (r : reply A) (P : bytes -> Prop) : Prop := match r with Complained t => P t | _ => True end.
Lemma blames_then {A B} (m : reply A) (k : A -> reply B) P : blames m P -> (forall x, m = Took x -> blames (k x) P) -> blames (reply_then m k) P.
Proof. destruct m; cbn; auto. Qed.
Lemma blames_from {A} (o : outcome A) P : blames (taken_from o) P.
Proof. destruct o; exact I. Qed.
Lemma blames_values text n (P : bytes -> Prop) : forall chs, (forall ch, In ch chs -> length (aa_buffers ch) <> 2%nat -> P (in_set_array text)) ->
  blames (e_child_values text n chs) P.
Proof.
  induction n as [|n IH]; intros chs H; cbn [e_child_values]; [exact I|]. destruct chs as [|ch r]; [exact I|].
  rewrite two_eqb. destruct (Nat.eqb_spec (length (aa_buffers ch)) 2) as [E|E]; cbn [negb]; [|exact (H ch (or_introl eq_refl) E)].
  apply blames_then; [apply blames_from|]. intros b _. apply blames_then; [|intros; exact I]. apply IH. intros c Hc. apply H. right. exact Hc.
Qed.
Lemma in_lists_snoc n : forall a p c, in_lists n a p -> length (aa_buffers p) = 2%nat -> aa_children p = [c] -> in_lists (S n) a c.
Proof.
  induction n as [|n IH]; intros a p c.
  - cbn [in_lists]. intros -> H1 H2. split; [exact H1|]. exists c. auto.
  - intros (H1 & ch & H2 & H3) H4 H5. split; [exact H1|]. exists ch. split; [exact H2 | exact (IH ch p c H3 H4 H5)].
Qed.

Lemma coords_blame k l d v root a n : typed k l d v -> k <> KBox -> in_lists (lists_around k) root a ->
  blames (e_set_coord_array v a n) (array_complaint k l d root).
Proof.
  intros T Hk Hin. unfold e_set_coord_array. apply blames_then; [apply blames_from|]. intros c _. cbv zeta.
  rewrite (ty_ctype _ _ _ _ T), (n_values_dim _ _ _ _ T Hk), Nat2Z.id. destruct l; cbn [layout_code].
  - change (1 =? CT_SEPARATE) with true. cbn iota.
    destruct (Z.eqb_spec (Z.of_nat (length (aa_children a))) (Z.of_nat (ndim d))) as [E|E]; cbn [negb].
    + apply blames_then; [|intros; exact I]. apply blames_values. intros ch Hc Hb. exact (wrong_struct_buffers k Separate d root a ch Hk eq_refl Hin Hc Hb).
    + apply (wrong_struct_children k Separate d root a Hk eq_refl Hin). intros E'. apply E. f_equal. exact E'.
  - change (2 =? CT_SEPARATE) with false. change (2 =? CT_INTERLEAVED) with true. cbn iota.
    destruct (aa_children a) as [|ch [|c2 r]] eqn:Ec.
    + apply (wrong_interleaved_children k Interleaved d root a Hk eq_refl Hin). rewrite Ec. discriminate.
    + rewrite two_eqb. destruct (Nat.eqb_spec (length (aa_buffers ch)) 2) as [E|E]; cbn [negb].
      * apply blames_then; [apply blames_from | intros; exact I].
      * apply (wrong_interleaved_buffers k Interleaved d root a ch Hk eq_refl Hin); [rewrite Ec; left; reflexivity | exact E].
    + apply (wrong_interleaved_children k Interleaved d root a Hk eq_refl Hin). rewrite Ec. discriminate.
Qed.
Lemma internal_blame k l d root : k <> KBox -> forall n lev a v, typed k l d v -> (lev + n = lists_around k)%nat -> in_lists lev root a ->
  blames (e_set_array_internal v a lev) (array_complaint k l d root).
Proof.
  intros Hk. induction n as [|n IH]; intros lev a v T Hn Hin; destruct a as [len off nc bufs chs] eqn:Ea; cbn [e_set_array_internal];
    change (av_n_offsets (with_level v lev off len)) with (av_n_offsets v);
    replace (av_n_offsets v) with (Z.of_nat (lists_around k)) by (rewrite (ty_offsets _ _ _ _ T); destruct k; try contradiction; reflexivity); rewrite <- Hn.
  - rewrite Nat.add_0_r, Z.eqb_refl. rewrite Nat.add_0_r in Hn. apply coords_blame; [apply typed_level, T | exact Hk | rewrite <- Hn; exact Hin].
  - destruct (Z.eqb_spec (Z.of_nat lev) (Z.of_nat (lev + S n))); [lia|].
    rewrite two_eqb. destruct (Nat.eqb_spec (length bufs) 2) as [E2|E2]; cbn [negb].
    2:{ apply (wrong_list_buffers k l d root lev (ArrowArray len off nc bufs chs)); [lia | exact Hin | exact E2]. }
    assert (W : length chs <> 1%nat -> array_complaint k l d root (in_set_array $"Unexpected number of children in list array")).
    { intros H. apply (wrong_list_children k l d root lev (ArrowArray len off nc bufs chs)); [lia | exact Hin | exact H]. }
    destruct chs as [|child [|]]; try (apply W; discriminate).
    assert (Hc : in_lists (S lev) root child) by (exact (in_lists_snoc lev root _ child Hin E2 eq_refl)).
    assert (K : forall p x y, blames (e_set_array_internal (with_offsets (with_level v lev off len) lev p x y) child (S lev)) (array_complaint k l d root)).
    { intros p x y. apply IH; [apply typed_offsets, typed_level, T | lia | exact Hc]. }
    destruct (0 <? len); [|exact (K _ _ _)].
    destruct (nth_error bufs 1); [|exact I]. cbn [or_ub taken_from reply_then]. cbv zeta.
    destruct (load_int32 _ off); try exact I. cbn [taken_from reply_then]. destruct (load_int32 _ (off + len)); try exact I. exact (K _ _ _).
Qed.

Lemma set_blame k l d v a : supported k d l -> typed k l d v -> blames (e_set_array v a) (array_complaint k l d a).
Proof.
  intros Hs T. unfold e_set_array.
  assert (av_type v =? TYPE_WKT = false /\ av_type v =? TYPE_WKB = false /\
    (av_type v =? 990) || (av_type v =? 1990) || (av_type v =? 2990) || (av_type v =? 3990) = (geometry_kind_code k =? 990)) as (-> & -> & ->).
  { rewrite (ty_type _ _ _ _ T). destruct k; [..|rewrite (Hs eq_refl)]; destruct d; try destruct l; vm_compute; auto. }
  cbn [orb]. apply blames_then; [|intros w _; apply blames_then; [apply blames_from | intros; exact I]].
  assert (k = KBox \/ k <> KBox) as [->|Hk] by (destruct k; [right; discriminate..|left; reflexivity]).
  - change (geometry_kind_code KBox =? 990) with true. cbn iota. unfold e_set_array_box. cbv zeta.
    change (av_coords (with_level v 0 (aa_offset a) (aa_length a))) with (av_coords v).
    rewrite (ty_values _ _ _ _ T). change (geometry_kind_code KBox =? 990) with true. cbn iota.
    replace (2 * Z.of_nat (ndim d)) with (Z.of_nat (2 * ndim d)) by lia. rewrite Nat2Z.id.
    destruct (Z.eqb_spec (Z.of_nat (length (aa_children a))) (Z.of_nat (2 * ndim d))) as [E|E]; cbn [negb].
    + apply blames_then; [|intros; exact I]. apply blames_values. intros ch Hc Hb. exact (wrong_box_buffers KBox l d a ch eq_refl Hc Hb).
    + apply (wrong_box_children KBox l d a eq_refl). intros E'. apply E. f_equal. exact E'.
  - replace (geometry_kind_code k =? 990) with false by (destruct k; [reflexivity..|contradiction]).
    exact (internal_blame k l d a Hk (lists_around k) 0 a v T eq_refl eq_refl).
Qed.

(** ** True complaints are about arrays that are refused *)
Lemma counted_within l d n : forall m a c, in_lists m a c -> counted l d (m + n) a -> counted l d n c.
Proof.
  induction m as [|m IH]; intros a c; cbn [in_lists Nat.add counted]; [intros -> H; exact H|].
  intros (_ & ch & E & Hin) (_ & F). rewrite E in F. inversion F; subst. exact (IH ch c Hin H1).
Qed.
Lemma levels_around k : list_levels k = lists_around k.
Proof. destruct k; reflexivity. Qed.
Lemma complaint_uncounted k l d a text : supported k d l -> array_complaint k l d a text -> ~ native_counted k l d a.
Proof.
  intros Hs C N.
  assert (G : forall c, k <> KBox -> in_lists (lists_around k) a c -> coords_counted l d c).
  { intros c Hk Hin. apply counted_native in N; [|exact Hk]. rewrite levels_around in N. apply (counted_within l d 0 _ a c Hin). rewrite Nat.add_0_r. exact N. }
  assert (L : forall n p, (n < lists_around k)%nat -> in_lists n a p -> has_counts 2 1 p).
  { intros n p Hn Hin. assert (Hk : k <> KBox) by (intros ->; cbn in Hn; lia). apply counted_native in N; [|exact Hk]. rewrite levels_around in N.
    replace (lists_around k) with (n + Datatypes.S (lists_around k - n - 1))%nat in N by lia. apply (counted_within _ _ _ _ _ _ Hin) in N. exact (proj1 N). }
  destruct C as [n p Hn Hin Hb|n p Hn Hin Hb|c Hk Hl Hin Hb|c ch Hk Hl Hin Hc Hb|c Hk Hl Hin Hb|c ch Hk Hl Hin Hc Hb|Hk Hb|ch Hk Hc Hb].
  - exact (Hb (proj1 (L n p Hn Hin))).
  - exact (Hb (proj2 (L n p Hn Hin))).
  - destruct (G c Hk Hin) as (H & _). subst l. exact (Hb H).
  - destruct (G c Hk Hin) as (_ & H). exact (Hb (proj1 (Forall_forall _ _) H ch Hc)).
  - destruct (G c Hk Hin) as (H & _). subst l. exact (Hb H).
  - destruct (G c Hk Hin) as (_ & H). exact (Hb (proj1 (Forall_forall _ _) H ch Hc)).
  - subst k. exact (Hb (proj1 N)).
  - subst k. exact (Hb (proj1 (Forall_forall _ _) (proj2 N) ch Hc)).
Qed.

(** ** The call *)
Lemma complaint_short k l d a text : array_complaint k l d a text -> (length text < 1023)%nat.
Proof. intros []; apply Nat.ltb_lt; vm_compute; reflexivity. Qed.
Lemma short_text t : (length t < 1023)%nat -> exists r, snd (error_set t) = t ++ [0%N] ++ r.
Proof.
  intros H. unfold error_set. cbn [snd]. rewrite firstn_all2 by lia.
  destruct (1024 - length t)%nat as [|n] eqn:E; [lia|]. exists (repeat 0%N n). reflexivity.
Qed.

Section Told.
Variables (k : geometry_kind) (l : layout) (d : dim) (v : aview).
Hypothesis Hs : supported k d l.
Hypothesis Hh : view_history (make_type (geometry_kind_code k) (dim_code d) (layout_code l)) v.

Lemma set_told before a : set_array v a <> UB ->
  (exists v', set_array v a = Ok v' /\ set_array_told before v a = Ok (0, before)) \/
  (set_array v a = Err EINVAL /\ exists text r, set_array_told before v a = Ok (EINVAL, text ++ [0%N] ++ r) /\ array_complaint k l d a text).
Proof.
  pose proof (set_blame k l d v a Hs (history_typed _ _ _ _ Hs Hh)) as B. rewrite <- erased_set. unfold set_array_told.
  destruct (e_set_array v a) as [v'|t|]; cbn [erased blames] in *; intros U; [left; eauto | right | contradiction].
  split; [reflexivity|]. destruct (short_text t (complaint_short k l d a t B)) as (r & ->). exists t, r. auto.
Qed.
Lemma complaint_never_taken a text v' : array_complaint k l d a text -> set_array v a <> Ok v'.
Proof. intros C E. exact (complaint_uncounted k l d a text Hs C (set_array_accepts k l d v Hs Hh a v' E)). Qed.
Lemma complaint_rejected a text : offsets_readable k a -> array_complaint k l d a text -> set_array v a = Err EINVAL.
Proof. intros R C. exact (set_array_rejects k l d v Hs Hh a R (complaint_uncounted k l d a text Hs C)). Qed.
End Told.
