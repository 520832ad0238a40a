(** * Proofs about extension metadata: what was read, written and read again *)
From Verif Require Import Base Text MetadataModel MetadataSpec MetadataProofs MetadataReading MetadataMeaning MetadataWriting.
Local Open Scope Z_scope.

(** The texts of a CRS that the reader takes out of metadata. *)
Definition loose_crs (crs : bytes) : Prop := loose_value crs /\ starts 34 crs || starts 123 crs = true.

Lemma meaning_in names v t : meaning_of names v = Some t -> In t (map snd names).
Proof.
  unfold meaning_of. destruct (find _ names) as [[n z]|] eqn:E; [|discriminate]. intros [= <-].
  apply find_some in E as [E _]. apply in_map_iff. exists (n, z). split; [reflexivity | exact E].
Qed.
Lemma edges_known v e : edges_said v = Some e -> 0 <= e <= 5.
Proof.
  unfold edges_said. destruct v as [v|]; [|intros [= <-]; unfold EDGE_PLANAR; lia]. destruct (same v $"null"); [intros [= <-]; unfold EDGE_PLANAR; lia|].
  intros H. apply meaning_in in H. cbn in H. unfold EDGE_PLANAR, EDGE_SPHERICAL, EDGE_VINCENTY, EDGE_THOMAS, EDGE_ANDOYER, EDGE_KARNEY in H. lia.
Qed.
Lemma by_length_known v : 0 <= by_length v <= 5.
Proof. unfold by_length, CRS_PROJJSON, CRS_WKT2_2019, CRS_AUTHORITY_CODE, CRS_SRID, CRS_UNKNOWN. repeat match goal with |- context [if ?b then _ else _] => destruct b end; lia. Qed.

Definition sound (m : metadata) : Prop := known m /\ (m_crs m = [] \/ loose_crs (m_crs m)).
Lemma member_sound m k v m' : loose_value v -> sound m -> member m k v = Ok m' -> sound m'.
Proof.
  intros Hv [[K1 K2] Hc].
  destruct (list_eq_dec N.eq_dec k (quoted $"edges")) as [->|N1].
  { rewrite member_edges, edges_member_said by exact Hv. destruct (edges_said (Some v)) as [e|] eqn:Ee; [|discriminate].
    apply edges_known in Ee. intros [= <-]. split; [split; cbn; [exact Ee | exact K2] | exact Hc]. }
  destruct (list_eq_dec N.eq_dec k (quoted $"crs")) as [->|N2].
  { rewrite member_crs, crs_member_said by exact Hv. destruct (crs_said (Some v)) as [[c|]|] eqn:Ec; [| |discriminate]; intros [= <-].
    - apply crs_said_not_empty in Ec as Hn. destruct Hn as [[= <-] Hn]. split.
      + split; cbn [m_edges m_crs_type]; [exact K1|]. unfold CRS_UNKNOWN. destruct (_ =? _); lia.
      + right. split; [exact Hv|]. cbn [m_crs]. unfold crs_said in Ec. destruct (same v $"null"); [discriminate|].
        destruct (starts 34 v || starts 123 v); [reflexivity | discriminate].
    - split; [split; cbn; [exact K1 | unfold CRS_NONE; lia] | exact Hc]. }
  destruct (list_eq_dec N.eq_dec k (quoted $"crs_type")) as [->|N3].
  { rewrite member_crs_type, crs_type_member_by_length. destruct (starts 34 v); [|discriminate]. intros [= <-].
    split; [split; cbn [m_edges m_crs_type set_crs_type]; [exact K1 | apply by_length_known] | exact Hc]. }
  rewrite member_other by assumption. intros [= <-]. split; [split; assumption | exact Hc].
Qed.
Lemma members_sound ms : Forall (fun kv => loose_value (snd kv)) ms -> forall m m', sound m -> members_fold m ms = Ok m' -> sound m'.
Proof.
  induction 1 as [|[k v] ms Hv _ IH]; intros m m' Hm; cbn [members_fold]; [intros [= <-]; exact Hm|].
  destruct (member m k v) as [m1| | |] eqn:E; cbn [obind]; try discriminate. apply IH. exact (member_sound m k v m1 Hv Hm E).
Qed.
Lemma view_init_sound past fuel b m : metadata_view_init past fuel b = Ok m ->
  known m /\ (m_crs_type m = CRS_NONE \/ loose_crs (m_crs m)).
Proof.
  intros H. apply view_init_ok in H as [[_ ->]|(ms & m0 & Hl & Hf & ->)].
  - split; [split; cbn [m_edges m_crs_type start_metadata]; unfold EDGE_PLANAR, CRS_NONE; lia | left; reflexivity].
  - assert (Hv : Forall (fun kv => loose_value (snd kv)) ms).
    { destruct Hl as (w & w1 & w' & body & _ & _ & _ & _ & H). exact (loose_members_values _ _ H). }
    assert (S0 : sound start_metadata) by (split; [split; cbn [m_edges m_crs_type start_metadata]; unfold EDGE_PLANAR, CRS_NONE; lia | left; reflexivity]).
    destruct (members_sound ms Hv _ _ S0 Hf) as [[K1 K2] Hc]. unfold finish.
    destruct (m_crs m0) as [|c r] eqn:Ec.
    + split; [split; cbn; [exact K1 | unfold CRS_NONE; lia] | left; reflexivity].
    + split; [split; assumption|]. right. rewrite Ec. destruct Hc as [Hc|Hc]; [discriminate | exact Hc].
Qed.

(** ** Written again *)
Lemma joined_loose ms : Forall (fun kv => json_string (fst kv) /\ loose_value (snd kv)) ms -> loose_members ms (joined ms).
Proof.
  induction ms as [|[k v] ms IH]; intros H; [constructor|]. apply Forall_cons_iff in H as [[Hk Hv] H]. cbn [fst snd] in *.
  destruct ms as [|kv ms].
  - change (joined [(k, v)]) with ([] ++ k ++ [] ++ [colon] ++ [] ++ v). rewrite <- (app_nil_r v) at 2.
    apply loose_last; try assumption; constructor.
  - change (joined ((k, v) :: kv :: ms)) with ([] ++ k ++ [] ++ [colon] ++ [] ++ v ++ [] ++ [comma] ++ joined (kv :: ms)).
    apply loose_more; try assumption; try constructor. apply IH. exact H.
Qed.
Lemma loose_crs_text crs : loose_crs crs -> crs_text crs = crs.
Proof. intros [_ H]. unfold crs_text. rewrite needs_escape_starts, H. reflexivity. Qed.
Lemma written_values m : (m_crs_type m = CRS_NONE \/ loose_crs (m_crs m)) ->
  Forall (fun kv => json_string (fst kv) /\ loose_value (snd kv)) (written_members m).
Proof.
  intros Hc. unfold written_members, edge_member, type_member, crs_members.
  apply Forall_app; split; [|apply Forall_app; split].
  - destruct (_ =? _); constructor; [|constructor]. split; [apply text_const; reflexivity | right; left; apply edge_string_plain].
  - destruct (_ || _); constructor; [|constructor]. split; [apply text_const; reflexivity | right; left; apply crs_type_string_plain].
  - destruct (Z.eqb_spec (m_crs_type m) CRS_NONE) as [|Hn]; constructor; [|constructor].
    destruct Hc as [Hc|Hc]; [contradiction|]. split; [apply text_const; reflexivity|]. cbn [snd].
    rewrite loose_crs_text by exact Hc. exact (proj1 Hc).
Qed.
Lemma written_loose m : (m_crs_type m = CRS_NONE \/ loose_crs (m_crs m)) -> loose_document (written_members m) (serialized m).
Proof.
  intros Hc. rewrite serialized_joined. exists [], [], [], (joined (written_members m)).
  split; [constructor|]. split; [constructor|]. split; [constructor|]. split; [reflexivity|].
  apply joined_loose. apply written_values. exact Hc.
Qed.

(** The text of another CRS that begins in the same way is written and read in the same way. *)
Lemma written_read m : known m -> (m_crs_type m = CRS_NONE \/ loose_crs (m_crs m)) ->
  NoDup (map fst (written_members m)) /\
  read (written_members m) = Some (Metadata (m_edges m) (m_crs_type m) (if m_crs_type m =? CRS_NONE then [] else m_crs m)).
Proof.
  intros [He Ht] Hc.
  assert (Hcrs : m_crs_type m <> CRS_NONE -> crs_text (m_crs m) = m_crs m /\ exists x r, m_crs m = x :: r /\ (x = 34%N \/ x = 123%N)).
  { intros Hn. destruct Hc as [Hc|Hc]; [contradiction|]. split; [apply loose_crs_text; exact Hc|]. destruct Hc as [_ H].
    destruct (m_crs m) as [|x r]; [discriminate|]. exists x, r. split; [reflexivity|].
    cbn [starts] in H. apply orb_prop in H as [H|H]; apply N.eqb_eq in H; auto. }
  unfold written_members, edge_member, type_member, crs_members.
  assert (Ee : m_edges m = 0 \/ m_edges m = 1 \/ m_edges m = 2 \/ m_edges m = 3 \/ m_edges m = 4 \/ m_edges m = 5) by lia.
  assert (Et : m_crs_type m = 0 \/ m_crs_type m = 1 \/ m_crs_type m = 2 \/ m_crs_type m = 3 \/ m_crs_type m = 4 \/ m_crs_type m = 5) by lia.
  clear He Ht Hc. destruct m as [e t c]. cbn [m_edges m_crs_type m_crs] in *.
  destruct Et as [->|Et].
  { destruct Ee as [->|[->|[->|[->|[->| ->]]]]]; (split; [repeat constructor; cbn; tauto | vm_compute; reflexivity]). }
  assert (Hn : t <> CRS_NONE) by (unfold CRS_NONE; lia). destruct (Hcrs Hn) as (Etext & x & r & Ex & Hx). rewrite Etext.
  rewrite (proj2 (Z.eqb_neq t CRS_NONE) Hn). subst c.
  assert (ND : forall a b : bool, NoDup (map fst ((if a then [] else [(quoted $"edges", quoted (edge_type_string e))]) ++
     (if b then [] else [(quoted $"crs_type", quoted (crs_type_string t))]) ++ [(quoted $"crs", x :: r)]))).
  { intros a b. destruct a, b; cbn [app map fst];
      repeat (apply NoDup_cons; [cbn; intuition discriminate|]); apply NoDup_nil. }
  split; [apply (ND (e =? EDGE_PLANAR) ((t =? CRS_UNKNOWN) || false))|]. clear ND.
  unfold read.
  assert (Crs : forall a b : bool, lookup $"crs" ((if a then [] else [(quoted $"edges", quoted (edge_type_string e))]) ++
   (if b then [] else [(quoted $"crs_type", quoted (crs_type_string t))]) ++ [(quoted $"crs", x :: r)]) = Some (x :: r)).
  { intros a b. destruct a, b; reflexivity. }
  rewrite Crs. clear Crs.
  assert (Said : crs_said (Some (x :: r)) = Some (Some (x :: r))).
  { unfold crs_said. destruct Hx as [-> | ->]; rewrite same_neq by discriminate; reflexivity. }
  rewrite Said. clear Said.
  destruct Ee as [->|[->|[->|[->|[->| ->]]]]]; destruct Et as [->|[->|[->|[->| ->]]]]; reflexivity.
Qed.

Lemma read_back_loose past fuel m : known m -> (m_crs_type m = CRS_NONE \/ loose_crs (m_crs m)) -> (length (serialized m) < fuel)%nat ->
  metadata_view_init past fuel (serialized m) =
    Ok (Metadata (m_edges m) (m_crs_type m) (if m_crs_type m =? CRS_NONE then [] else m_crs m)).
Proof.
  intros Hk Hc Hf. rewrite (view_init_loose past fuel _ _ (written_loose m Hc) Hf).
  destruct (written_read m Hk Hc) as [Hd Hr].
  rewrite (fold_read _ Hd). 2:{ eapply Forall_impl; [|exact (written_values m Hc)]. cbn. tauto. }
  rewrite Hr. reflexivity.
Qed.
Lemma loose_size m : (m_crs_type m = CRS_NONE \/ loose_crs (m_crs m)) -> Z.of_nat (length (serialized m)) = serialized_size m.
Proof. intros Hc. apply serialized_length. destruct Hc as [Hc|[_ Hc]]; auto. Qed.

Lemma reread past fuel b m : metadata_view_init past fuel b = Ok m -> exists text,
  (forall out n, n <= Z.of_nat (length out) -> exists out',
    serialize m out n = Ok (Z.of_nat (length text), out') /\
    if Z.of_nat (length text) <=? n then filled out n text out' else out' = out) /\
  (forall past fuel, (length text < fuel)%nat ->
    metadata_view_init past fuel text = Ok (Metadata (m_edges m) (m_crs_type m) (if m_crs_type m =? CRS_NONE then [] else m_crs m))).
Proof.
  intros H. destruct (view_init_sound past fuel b m H) as [Hk Hc]. exists (serialized m). split.
  - intros out n. apply serialize_sized, loose_size. exact Hc.
  - intros past' fuel' Hf. exact (read_back_loose past' fuel' m Hk Hc Hf).
Qed.
