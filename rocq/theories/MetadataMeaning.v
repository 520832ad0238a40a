(** * Proofs about extension metadata: what the members of an object are read as *)
From Verif Require Import Base Text MetadataModel MetadataSpec MetadataProofs MetadataReading.
Local Open Scope Z_scope.

Lemma loose_accepted v : loose_value v -> accepted_value v = true.
Proof.
  unfold accepted_value. intros [->|[(s & _ & ->)|[(i & _ & ->)|(i & _ & ->)]]].
  - rewrite same_refl. reflexivity.
  - cbn [quoted app starts]. rewrite same_neq by discriminate. reflexivity.
  - cbn [app starts]. rewrite same_neq by discriminate. reflexivity.
  - cbn [app starts]. rewrite same_neq by discriminate. reflexivity.
Qed.
(** A value that begins with n is null. *)
Lemma loose_null v : loose_value v -> starts 110 v = same v $"null".
Proof.
  intros [->|[(s & _ & ->)|[(i & _ & ->)|(i & _ & ->)]]].
  - rewrite same_refl. reflexivity.
  - rewrite same_neq by discriminate. reflexivity.
  - rewrite same_neq by discriminate. reflexivity.
  - rewrite same_neq by discriminate. reflexivity.
Qed.

Lemma edges_member_said m v : loose_value v ->
  edges_member m v = match edges_said (Some v) with Some e => Ok (set_edges m e) | None => Err EINVAL end.
Proof.
  intros Hv. unfold edges_member, edges_said. rewrite !same_bytes_same, first_is_starts, (loose_null v Hv).
  unfold meaning_of, edge_names. cbn [find fst].
  change $"""spherical""" with (quoted $"spherical"). change $"""planar""" with (quoted $"planar").
  change $"""vincenty""" with (quoted $"vincenty"). change $"""thomas""" with (quoted $"thomas").
  change $"""andoyer""" with (quoted $"andoyer"). change $"""karney""" with (quoted $"karney").
  destruct (same v (quoted $"spherical")) eqn:E1; [apply same_eq in E1; subst v; vm_compute; reflexivity|].
  destruct (same v (quoted $"planar")) eqn:E2; [apply same_eq in E2; subst v; vm_compute; reflexivity|].
  destruct (same v (quoted $"vincenty")) eqn:E3; [apply same_eq in E3; subst v; vm_compute; reflexivity|].
  destruct (same v (quoted $"thomas")) eqn:E4; [apply same_eq in E4; subst v; vm_compute; reflexivity|].
  destruct (same v (quoted $"andoyer")) eqn:E5; [apply same_eq in E5; subst v; vm_compute; reflexivity|].
  destruct (same v (quoted $"karney")) eqn:E6; [apply same_eq in E6; subst v; vm_compute; reflexivity|].
  destruct (same v $"null"); reflexivity.
Qed.

Lemma crs_member_said m v : loose_value v ->
  crs_member m v = match crs_said (Some v) with
                   | Some (Some c) => Ok (Metadata (m_edges m) (if m_crs_type m =? CRS_NONE then CRS_UNKNOWN else m_crs_type m) c)
                   | Some None => Ok (set_crs_type m CRS_NONE)
                   | None => Err EINVAL
                   end.
Proof.
  intros Hv. unfold crs_member, crs_said. rewrite !first_is_starts, (loose_null v Hv).
  change object_open with 123%N. change quote with 34%N.
  destruct (same v $"null") eqn:E.
  - apply same_eq in E. subst v. reflexivity.
  - rewrite (orb_comm (starts 34 v)). destruct (starts 123 v || starts 34 v); [|reflexivity].
    cbn [m_crs_type set_crs m_edges]. destruct (m_crs_type m =? CRS_NONE); reflexivity.
Qed.

(** What crs_type is read as: it is decided by the length. *)
Definition by_length (v : bytes) : Z :=
  let n := Z.of_nat (length v) in
  if n =? 10 then CRS_PROJJSON else if n =? 11 then CRS_WKT2_2019 else if n =? 16 then CRS_AUTHORITY_CODE
  else if n =? 6 then CRS_SRID else CRS_UNKNOWN.
Lemma crs_type_member_by_length m v :
  crs_type_member m (quoted $"crs_type") v = if starts 34 v then Ok (set_crs_type m (by_length v)) else Err EINVAL.
Proof.
  unfold crs_type_member, by_length. rewrite first_is_starts. change quote with 34%N.
  destruct (starts 34 v); [|reflexivity].
  replace (same_bytes (firstn 10 (quoted $"crs_type")) $"""projjson""") with false by reflexivity.
  replace (same_bytes (firstn 11 (quoted $"crs_type")) $"""wkt2:2019""") with false by reflexivity.
  replace (same_bytes (firstn 16 (quoted $"crs_type")) $"""authority_code""") with false by reflexivity.
  replace (same_bytes (firstn 6 (quoted $"crs_type")) $"""srid""") with false by reflexivity.
  cbn [negb]. rewrite !andb_true_r.
  repeat match goal with |- context [if ?b then _ else _] => destruct b; [reflexivity|] end. reflexivity.
Qed.

Lemma by_length_plain v : (meaning_of crs_type_names v <> None \/ forall n t, In (n, t) crs_type_names -> length v <> length (quoted n)) ->
  by_length v = match meaning_of crs_type_names v with Some t => t | None => CRS_UNKNOWN end.
Proof.
  unfold meaning_of, crs_type_names. cbn [find fst].
  destruct (same v (quoted $"projjson")) eqn:E1; [apply same_eq in E1; subst v; intros; vm_compute; reflexivity|].
  destruct (same v (quoted $"wkt2:2019")) eqn:E2; [apply same_eq in E2; subst v; intros; vm_compute; reflexivity|].
  destruct (same v (quoted $"authority_code")) eqn:E3; [apply same_eq in E3; subst v; intros; vm_compute; reflexivity|].
  destruct (same v (quoted $"srid")) eqn:E4; [apply same_eq in E4; subst v; intros; vm_compute; reflexivity|].
  cbn [option_map]. intros [H|H]; [contradiction|].
  pose proof (H _ _ (or_introl eq_refl)) as H1. pose proof (H _ _ (or_intror (or_introl eq_refl))) as H2.
  pose proof (H _ _ (or_intror (or_intror (or_introl eq_refl)))) as H3.
  pose proof (H _ _ (or_intror (or_intror (or_intror (or_introl eq_refl))))) as H4. clear H.
  change (length (quoted $"projjson")) with 10%nat in H1. change (length (quoted $"wkt2:2019")) with 11%nat in H2.
  change (length (quoted $"authority_code")) with 16%nat in H3. change (length (quoted $"srid")) with 6%nat in H4.
  unfold by_length.
  destruct (Z.of_nat (length v) =? 10) eqn:L1; [lia|]. destruct (Z.of_nat (length v) =? 11) eqn:L2; [lia|].
  destruct (Z.of_nat (length v) =? 16) eqn:L3; [lia|]. destruct (Z.of_nat (length v) =? 6) eqn:L4; [lia|]. reflexivity.
Qed.
Lemma by_length_some v : by_length v <> CRS_NONE.
Proof.
  unfold by_length. repeat match goal with |- context [if ?b then _ else _] => destruct b; [discriminate|] end. discriminate.
Qed.

(** What a member does, by its name *)
Lemma member_edges m v : member m (quoted $"edges") v = edges_member m v.
Proof. reflexivity. Qed.
Lemma member_crs m v : member m (quoted $"crs") v = crs_member m v.
Proof. reflexivity. Qed.
Lemma member_crs_type m v : member m (quoted $"crs_type") v = crs_type_member m (quoted $"crs_type") v.
Proof. reflexivity. Qed.
Lemma member_other m k v : k <> quoted $"edges" -> k <> quoted $"crs" -> k <> quoted $"crs_type" -> member m k v = Ok m.
Proof.
  intros H1 H2 H3. unfold member. rewrite !same_bytes_same.
  change $"""edges""" with (quoted $"edges"). change $"""crs""" with (quoted $"crs"). change $"""crs_type""" with (quoted $"crs_type").
  rewrite !same_neq by assumption. reflexivity.
Qed.

Lemma lookup_cons n k v ms : lookup n ((k, v) :: ms) = if same k (quoted n) then Some v else lookup n ms.
Proof. unfold lookup. cbn [find fst]. destruct (same k (quoted n)); reflexivity. Qed.
Lemma lookup_absent n ms : ~ In (quoted n) (map fst ms) -> lookup n ms = None.
Proof.
  induction ms as [|[k v] ms IH]; [reflexivity|]. cbn [map fst In]. intros H. rewrite lookup_cons, same_neq by tauto. apply IH. tauto.
Qed.

(** What is read as the type of the CRS, if it can be accepted. *)
Definition crs_type_read (v : option bytes) : option Z :=
  match v with None => Some CRS_UNKNOWN | Some v => if starts 34 v then Some (by_length v) else None end.

Definition read_as (ms : list (bytes * bytes)) (m m' : metadata) (e : Z) (c : option bytes) (t : Z) : Prop :=
  m_edges m' = (match lookup $"edges" ms with None => m_edges m | Some _ => e end) /\
  match lookup $"crs" ms, c with
  | None, _ => m_crs m' = m_crs m /\ m_crs_type m' = match lookup $"crs_type" ms with None => m_crs_type m | Some _ => t end
  | Some _, None => m_crs m' = m_crs m
  | Some _, Some v => m_crs m' = v /\
      m_crs_type m' = match lookup $"crs_type" ms with
                      | None => if m_crs_type m =? CRS_NONE then CRS_UNKNOWN else m_crs_type m
                      | Some _ => t
                      end
  end.

Lemma members_fold_read ms : NoDup (map fst ms) -> Forall (fun kv => loose_value (snd kv)) ms -> forall m,
  match edges_said (lookup $"edges" ms), crs_said (lookup $"crs" ms), crs_type_read (lookup $"crs_type" ms) with
  | Some e, Some c, Some t => exists m', members_fold m ms = Ok m' /\ read_as ms m m' e c t
  | _, _, _ => members_fold m ms = Err EINVAL
  end.
Proof.
  intros Hd Hv. induction ms as [|[k v] ms IH]; intros m.
  { cbn. exists m. split; [reflexivity|]. split; [reflexivity | split; reflexivity]. }
  cbn [map fst] in Hd. apply NoDup_cons_iff in Hd as [Hk Hd]. apply Forall_cons_iff in Hv as [Hv Hvs]. cbn [snd] in Hv.
  specialize (IH Hd Hvs). unfold read_as. rewrite !lookup_cons. cbn [members_fold].
  destruct (list_eq_dec N.eq_dec k (quoted $"edges")) as [->|Ne].
  { rewrite same_refl. change (same (quoted $"edges") (quoted $"crs")) with false.
    change (same (quoted $"edges") (quoted $"crs_type")) with false. cbv iota.
    pose proof (lookup_absent _ _ Hk) as La. rewrite La in IH. cbn [edges_said] in IH.
    rewrite member_edges, edges_member_said by exact Hv.
    destruct (edges_said (Some v)) as [e|]; [|reflexivity]. cbn [obind].
    specialize (IH (set_edges m e)).
    destruct (crs_said (lookup $"crs" ms)) as [c|]; [|exact IH].
    destruct (crs_type_read (lookup $"crs_type" ms)) as [t|]; [|exact IH].
    destruct IH as (m' & -> & He & Hc). exists m'. split; [reflexivity|]. rewrite La in He. cbn [set_edges m_edges] in He.
    split; [exact He | exact Hc]. }
  rewrite (same_neq _ _ Ne).
  destruct (list_eq_dec N.eq_dec k (quoted $"crs")) as [->|Nc].
  { rewrite same_refl. change (same (quoted $"crs") (quoted $"crs_type")) with false. cbv iota.
    pose proof (lookup_absent _ _ Hk) as La. rewrite La in IH. cbn [crs_said] in IH.
    rewrite member_crs, crs_member_said by exact Hv.
    destruct (crs_said (Some v)) as [[c|]|] eqn:Ec; cbn [obind].
    - specialize (IH (Metadata (m_edges m) (if m_crs_type m =? CRS_NONE then CRS_UNKNOWN else m_crs_type m) c)).
      destruct (edges_said (lookup $"edges" ms)) as [e|]; [|exact IH].
      destruct (crs_type_read (lookup $"crs_type" ms)) as [t|]; [|exact IH].
      destruct IH as (m' & -> & He & Hc). exists m'. split; [reflexivity|]. rewrite La in Hc.
      split; [exact He | exact Hc].
    - specialize (IH (set_crs_type m CRS_NONE)).
      destruct (edges_said (lookup $"edges" ms)) as [e|]; [|exact IH].
      destruct (crs_type_read (lookup $"crs_type" ms)) as [t|]; [|exact IH].
      destruct IH as (m' & -> & He & Hc). exists m'. split; [reflexivity|]. rewrite La in Hc.
      split; [exact He | apply Hc].
    - destruct (edges_said (lookup $"edges" ms)); reflexivity. }
  rewrite (same_neq _ _ Nc).
  destruct (list_eq_dec N.eq_dec k (quoted $"crs_type")) as [->|Nt].
  { rewrite same_refl. pose proof (lookup_absent _ _ Hk) as La. rewrite La in IH. cbn [crs_type_read] in IH |- *.
    rewrite member_crs_type, crs_type_member_by_length.
    destruct (starts 34 v); cbn [obind].
    - specialize (IH (set_crs_type m (by_length v))).
      destruct (edges_said (lookup $"edges" ms)) as [e|]; [|exact IH].
      destruct (crs_said (lookup $"crs" ms)) as [c|] eqn:Ec; [|exact IH].
      destruct IH as (m' & -> & He & Hc). exists m'. split; [reflexivity|]. rewrite La in Hc.
      split; [exact He|]. cbn [set_crs_type m_crs m_crs_type] in Hc.
      destruct (lookup $"crs" ms) as [x|]; [|exact Hc]. destruct c as [c|]; [|exact Hc].
      rewrite (proj2 (Z.eqb_neq (by_length v) CRS_NONE) (by_length_some v)) in Hc. exact Hc.
    - destruct (edges_said (lookup $"edges" ms)), (crs_said (lookup $"crs" ms)); reflexivity. }
  rewrite (same_neq _ _ Nt), member_other by assumption. cbn [obind]. apply IH.
Qed.

Lemma crs_type_read_said ms : plain_crs_type ms -> crs_type_read (lookup $"crs_type" ms) = crs_type_said (lookup $"crs_type" ms).
Proof.
  intros H. unfold crs_type_read, crs_type_said. destruct (lookup $"crs_type" ms) as [v|] eqn:E; [|reflexivity].
  destruct (starts 34 v) eqn:Es; [|reflexivity]. f_equal. apply by_length_plain. apply (H v E Es).
Qed.

(** What the members are read as, with the type of the CRS decided by the length of its name. *)
Definition read (ms : list (bytes * bytes)) : option metadata :=
  match edges_said (lookup $"edges" ms), crs_said (lookup $"crs" ms), crs_type_read (lookup $"crs_type" ms) with
  | Some e, Some (Some c), Some t => Some (Metadata e t c)
  | Some e, Some None, Some _ => Some (Metadata e CRS_NONE [])
  | _, _, _ => None
  end.

Lemma crs_said_not_empty v c : crs_said v = Some (Some c) -> v = Some c /\ c <> [].
Proof.
  unfold crs_said. destruct v as [v|]; [|discriminate]. destruct (same v $"null"); [discriminate|].
  destruct (starts 34 v || starts 123 v) eqn:E; [|discriminate]. intros [= <-]. split; [reflexivity|]. intros ->. discriminate.
Qed.

Lemma fold_read ms : NoDup (map fst ms) -> Forall (fun kv => loose_value (snd kv)) ms ->
  (do m <- members_fold start_metadata ms; Ok (finish m)) = match read ms with Some m => Ok m | None => Err EINVAL end.
Proof.
  intros Hd Hv. pose proof (members_fold_read ms Hd Hv start_metadata) as H. unfold read.
  destruct (edges_said (lookup $"edges" ms)) as [e|] eqn:Ee; [|rewrite H; reflexivity].
  destruct (crs_said (lookup $"crs" ms)) as [c|] eqn:Ec; [|rewrite H; reflexivity].
  destruct (crs_type_read (lookup $"crs_type" ms)) as [t|] eqn:Et; [|rewrite H; destruct c; reflexivity].
  destruct H as (m & -> & He & Hc). cbn [obind].
  assert (Em : m_edges m = e).
  { rewrite He. destruct (lookup $"edges" ms); [reflexivity|]. injection Ee as <-. reflexivity. }
  clear He. destruct c as [c|].
  - apply crs_said_not_empty in Ec as [El Hn]. rewrite El in Hc. destruct Hc as [Hc Ht].
    unfold finish. rewrite Hc. destruct c as [|x c]; [congruence|]. f_equal.
    destruct m as [e' t' c']. cbn [m_edges m_crs m_crs_type] in *. subst e' c' t'. f_equal.
    destruct (lookup $"crs_type" ms) as [w|]; [reflexivity|]. injection Et as <-. reflexivity.
  - assert (Hm : m_crs m = []).
    { destruct (lookup $"crs" ms); [exact Hc | exact (proj1 Hc)]. }
    unfold finish. rewrite Hm. unfold set_crs_type. rewrite Hm, Em. reflexivity.
Qed.

Lemma loose_members_values ms b : loose_members ms b -> Forall (fun kv => loose_value (snd kv)) ms.
Proof. induction 1; [constructor | constructor; [assumption | constructor] | constructor; assumption]. Qed.

(** ** JSON objects *)
Lemma read_described ms : plain_crs_type ms -> forallb (fun kv => accepted_value (snd kv)) ms = true -> read ms = described ms.
Proof.
  intros Hp Ha. unfold read, described. rewrite Ha, crs_type_read_said by exact Hp.
  destruct (edges_said _); [|reflexivity]. destruct (crs_said _) as [[c|]|]; reflexivity.
Qed.

Lemma view_init_json past fuel ms b : json_document ms b -> NoDup (map fst ms) -> plain_crs_type ms -> (length b < fuel)%nat ->
  metadata_view_init past fuel b = match described ms with Some m => Ok m | None => Err EINVAL end.
Proof.
  intros Hj Hd Hp Hf. destruct (forallb (fun kv => accepted_value (snd kv)) ms) eqn:Ha.
  - pose proof (json_document_loose ms b Hj Ha) as Hl. rewrite (view_init_loose past fuel ms b Hl Hf).
    assert (Hv : Forall (fun kv => loose_value (snd kv)) ms).
    { destruct Hl as (w & w1 & w' & body & _ & _ & _ & _ & H). exact (loose_members_values _ _ H). }
    rewrite (fold_read ms Hd Hv), (read_described ms Hp Ha).
    destruct (described ms); reflexivity.
  - rewrite (view_init_refuse past fuel ms b Hj Ha Hf). unfold described. rewrite Ha. reflexivity.
Qed.

(** ** Any text *)
Lemma view_init_accepts past fuel b m : metadata_view_init past fuel b = Ok m -> b <> [] ->
  exists ms, loose_document ms b /\ (NoDup (map fst ms) -> read ms = Some m).
Proof.
  intros H Hb. apply view_init_ok in H as [[-> _]|(ms & m0 & Hl & Hf & ->)]; [congruence|].
  exists ms. split; [exact Hl|]. intros Hd.
  assert (Hv : Forall (fun kv => loose_value (snd kv)) ms).
  { destruct Hl as (w & w1 & w' & body & _ & _ & _ & _ & H). exact (loose_members_values _ _ H). }
  pose proof (fold_read ms Hd Hv) as E. rewrite Hf in E. cbn [obind] in E. destruct (read ms); [|discriminate]. congruence.
Qed.

(** The type of the edges, whatever the members *)
Lemma members_fold_edges ms : Forall (fun kv => loose_value (snd kv)) ms -> forall m m', members_fold m ms = Ok m' ->
  Forall (fun kv => fst kv = quoted $"edges" -> edges_said (Some (snd kv)) <> None) ms /\
  Some (m_edges m') = match lookup $"edges" (rev ms) with None => Some (m_edges m) | Some v => edges_said (Some v) end.
Proof.
  induction ms as [|[k v] ms IH]; intros Hv m m'.
  { intros [= <-]. split; [constructor | reflexivity]. }
  cbn [members_fold]. apply Forall_cons_iff in Hv as [Hv Hvs]. cbn [snd] in Hv.
  destruct (member m k v) as [m1| | |] eqn:E; cbn [obind]; try discriminate. intros Hf.
  apply (IH Hvs) in Hf as [Hall Hlast].
  assert (Last : lookup $"edges" (rev ((k, v) :: ms)) =
                 match lookup $"edges" (rev ms) with Some x => Some x | None => if same k (quoted $"edges") then Some v else None end).
  { cbn [rev]. unfold lookup. generalize (rev ms). intros l. induction l as [|[k' v'] l IHl]; cbn [app find fst].
    - destruct (same k (quoted $"edges")); reflexivity.
    - destruct (same k' (quoted $"edges")); [reflexivity | exact IHl]. }
  rewrite Last. clear Last.
  destruct (list_eq_dec N.eq_dec k (quoted $"edges")) as [->|Ne].
  - rewrite same_refl. rewrite member_edges, edges_member_said in E by exact Hv.
    destruct (edges_said (Some v)) as [e|] eqn:Ee; [|discriminate]. injection E as <-. split.
    + constructor; [intros _; cbn [snd]; congruence | exact Hall].
    + rewrite Hlast. destruct (lookup $"edges" (rev ms)); [reflexivity|]. rewrite Ee. reflexivity.
  - rewrite (same_neq _ _ Ne). split.
    + constructor; [intros H; contradiction | exact Hall].
    + rewrite Hlast. destruct (lookup $"edges" (rev ms)); [reflexivity|].
      assert (Em : m_edges m1 = m_edges m).
      { revert E. unfold member. rewrite !same_bytes_same.
        change $"""edges""" with (quoted $"edges"). rewrite (same_neq _ _ Ne).
        destruct (same k $"""crs"""); [|destruct (same k $"""crs_type""")].
        - rewrite crs_member_said by exact Hv. destruct (crs_said (Some v)) as [[c|]|]; [| |discriminate]; intros [= <-]; reflexivity.
        - unfold crs_type_member. repeat match goal with |- context [if ?b then _ else _] => destruct b end; try discriminate;
            intros [= <-]; reflexivity.
        - intros [= <-]. reflexivity. }
      rewrite Em. reflexivity.
Qed.

Lemma view_init_edges past fuel b m : metadata_view_init past fuel b = Ok m -> b <> [] ->
  exists ms, loose_document ms b /\
    Forall (fun kv => fst kv = quoted $"edges" -> edges_said (Some (snd kv)) <> None) ms /\
    Some (m_edges m) = edges_said (lookup $"edges" (rev ms)).
Proof.
  intros H Hb. apply view_init_ok in H as [[-> _]|(ms & m0 & Hl & Hf & ->)]; [congruence|].
  exists ms. split; [exact Hl|].
  assert (Hv : Forall (fun kv => loose_value (snd kv)) ms).
  { destruct Hl as (w & w1 & w' & body & _ & _ & _ & _ & H). exact (loose_members_values _ _ H). }
  destruct (members_fold_edges ms Hv _ _ Hf) as [H1 H2]. split; [exact H1|].
  replace (m_edges (finish m0)) with (m_edges m0) by (unfold finish; destruct (m_crs m0); reflexivity).
  rewrite H2. destruct (lookup $"edges" (rev ms)); reflexivity.
Qed.

Lemma view_init_accepted past fuel b m : metadata_view_init past fuel b = Ok m ->
  b = [] /\ m = Metadata EDGE_PLANAR CRS_NONE [] \/
  exists ms, loose_document ms b /\ (NoDup (map fst ms) -> plain_crs_type ms -> described ms = Some m).
Proof.
  intros H. destruct b as [|c b].
  - left. injection H as <-. split; reflexivity.
  - right. destruct (view_init_accepts past fuel _ m H ltac:(discriminate)) as (ms & Hl & Hr). exists ms. split; [exact Hl|].
    intros Hd Hp. rewrite <- (Hr Hd). symmetry. apply read_described; [exact Hp|].
    destruct Hl as (w & w1 & w' & body & _ & _ & _ & _ & Hms). apply loose_members_values in Hms.
    apply forallb_forall. rewrite Forall_forall in Hms. intros kv Hin. apply loose_accepted. apply Hms. exact Hin.
Qed.

Lemma view_init_crs_type past fuel v crs b :
  json_document [(quoted $"crs", crs); (quoted $"crs_type", v)] b \/ json_document [(quoted $"crs_type", v); (quoted $"crs", crs)] b ->
  starts 34 crs || starts 123 crs = true -> accepted_value v = true -> (length b < fuel)%nat ->
  (starts 34 v = true -> meaning_of crs_type_names v <> None \/ forall n t, In (n, t) crs_type_names -> length v <> length (quoted n)) ->
  metadata_view_init past fuel b =
    if starts 34 v then Ok (Metadata EDGE_PLANAR (match meaning_of crs_type_names v with Some t => t | None => CRS_UNKNOWN end) crs)
    else Err EINVAL.
Proof.
  intros Hj Hc Ha Hf Hp.
  assert (Hca : accepted_value crs = true).
  { unfold accepted_value. destruct (starts 34 crs), (starts 123 crs), (same crs $"null"), (starts 91 crs); try reflexivity; discriminate. }
  assert (Hcn : same crs $"null" = false).
  { apply same_neq. intros ->. discriminate. }
  assert (Hcs : crs_said (Some crs) = Some (Some crs)) by (unfold crs_said; rewrite Hcn, Hc; reflexivity).
  destruct Hj as [Hj|Hj].
  - rewrite (view_init_json past fuel _ b Hj).
    + unfold described. cbn [forallb snd]. rewrite Hca, Ha. cbn [andb].
      change (lookup $"edges" [(quoted $"crs", crs); (quoted $"crs_type", v)]) with (@None bytes).
      change (lookup $"crs" [(quoted $"crs", crs); (quoted $"crs_type", v)]) with (Some crs).
      change (lookup $"crs_type" [(quoted $"crs", crs); (quoted $"crs_type", v)]) with (Some v).
      rewrite Hcs. cbn [edges_said crs_type_said]. destruct (starts 34 v); reflexivity.
    + cbn [map fst]. apply NoDup_cons; [vm_compute; intuition discriminate | apply NoDup_cons; [intros [] | apply NoDup_nil]].
    + intros x Hx. change (lookup $"crs_type" [(quoted $"crs", crs); (quoted $"crs_type", v)]) with (Some v) in Hx. injection Hx as <-. exact Hp.
    + exact Hf.
  - rewrite (view_init_json past fuel _ b Hj).
    + unfold described. cbn [forallb snd]. rewrite Hca, Ha. cbn [andb].
      change (lookup $"edges" [(quoted $"crs_type", v); (quoted $"crs", crs)]) with (@None bytes).
      change (lookup $"crs" [(quoted $"crs_type", v); (quoted $"crs", crs)]) with (Some crs).
      change (lookup $"crs_type" [(quoted $"crs_type", v); (quoted $"crs", crs)]) with (Some v).
      rewrite Hcs. cbn [edges_said crs_type_said]. destruct (starts 34 v); reflexivity.
    + cbn [map fst]. apply NoDup_cons; [vm_compute; intuition discriminate | apply NoDup_cons; [intros [] | apply NoDup_nil]].
    + intros x Hx. change (lookup $"crs_type" [(quoted $"crs_type", v); (quoted $"crs", crs)]) with (Some v) in Hx. injection Hx as <-. exact Hp.
    + exact Hf.
Qed.

(** ** A text that is not JSON *)
Definition no_comma_end (b : bytes) : Prop := exists i c, b = i ++ [c] /\ c <> 44%N.
Lemma no_comma_app a b : no_comma_end b -> no_comma_end (a ++ b).
Proof. intros (i & c & -> & H). exists (a ++ i), c. split; [apply app_assoc | exact H]. Qed.
Lemma no_comma_blank b w : no_comma_end b -> blank w -> no_comma_end (b ++ w).
Proof.
  intros Hb Hw. destruct w as [|x w] using rev_ind; [rewrite app_nil_r; exact Hb|].
  apply no_comma_app. apply no_comma_app. apply Forall_app in Hw as [_ Hx]. apply Forall_inv in Hx. exists [], x. split; [reflexivity|].
  intros ->. cbn in Hx. intuition discriminate.
Qed.
Lemma json_no_comma v : json v -> no_comma_end v.
Proof.
  intros H. destruct H.
  - exists $"nul", 108%N. split; [reflexivity | discriminate].
  - exists $"tru", 101%N. split; [reflexivity | discriminate].
  - exists $"fals", 101%N. split; [reflexivity | discriminate].
  - destruct H as (c & s & -> & Hc & Hs).
    assert (Hall : Forall (fun x => x <> 44%N) (c :: s)).
    { constructor.
      - intros ->. vm_compute in Hc. intuition discriminate.
      - eapply Forall_impl; [|exact Hs]. intros x Hx ->. vm_compute in Hx. intuition discriminate. }
    destruct (@exists_last _ (c :: s) ltac:(discriminate)) as (i & x & E). rewrite E in *. exists i, x. split; [reflexivity|].
    apply Forall_app in Hall as [_ Hx]. apply Forall_inv in Hx. exact Hx.
  - destruct H as (s & _ & ->). exists (34%N :: s), 34%N. split; [reflexivity | discriminate].
  - exists ([91%N] ++ w), 93%N. split; [rewrite app_assoc; reflexivity | discriminate].
  - exists ([91%N] ++ b), 93%N. split; [rewrite app_assoc; reflexivity | discriminate].
  - exists ([123%N] ++ w), 125%N. split; [rewrite app_assoc; reflexivity | discriminate].
  - exists ([123%N] ++ b), 125%N. split; [rewrite app_assoc; reflexivity | discriminate].
Qed.
Lemma members_no_comma ms b : json_members ms b -> no_comma_end b.
Proof.
  induction 1 as [w1 k w2 w3 v w4 _ _ _ _ Hv Hw|w1 k w2 w3 v w4 ms b _ _ _ _ _ _ _ IH].
  - do 5 apply no_comma_app. apply no_comma_blank; [apply json_no_comma; exact Hv | exact Hw].
  - repeat apply no_comma_app. exact IH.
Qed.

Lemma trailing_comma_accepted : exists b m, metadata_view_init None 20 b = Ok m /\ forall ms, ~ json_document ms b.
Proof.
  exists $"{""a"":null,}", (Metadata EDGE_PLANAR CRS_NONE []). split; [vm_compute; reflexivity|].
  intros ms (w & w' & body & Hw & Hw' & E & Hb).
  assert (w = []) as ->.
  { destruct w as [|c w]; [reflexivity|]. apply Forall_inv in Hw. injection E as <- _. cbn in Hw. intuition discriminate. }
  assert (w' = []) as ->.
  { destruct w' as [|c w'] using rev_ind; [reflexivity|]. apply Forall_app in Hw' as [_ Hc]. apply Forall_inv in Hc.
    change $"{""a"":null,}" with ($"{""a"":null," ++ [125%N]) in E. rewrite !app_assoc in E. apply app_inj_tail in E as [_ <-].
    cbn in Hc. intuition discriminate. }
  cbn [app] in E. injection E as E.
  assert (body = $"""a"":null,") as ->.
  { match type of E with ?l = _ => change l with ($"""a"":null," ++ [125%N]) in E end. apply app_inj_tail in E as [<- _]. reflexivity. }
  destruct Hb as [[_ Hb]|Hb].
  - apply Forall_inv in Hb. cbn in Hb. intuition discriminate.
  - apply members_no_comma in Hb as (i & c & Ei & Hc). change $"""a"":null," with ($"""a"":null" ++ [44%N]) in Ei.
    apply app_inj_tail in Ei as [_ <-]. congruence.
Qed.
